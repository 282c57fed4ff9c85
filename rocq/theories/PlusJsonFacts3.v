(** * Proofs: what the document of an EGTS-PLUS message determines. *)
From Coq Require Import Ascii String List ZArith Bool Lia ZifyBool ZifyN ZifyNat.
From Verif Require Import GoBase Float64 Storage Json PkgJson Proto PlusJson Spec_Json Spec_PkgJson Spec_Proto Spec_PlusJson
  BaseFacts JsonFacts PkgJsonFacts ProtoFacts3 PlusJsonFacts PlusJsonFacts2.
Import ListNotations.
Open Scope N_scope.

(** ** The text does not depend on the rest *)
Definition vis (o : option pval) : option pval := match o with Some (VBytes []) => None | o => o end.
Lemma vis_empty o : empty_field (vis o) = empty_field o.
Proof. destruct o as [[| | | |[|]]|]; reflexivity. Qed.
Lemma vis_same o : empty_field o = false -> vis o = o.
Proof. destruct o as [[| | | |[|]]|]; try discriminate; reflexivity. Qed.
Lemma leaf_visible ft32 tags x : json_leaf ft32 tags (visible_leaf x) = json_leaf ft32 tags x.
Proof.
  unfold json_leaf. f_equal. unfold leaf_members. induction tags as [|kn tags IH]; [reflexivity|]. cbn [flat_map]. rewrite IH. f_equal.
  unfold visible_leaf. cbn [lf_vals]. change (fun o : option pval => match o with Some (VBytes []) => None | _ => o end) with vis.
  assert (E : nth (N.to_nat (snd kn - 1)) (map vis (lf_vals x)) None = vis (nth (N.to_nat (snd kn - 1)) (lf_vals x) None)).
  { change None with (vis None) at 1. apply map_nth. }
  rewrite E, vis_empty. destruct (empty_field _) eqn:He; [reflexivity|]. rewrite (vis_same _ He). reflexivity.
Qed.
Lemma plus_visible ft32 m : plus_json ft32 (visible m) = plus_json ft32 m.
Proof.
  rewrite !top_flat. f_equal. apply flat_map_ext. intros kn. unfold top_member, visible. cbn [sr_number sr_time sr_reasons sr_flags sr_sensors].
  do 4 (destruct (_ =? _); [reflexivity|]). cbv zeta. f_equal.
  change (@nil leaf) with (map visible_leaf []) at 1. rewrite map_nth, map_map. apply map_ext. intros x. apply leaf_visible.
Qed.

(** ** What the document says is the visible part *)
Lemma jarray_both {A B} (p : A -> json -> Prop) (q : B -> json -> Prop) l l' v : jarray p l v -> jarray q l' v ->
  Forall2 (fun a b => exists w, p a w /\ q b w) l l'.
Proof.
  intros (vs & -> & H1) (vs' & Hv & H2). injection Hv as <-. revert l' H2. induction H1 as [|a w l vs Ha _ IH]; intros l' H2; inversion H2; subst; [constructor|].
  constructor; [eauto|apply IH; assumption].
Qed.
Lemma names_18 : List.length sensor_names = 18%nat. Proof. reflexivity. Qed.
Local Opaque sensor_names.
Section Same.
Variable jf32 : N -> json.
Hypothesis Hinj : forall a b, a < 2 ^ 32 -> b < 2 ^ 32 -> finite32 a -> finite32 b -> jf32 a = jf32 b -> a = b.

Lemma value_same ty v v' w : pval_ok ty v -> pval_ok ty v' -> (forall bits, v = VFloat bits -> finite32 bits) -> (forall bits, v' = VFloat bits -> finite32 bits) ->
  value_doc jf32 v w -> value_doc jf32 v' w -> v = v'.
Proof.
  intros H H' F F' D D'. destruct ty, v, v'; cbn [pval_ok value_doc] in *; try contradiction; try (f_equal; congruence).
  - f_equal. rewrite D in D'. injection D' as D'. lia.
  - f_equal. apply Hinj; [assumption|assumption|apply F; reflexivity|apply F'; reflexivity|congruence].
  - destruct D as (t & -> & D), D' as (t' & E & D'). injection E as <-. congruence.
Qed.
Lemma leaf_same sch names x y v : NoDup names -> List.length names = List.length sch -> vals_ok sch (lf_vals x) -> vals_ok sch (lf_vals y) ->
  (forall bits, In (Some (VFloat bits)) (lf_vals x) -> finite32 bits) -> (forall bits, In (Some (VFloat bits)) (lf_vals y) -> finite32 bits) ->
  sensor_doc jf32 names x v -> sensor_doc jf32 names y v -> visible_leaf x = visible_leaf y.
Proof.
  intros Hnd Hlen Hx Hy Fx Fy Dx Dy. assert (Lx := f2_len _ _ _ Hx). assert (Ly := f2_len _ _ _ Hy).
  pose proof (members_both names (field_doc jf32) (field_doc jf32) v (lf_vals x) (lf_vals y) Hnd ltac:(congruence) ltac:(congruence) Dx Dy) as H.
  unfold visible_leaf. f_equal. clear Dx Dy Lx Ly Hlen Hnd. revert sch Hx Hy.
  induction H as [|a b l l' Hab _ IH]; intros sch Hx Hy; [reflexivity|]. inversion Hx as [|ty ? sch' ? Oa Hx']; subst. inversion Hy as [|? ? ? ? Ob Hy']; subst. cbn [map].
  rewrite (IH ltac:(intros; apply Fx; right; assumption) ltac:(intros; apply Fy; right; assumption) sch' Hx' Hy'). f_equal. change (vis a = vis b).
  destruct (field_doc jf32 a) as [p|] eqn:Ea, (field_doc jf32 b) as [q|] eqn:Eb; try contradiction.
  - destruct Hab as (w & Hp & Hq). apply field_some in Ea, Eb. destruct Ea as (va & -> & Ea & ->), Eb as (vb & -> & Eb & ->).
    rewrite (vis_same _ Ea), (vis_same _ Eb). f_equal. apply (value_same ty va vb w Oa Ob); [intros bits ->; apply Fx; left; reflexivity|intros bits ->; apply Fy; left; reflexivity|exact Hp|exact Hq].
  - destruct a as [[| | | |[|]]|]; try discriminate Ea; destruct b as [[| | | |[|]]|]; try discriminate Eb; reflexivity.
Qed.
Lemma list_same {A B} (p : A -> json -> Prop) (q : B -> json -> Prop) l l' :
  match list_doc p l, list_doc q l' with Some p, Some q => exists w, p w /\ q w | None, None => True | _, _ => False end ->
  Forall2 (fun a b => exists w, p a w /\ q b w) l l'.
Proof.
  destruct l as [|a l], l' as [|b l']; cbn [list_doc]; try contradiction; [constructor|]. intros (w & H1 & H2). exact (jarray_both _ _ _ _ _ H1 H2).
Qed.
Lemma num_same (a b : option N) : match option_map jnat a, option_map jnat b with Some p, Some q => exists w, p w /\ q w | None, None => True | _, _ => False end -> a = b.
Proof. destruct a, b; cbn; try contradiction; [|reflexivity]. unfold jnat. intros (w & -> & H). injection H as H. f_equal. lia. Qed.

Theorem plus_same m n v : record_ok m -> record_ok n ->
  (forall bits, In bits (fuel_levels m) -> finite32 bits) -> (forall bits, In bits (fuel_levels n) -> finite32 bits) ->
  plus_doc jf32 m v -> plus_doc jf32 n v -> visible m = visible n.
Proof.
  intros Hm Hn Fm Fn Dm Dn. assert (Lm := sensors_len m Hm). assert (Ln := sensors_len n Hn).
  rewrite (plus_doc_combine jf32 m Lm) in Dm. rewrite (plus_doc_combine jf32 n Ln) in Dn.
  pose proof (members_both _ _ _ v _ _ (distinct_nodup _ top_distinct) (top_docs_length jf32 m Lm) (top_docs_length jf32 n Ln) Dm Dn) as H.
  unfold top_docs in H. cbn [app] in H.
  inversion H as [|? ? ? ? H1 H']; subst; clear H. inversion H' as [|? ? ? ? H2 H]; subst; clear H'. inversion H as [|? ? ? ? H3 H']; subst; clear H.
  inversion H' as [|? ? ? ? H4 H5]; subst; clear H'.
  apply num_same in H1, H2, H4. apply list_same in H3.
  assert (E3 : sr_reasons m = sr_reasons n).
  { clear - H3. induction H3 as [|a b l l' (w & -> & Hw) _ IH]; [reflexivity|]. injection Hw as ->. rewrite IH. reflexivity. }
  unfold visible. rewrite H1, H2, E3, H4. f_equal.
  assert (G : forall i, (i < 18)%nat -> map visible_leaf (nth i (sr_sensors m) []) = map visible_leaf (nth i (sr_sensors n) [])).
  { intros i Hi. destruct (table_ok i Hi) as [T1 T2]. destruct (match_spec _ _ _ T1) as (_ & _ & Nd & _).
    assert (L : Forall2 (fun a b => exists w, sensor_doc jf32 (names_of i) a w /\ sensor_doc jf32 (names_of i) b w) (nth i (sr_sensors m) []) (nth i (sr_sensors n) [])).
    { apply list_same. clear - H5 Hi Lm Ln. unfold names_of. pose proof names_18 as Ls. revert H5.
      rewrite <- Ls in Hi. assert (Hm' : List.length (sr_sensors m) = List.length sensor_names) by congruence. assert (Hn' : List.length (sr_sensors n) = List.length sensor_names) by congruence.
      clear Ls Lm Ln. revert i Hi Hm' Hn'. generalize (sr_sensors m) (sr_sensors n). generalize sensor_names.
      induction l as [|s l IH]; intros [|a lm] [|b ln] i Hi Hm' Hn' H; try discriminate; [cbn in Hi; lia|]. cbn [combine map fst snd List.length] in *. inversion H; subst.
      destruct i as [|i]; [assumption|]. cbn [nth]. apply IH; [lia|lia|lia|assumption]. }
    assert (Om : forall x, In x (nth i (sr_sensors m) []) -> vals_ok (nth i schemas []) (lf_vals x) /\ forall bits, In (Some (VFloat bits)) (lf_vals x) -> finite32 bits).
    { intros x Hx. destruct (sensors_of m i x Hm Hx) as (_ & Ho & _). split; [exact Ho|]. intros bits Hb. apply Fm. exact (floats_at m i x bits Hm Hx Hb). }
    assert (On : forall x, In x (nth i (sr_sensors n) []) -> vals_ok (nth i schemas []) (lf_vals x) /\ forall bits, In (Some (VFloat bits)) (lf_vals x) -> finite32 bits).
    { intros x Hx. destruct (sensors_of n i x Hn Hx) as (_ & Ho & _). split; [exact Ho|]. intros bits Hb. apply Fn. exact (floats_at n i x bits Hn Hx Hb). }
    induction L as [|a b l l' (w & Ha & Hb) _ IH]; [reflexivity|]. cbn [map].
    rewrite IH; [|intros; apply Om; right; assumption|intros; apply On; right; assumption]. f_equal.
    destruct (Om a (or_introl eq_refl)) as [O1 F1]. destruct (On b (or_introl eq_refl)) as [O2 F2].
    exact (leaf_same _ _ _ _ _ Nd T2 O1 O2 F1 F2 Ha Hb). }
  clear - G Lm Ln. revert Lm Ln G. generalize (sr_sensors m) (sr_sensors n) 18%nat. induction l as [|a l IH]; intros [|b l'] k L1 L2 G; try (cbn in *; congruence).
  cbn [map]. f_equal; [exact (G 0%nat ltac:(cbn in L1; lia))|]. apply (IH l' (pred k)); [cbn in L1; lia|cbn in L2; lia|]. intros i Hi. exact (G (S i) ltac:(lia)).
Qed.
End Same.
