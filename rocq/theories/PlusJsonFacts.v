(** * Proofs: the JSON text of an EGTS-PLUS message reads back as Spec_PlusJson says. *)
From Coq Require Import Ascii String List ZArith Bool Lia ZifyBool ZifyN ZifyNat.
From Verif Require Import GoBase Float64 Storage Json PkgJson Proto PlusJson Spec_Json Spec_PkgJson Spec_Proto Spec_PlusJson
  BaseFacts JsonFacts PkgJsonFacts ProtoFacts3.
Import ListNotations.
Open Scope N_scope.

(** ** Objects with members in any order *)
Lemma reads_empty : reads_as (json_struct []) (JObj []).
Proof. intros [|f] rest _ Hl; [cbn in Hl; lia|]. reflexivity. Qed.
Lemma reads_true : reads_as (ltext "true") (JBool true).
Proof. intros [|f] rest _ Hl; [cbn in Hl; lia|]. reflexivity. Qed.
Lemma reads_false : reads_as (ltext "false") (JBool false).
Proof. intros [|f] rest _ Hl; [cbn in Hl; lia|]. reflexivity. Qed.
Lemma key_inj s s' : key s = key s' -> s = s'.
Proof.
  unfold key. revert s'. induction s as [|c s IH]; intros [|c' s'] H; cbn in H; try discriminate; [reflexivity|].
  injection H as Hc H. f_equal; [|apply IH, H]. rewrite <- (ascii_N_embedding c), <- (ascii_N_embedding c'), Hc. reflexivity.
Qed.
Lemma members_none fs : json_members fs = None <-> exists k, In (k, None) fs.
Proof.
  unfold json_members. split.
  - intros H. assert (G : all_some (map (fun kv : string * option gostr => match snd kv with Some t => Some (fst kv, t) | None => None end) fs) = None)
      by (destruct (all_some _); [discriminate|reflexivity]). clear H.
    induction fs as [|[k [t|]] fs IH]; cbn in G; [discriminate| |exists k; left; reflexivity].
    destruct (all_some _); [discriminate|]. destruct (IH eq_refl) as (k' & Hk). exists k'. right. exact Hk.
  - intros (k & H). assert (all_some (map (fun kv : string * option gostr => match snd kv with Some t => Some (fst kv, t) | None => None end) fs) = None) as ->; [|reflexivity].
    induction fs as [|[k' [t|]] fs IH]; cbn; [destruct H| |reflexivity]. destruct H as [H|H]; [discriminate|]. rewrite (IH H). reflexivity.
Qed.
Lemma members_read (fs : list (string * option gostr)) (spec : list (string * option (json -> Prop))) :
  NoDup (map fst fs) -> Forall (fun kv => forallb html_safe (ltext (fst kv)) = true) fs ->
  NoDup (map fst spec) ->
  (forall k o, In (k, o) fs -> exists t p, o = Some t /\ In (k, Some p) spec /\ exists v, reads_as t v /\ p v) ->
  (forall k p, In (k, Some p) spec -> In k (map fst fs)) ->
  exists t v, json_members fs = Some t /\ reads_as t v /\ jmembers spec v.
Proof.
  intros Hnd Hsafe Hns H1 H2.
  assert (G : exists gs ms, all_some (map (fun kv : string * option gostr => match snd kv with Some t => Some (fst kv, t) | None => None end) fs) = Some gs /\
    Forall2 (fun kv m => reads_as (snd kv) (snd m) /\ ltext (fst kv) = fst m /\ forallb html_safe (ltext (fst kv)) = true) gs ms /\
    map fst ms = map (fun kv => key (fst kv)) fs /\
    (forall k v, In (k, v) ms -> exists s p, k = key s /\ In (s, Some p) spec /\ p v)).
  { clear Hnd H2. induction fs as [|[k o] fs IH]; [exists [], []; repeat split; [constructor|intros k v []]|].
    inversion Hsafe as [|? ? Hk Hs]; subst. destruct (IH Hs) as (gs & ms & A & B & C & D); [intros; apply H1; right; assumption|].
    destruct (H1 k o (or_introl eq_refl)) as (t & p & -> & Hin & v & Hr & Hp).
    exists ((k, t) :: gs), ((key k, v) :: ms). cbn [map all_some fst snd]. rewrite A. split; [reflexivity|]. split; [constructor; [cbn; auto|exact B]|].
    split; [cbn; rewrite C; reflexivity|]. intros k' v' [E|E]; [injection E as <- <-; eauto|apply D, E]. }
  destruct G as (gs & ms & A & B & C & D). unfold json_members. rewrite A. exists (json_struct gs), (JObj ms). split; [reflexivity|].
  split. { destruct B as [|x y gs ms Hx B]; [exact reads_empty|]. apply reads_struct; [constructor; assumption|discriminate]. }
  exists ms. split; [reflexivity|]. split; [|split; [exact D|]].
  - rewrite C. assert (E : map (fun kv : string * option gostr => key (fst kv)) fs = map key (map fst fs)) by (rewrite map_map; reflexivity). rewrite E.
    clear - Hnd. induction Hnd as [|k l Hk _ IH]; cbn [map]; constructor; [|exact IH]. intros X. apply in_map_iff in X. destruct X as (s & Hs & Hin). apply key_inj in Hs. subst. contradiction.
  - intros s p Hin. specialize (H2 s p Hin). apply in_map_iff in H2. destruct H2 as ((k & o) & Hk & Hin'). cbn in Hk. subst k.
    assert (Hm : In (key s) (map fst ms)) by (rewrite C; apply in_map_iff; exists (s, o); auto).
    apply in_map_iff in Hm. destruct Hm as ((k & v) & Hk & Hv). cbn in Hk. subst k. exists v. split; [exact Hv|].
    destruct (D _ _ Hv) as (s' & p' & Hk & Hin2 & Hp). apply key_inj in Hk. subst s'.
    assert (Some p' = Some p) as E; [|injection E as <-; exact Hp].
    clear - Hns Hin Hin2. induction spec as [|[a q] l IH]; [destruct Hin|]. cbn in Hns. inversion Hns as [|? ? Ha Hl]; subst.
    destruct Hin as [E|Hin], Hin2 as [E'|Hin2].
    + congruence.
    + exfalso. injection E as -> ->. apply Ha, in_map_iff. exists (s, Some p'). auto.
    + exfalso. injection E' as -> ->. apply Ha, in_map_iff. exists (s, Some p). auto.
    + apply IH; assumption.
Qed.
(** Two descriptions under the same names that one object meets. *)
Lemma members_both {A B} (names : list string) (f : A -> option (json -> Prop)) (g : B -> option (json -> Prop)) v l l' :
  NoDup names -> List.length l = List.length names -> List.length l' = List.length names ->
  jmembers (combine names (map f l)) v -> jmembers (combine names (map g l')) v ->
  Forall2 (fun a b => match f a, g b with
                      | Some p, Some q => exists w, p w /\ q w
                      | None, None => True
                      | _, _ => False end) l l'.
Proof.
  intros Hnd Hl Hl' (ms & -> & N1 & D1 & E1) (ms' & Hm & _ & D2 & E2). injection Hm as <-.
  assert (Nuniq : forall k a b, In (k, a) ms -> In (k, b) ms -> a = b).
  { clear - N1. induction ms as [|[k0 v0] ms IH]; intros k a b Ha Hb; [destruct Ha|]. cbn in N1. inversion N1 as [|? ? Hn Hr]; subst.
    destruct Ha as [Ha|Ha], Hb as [Hb|Hb].
    - congruence.
    - exfalso. injection Ha as -> ->. apply Hn, in_map_iff. exists (k, b). auto.
    - exfalso. injection Hb as -> ->. apply Hn, in_map_iff. exists (k, a). auto.
    - eapply IH; eassumption. }
  assert (G : forall names l l' (pre : list string), NoDup (pre ++ names) -> List.length l = List.length names -> List.length l' = List.length names ->
    (forall s p, In s names -> (In (s, Some p) (combine names (map f l)) -> exists v, In (key s, v) ms /\ p v)) ->
    (forall s p, In s names -> (In (s, Some p) (combine names (map g l')) -> exists v, In (key s, v) ms /\ p v)) ->
    (forall s v, In s names -> In (key s, v) ms -> exists p, In (s, Some p) (combine names (map f l)) /\ p v) ->
    (forall s v, In s names -> In (key s, v) ms -> exists p, In (s, Some p) (combine names (map g l')) /\ p v) ->
    Forall2 (fun a b => match f a, g b with
                      | Some p, Some q => exists w, p w /\ q w
                      | None, None => True
                      | _, _ => False end) l l').
  { clear - Nuniq. induction names as [|s names IH]; intros [|a l] [|b l'] pre Hnd Hl Hl' P Q R S; try discriminate; [constructor|].
    cbn [map combine List.length] in *. pose proof (NoDup_remove_2 _ _ _ Hnd) as Hns. rewrite in_app_iff in Hns.
    assert (Hnotin : forall p (X : list (option (json -> Prop))), ~ In (s, p) (combine names X)).
    { intros p X Hin. apply Hns. right. exact (in_combine_l _ _ _ _ Hin). }
    constructor.
    - specialize (P s). specialize (Q s). specialize (R s). specialize (S s).
      destruct (f a) as [p|] eqn:Ef, (g b) as [q|] eqn:Eg; [| | |exact I].
      + destruct (P p (or_introl eq_refl) (or_introl eq_refl)) as (v & Hv & Hp). destruct (Q q (or_introl eq_refl) (or_introl eq_refl)) as (w & Hw & Hq).
        rewrite (Nuniq _ _ _ Hw Hv) in Hq. exists v. auto.
      + destruct (P p (or_introl eq_refl) (or_introl eq_refl)) as (v & Hv & Hp). destruct (S v (or_introl eq_refl) Hv) as (q & [E|E] & _); [congruence|exact (Hnotin _ _ E)].
      + destruct (Q q (or_introl eq_refl) (or_introl eq_refl)) as (v & Hv & Hp). destruct (R v (or_introl eq_refl) Hv) as (p & [E|E] & _); [congruence|exact (Hnotin _ _ E)].
    - assert (Hne : forall s', In s' names -> s' <> s) by (intros s' H' ->; apply Hns; right; exact H').
      apply (IH l l' (pre ++ [s])); [rewrite <- app_assoc; exact Hnd|lia|lia| | | |].
      + intros s' p Hs' Hin. apply (P s' p (or_intror Hs') (or_intror Hin)).
      + intros s' p Hs' Hin. apply (Q s' p (or_intror Hs') (or_intror Hin)).
      + intros s' v Hs' Hin. destruct (R s' v (or_intror Hs') Hin) as (p & [E|E] & Hp); [exfalso; apply (Hne s' Hs'); congruence|eauto].
      + intros s' v Hs' Hin. destruct (S s' v (or_intror Hs') Hin) as (p & [E|E] & Hp); [exfalso; apply (Hne s' Hs'); congruence|eauto]. }
  apply (G names l l' []); try assumption.
  - intros s p _ H. apply E1, H.
  - intros s p _ H. apply E2, H.
  - intros s w _ H. destruct (D1 _ _ H) as (s' & p & Hk & Hin & Hp). apply key_inj in Hk. subst. eauto.
  - intros s w _ H. destruct (D2 _ _ H) as (s' & p & Hk & Hin & Hp). apply key_inj in Hk. subst. eauto.
Qed.

(** ** The tables agree *)
Fixpoint distinct (l : list string) : bool :=
  match l with [] => true | s :: l' => negb (existsb (String.eqb s) l') && distinct l' end.
Lemma distinct_nodup l : distinct l = true -> NoDup l.
Proof.
  induction l as [|s l IH]; intros H; [constructor|]. cbn in H. apply andb_true_iff in H. destruct H as [H1 H2]. constructor; [|apply IH, H2].
  intros Hin. apply negb_true_iff in H1. assert (existsb (String.eqb s) l = true); [|congruence]. apply existsb_exists. exists s. split; [exact Hin|apply String.eqb_refl].
Qed.
Definition same_string (o : option string) (s : string) : bool := match o with Some s' => String.eqb s' s | None => false end.
Definition tags_match (base : N) (tags : list (string * N)) (names : list string) : bool :=
  forallb (fun kn => same_string (nth_error names (N.to_nat (snd kn - base))) (fst kn)) tags &&
  forallb (fun j => existsb (fun kn => N.to_nat (snd kn - base) =? j)%nat tags) (seq 0 (List.length names)) &&
  distinct names && distinct (map fst tags) && forallb (fun kn => forallb html_safe (ltext (fst kn))) tags.
Lemma match_spec base tags names : tags_match base tags names = true ->
  (forall k n, In (k, n) tags -> nth_error names (N.to_nat (n - base)) = Some k) /\
  (forall j k, nth_error names j = Some k -> exists n, In (k, n) tags /\ N.to_nat (n - base) = j) /\
  NoDup names /\ NoDup (map fst tags) /\ (forall k n, In (k, n) tags -> forallb html_safe (ltext k) = true).
Proof.
  unfold tags_match. rewrite !andb_true_iff, !forallb_forall. intros ((((H1 & H2) & H3) & H4) & H5).
  assert (G : forall k n, In (k, n) tags -> nth_error names (N.to_nat (n - base)) = Some k).
  { intros k n Hin. specialize (H1 _ Hin). cbn [fst snd] in H1. unfold same_string in H1. destruct (nth_error names _); [|discriminate]. apply String.eqb_eq in H1. congruence. }
  split; [exact G|]. split.
  - intros j k Hj. assert (Hlt : (j < List.length names)%nat) by (apply nth_error_Some; congruence).
    specialize (H2 j). rewrite in_seq, existsb_exists in H2. destruct (H2 ltac:(lia)) as ((k' & n) & Hin & Hn). cbn [snd] in Hn. apply Nat.eqb_eq in Hn.
    exists n. split; [|exact Hn]. specialize (G _ _ Hin). rewrite Hn in G. replace k with k' by congruence. exact Hin.
  - split; [apply distinct_nodup, H3|]. split; [apply distinct_nodup, H4|]. intros k n Hin. exact (H5 _ Hin).
Qed.
Definition names_of (i : nat) : list string := snd (nth i sensor_names (EmptyString, [])).
Lemma table_ok i : (i < 18)%nat -> tags_match 1 (nth i leaf_tags []) (names_of i) = true /\ List.length (names_of i) = List.length (nth i schemas []).
Proof.
  intros H. assert (G : forallb (fun i => tags_match 1 (nth i leaf_tags []) (names_of i) && (List.length (names_of i) =? List.length (nth i schemas []))%nat) (seq 0 18) = true) by (vm_compute; reflexivity).
  rewrite forallb_forall in G. specialize (G i). rewrite in_seq in G. specialize (G ltac:(lia)). apply andb_true_iff in G. destruct G as [G1 G2].
  split; [exact G1|apply Nat.eqb_eq, G2].
Qed.
Lemma sensor_table_ok : tags_match 7 sensor_tags (map fst sensor_names) = true.
Proof. vm_compute. reflexivity. Qed.
Definition is_float (ty : ptype) : bool := match ty with PFloat => true | _ => false end.
Lemma float_place i j : (i < 18)%nat -> nth_error (nth i schemas []) j = Some PFloat -> i = 1%nat /\ j = 1%nat.
Proof.
  intros Hi Hj.
  assert (G : forallb (fun i => forallb (fun j => match nth_error (nth i schemas []) j with Some PFloat => (i =? 1)%nat && (j =? 1)%nat | _ => true end)
    (seq 0 (List.length (nth i schemas [])))) (seq 0 18) = true) by (vm_compute; reflexivity).
  rewrite forallb_forall in G. specialize (G i). rewrite in_seq in G. specialize (G ltac:(lia)). rewrite forallb_forall in G. specialize (G j).
  assert (Hlt : (j < List.length (nth i schemas []))%nat) by (apply nth_error_Some; congruence). rewrite in_seq in G. specialize (G ltac:(lia)).
  rewrite Hj in G. apply andb_true_iff in G. destruct G as [G1 G2]. split; apply Nat.eqb_eq; assumption.
Qed.

(** ** Sensor messages *)
Lemma nth_error_combine {A B} (l : list A) (l' : list B) a b :
  In (a, b) (combine l l') <-> exists j, nth_error l j = Some a /\ nth_error l' j = Some b.
Proof.
  revert l'. induction l as [|x l IH]; intros [|y l']; cbn [combine].
  - split; [intros []|intros ([|j] & H & _); discriminate].
  - split; [intros []|intros ([|j] & H & _); discriminate].
  - split; [intros []|intros ([|j] & _ & H); discriminate].
  - split.
    + intros [E|H]; [injection E as -> ->; exists 0%nat; auto|]. apply IH in H. destruct H as (j & H). exists (S j). exact H.
    + intros ([|j] & H1 & H2); [left; cbn in *; congruence|right]. apply IH. exists j. auto.
Qed.
Lemma names_sub {A} (f : string * N -> list (string * A)) tags :
  (forall kn x, In x (f kn) -> fst x = fst kn) -> (forall kn, (List.length (f kn) <= 1)%nat) -> NoDup (map fst tags) -> NoDup (map fst (flat_map f tags)).
Proof.
  intros Hf Hlen. induction tags as [|kn tags IH]; intros H; [constructor|]. cbn [map] in H. inversion H as [|? ? Hn Hd]; subst. cbn [flat_map]. rewrite map_app.
  specialize (Hlen kn). pose proof (Hf kn) as Hk. destruct (f kn) as [|x [|y l]]; cbn in Hlen; [apply IH, Hd| |lia]. cbn [map app].
  constructor; [|apply IH, Hd]. rewrite (Hk x (or_introl eq_refl)). intros Hin. apply Hn. apply in_map_iff in Hin. destruct Hin as (z & Hz & Hin).
  apply in_flat_map in Hin. destruct Hin as (kn' & Hin & Hz'). rewrite <- Hz, (Hf _ _ Hz'). apply in_map, Hin.
Qed.
Lemma finite32_eq bits : finite32 bits <-> (bits / 8388608 mod 256 =? 255) = false.
Proof. unfold finite32. rewrite N.eqb_neq. change (2 ^ 23) with 8388608. change (2 ^ 8 - 1) with 255. change (2 ^ 8) with 256. tauto. Qed.

Lemma f2_len {A B} (R : A -> B -> Prop) l l' : Forall2 R l l' -> List.length l' = List.length l.
Proof. induction 1; cbn; congruence. Qed.

Section Leaf.
Variable ft32 : N -> gostr.
Variable jf32 : N -> json.
Hypothesis Hft : forall bits, bits < 2 ^ 32 -> finite32 bits -> read_num (ft32 bits) = Some (jf32 bits, []).

Lemma in_leaf_members tags names x k o : tags_match 1 tags names = true ->
  (In (k, o) (leaf_members ft32 tags x) <-> exists j v, nth_error names j = Some k /\ nth_error (lf_vals x) j = Some (Some v) /\
     empty_field (Some v) = false /\ o = json_pval ft32 v).
Proof.
  intros Ht. destruct (match_spec _ _ _ Ht) as (M1 & M2 & _). unfold leaf_members. rewrite in_flat_map. split.
  - intros ((k' & n) & Hin & Ho). cbn [fst snd] in Ho. destruct (nth (N.to_nat (n - 1)) (lf_vals x) None) as [v|] eqn:Ev; cbn [empty_field] in Ho; [|destruct Ho].
    exists (N.to_nat (n - 1)), v. destruct (empty_field (Some v)) eqn:Ee; [cbn [empty_field] in Ee; rewrite Ee in Ho; destruct Ho|].
    cbn [empty_field] in Ee. rewrite Ee in Ho. destruct Ho as [E|[]]. injection E as <- <-. split; [apply M1, Hin|]. split; [|split; reflexivity].
    destruct (nth_error (lf_vals x) (N.to_nat (n - 1))) as [w|] eqn:Hw; [rewrite (nth_error_nth _ _ None Hw) in Ev; congruence|].
    apply nth_error_None in Hw. rewrite nth_overflow in Ev by exact Hw. discriminate.
  - intros (j & v & Hj & Hv & He & ->). destruct (M2 _ _ Hj) as (n & Hin & Hn). exists (k, n). split; [exact Hin|]. cbn [fst snd]. rewrite Hn, (nth_error_nth _ _ None Hv), He. left. reflexivity.
Qed.
Lemma pval_read ty v : pval_ok ty v -> empty_field (Some v) = false -> (forall bits, v = VFloat bits -> finite32 bits) ->
  exists t, json_pval ft32 v = Some t /\ exists w, reads_as t w /\ value_doc jf32 v w.
Proof.
  intros Hok He Hfin. destruct v as [n|b|z|bits|s]; cbn [json_pval value_doc].
  - eexists. split; [reflexivity|]. eexists. split; [apply reads_uint|reflexivity].
  - eexists. split; [reflexivity|]. exists (JBool b). split; [destruct b; [exact reads_true|exact reads_false]|reflexivity].
  - eexists. split; [reflexivity|]. eexists. split; [apply reads_int|reflexivity].
  - unfold json_float32. assert (F := Hfin _ eq_refl). rewrite (proj1 (finite32_eq bits) F). eexists. split; [reflexivity|].
    exists (jf32 bits). split; [|reflexivity]. apply reads_float, Hft; [|exact F]. destruct ty; cbn in Hok; try contradiction. exact Hok.
  - destruct ty; cbn in Hok; try contradiction. destruct s as [|a s]; [discriminate|]. eexists. split; [reflexivity|].
    destruct (reads_bytes (a :: s) (proj1 Hok)) as (w & Hw & Hd). exists w. split; [exact Hw|exact Hd].
Qed.
Lemma field_some o p : field_doc jf32 o = Some p <-> exists v, o = Some v /\ empty_field (Some v) = false /\ p = value_doc jf32 v.
Proof.
  split.
  - destruct o as [v|]; cbn [field_doc]; [|discriminate]. intros H. exists v.
    destruct v as [n|b|z|bits|[|a s]]; try discriminate H; injection H as <-; repeat split; reflexivity.
  - intros (v & -> & He & ->). destruct v as [n|b|z|bits|[|a s]]; try discriminate He; reflexivity.
Qed.
Lemma vals_nth sch vals j v : vals_ok sch vals -> nth_error vals j = Some (Some v) -> exists ty, nth_error sch j = Some ty /\ pval_ok ty v.
Proof.
  intros H. revert j. induction H as [|ty o sch vals Ho H IH]; intros [|j] Hj; try discriminate; cbn in *; [injection Hj as ->; eauto|apply IH, Hj].
Qed.
Lemma leaf_safe tags names x : tags_match 1 tags names = true ->
  NoDup (map fst (leaf_members ft32 tags x)) /\ Forall (fun kv => forallb html_safe (ltext (fst kv)) = true) (leaf_members ft32 tags x).
Proof.
  intros Ht. destruct (match_spec _ _ _ Ht) as (M1 & M2 & M3 & M4 & M5). split.
  - apply names_sub; [| |exact M4].
    + intros (k & n) (k' & o) H. cbn [fst snd] in *. destruct (empty_field _); [destruct H|]. destruct H as [E|[]]. congruence.
    + intros (k & n). cbn [fst snd]. destruct (empty_field (nth (N.to_nat (n - 1)) (lf_vals x) None)); cbn; lia.
  - apply Forall_forall. intros (k & o) Hin. apply in_flat_map in Hin. destruct Hin as ((k' & n) & Hin & Ho). cbn [fst snd] in *.
    destruct (empty_field _); [destruct Ho|]. destruct Ho as [E|[]]. injection E as <- _. exact (M5 _ _ Hin).
Qed.
Lemma combine_fst {A B} (l : list A) (l' : list B) : List.length l' = List.length l -> map fst (combine l l') = l.
Proof. revert l'. induction l as [|x l IH]; intros [|y l'] H; try discriminate; [reflexivity|]. cbn in *. rewrite IH by lia. reflexivity. Qed.
Lemma leaf_read sch tags names x : tags_match 1 tags names = true -> List.length names = List.length sch -> vals_ok sch (lf_vals x) ->
  (forall bits, In (Some (VFloat bits)) (lf_vals x) -> finite32 bits) ->
  exists t, json_leaf ft32 tags x = Some t /\ exists v, reads_as t v /\ sensor_doc jf32 names x v.
Proof.
  intros Ht Hlen Hok Hfin. destruct (match_spec _ _ _ Ht) as (M1 & M2 & M3 & M4 & M5).
  assert (Hl : List.length (lf_vals x) = List.length names) by (rewrite Hlen; exact (f2_len _ _ _ Hok)).
  destruct (leaf_safe tags names x Ht) as (S1 & S2).
  destruct (members_read (leaf_members ft32 tags x) (combine names (map (field_doc jf32) (lf_vals x)))) as (t & v & H1 & H2 & H3);
    [exact S1|exact S2|rewrite combine_fst by (rewrite map_length; exact Hl); exact M3| | |exists t; split; [exact H1|exists v; split; assumption]].
  - intros k o Hin. apply (in_leaf_members tags names) in Hin; [|exact Ht]. destruct Hin as (j & v & Hj & Hv & He & ->).
    destruct (vals_nth _ _ _ _ Hok Hv) as (ty & _ & Hty).
    destruct (pval_read ty v Hty He) as (t & Ht' & Hw); [intros bits ->; apply Hfin; exact (nth_error_In _ _ Hv)|].
    exists t, (value_doc jf32 v). split; [exact Ht'|]. split; [|exact Hw].
    apply nth_error_combine. exists j. split; [exact Hj|]. rewrite nth_error_map, Hv. cbn [option_map]. apply f_equal, field_some. eauto.
  - intros k p Hin. apply nth_error_combine in Hin. destruct Hin as (j & Hj & Hp). rewrite nth_error_map in Hp.
    destruct (nth_error (lf_vals x) j) as [o|] eqn:Ho; [|discriminate]. cbn [option_map] in Hp. injection Hp as Hp. apply field_some in Hp. destruct Hp as (v & -> & He & _).
    apply in_map_iff. exists (k, json_pval ft32 v). split; [reflexivity|]. apply (in_leaf_members tags names); [exact Ht|]. exists j, v. auto.
Qed.
Lemma leaf_none tags names x : tags_match 1 tags names = true -> List.length (lf_vals x) = List.length names ->
  (json_leaf ft32 tags x = None <-> exists bits, In (Some (VFloat bits)) (lf_vals x) /\ ~ finite32 bits).
Proof.
  intros Ht Hl. unfold json_leaf. rewrite members_none. split.
  - intros (k & Hin). apply (in_leaf_members tags names) in Hin; [|exact Ht]. destruct Hin as (j & v & _ & Hv & _ & Hn).
    destruct v as [n|b|z|bits|s]; try discriminate Hn. exists bits. split; [exact (nth_error_In _ _ Hv)|]. rewrite finite32_eq. cbn in Hn. unfold json_float32 in Hn.
    destruct (_ =? 255); [discriminate|discriminate].
  - intros (bits & Hin & Hb). apply In_nth_error in Hin. destruct Hin as (j & Hj). destruct (nth_error names j) as [k|] eqn:Hk.
    + exists k. apply (in_leaf_members tags names); [exact Ht|]. exists j, (VFloat bits). split; [exact Hk|]. split; [exact Hj|]. split; [reflexivity|].
      cbn. unfold json_float32. rewrite finite32_eq in Hb. destruct (_ =? 255); [reflexivity|congruence].
    + exfalso. apply nth_error_None in Hk. assert (j < List.length (lf_vals x))%nat by (apply nth_error_Some; congruence). lia.
Qed.
End Leaf.
