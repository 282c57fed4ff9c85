(** * ProtoFacts5: prefixes and concatenations of messages. *)
From Coq Require Import String List Lia ZifyBool ZifyN ZifyNat.
From Verif Require Import GoBase Float64 Proto Spec_Proto Spec_ProtoMsg Spec_ProtoFile BaseFacts ProtoFacts ProtoFacts2 ProtoFacts3 ProtoFacts4.

Lemma stream_prefix l1 c : stream l1 c -> forall l d, stream l (c ++ d) -> exists l2, l = l1 ++ l2 /\ stream l2 d.
Proof.
  induction 1 as [|num w t v l1 b Hn Ht Hv Hs IH]; intros l d H; [exists l; split; [reflexivity|exact H]|].
  rewrite <- !app_assoc in H. remember (t ++ v ++ b ++ d) as x eqn:Ex.
  destruct H as [|num' w' t' v' l' b' Hn' Ht' Hv' Hs'].
  { exfalso. pose proof (varint_nonempty _ _ Ht). destruct t; [cbn in *; lia|discriminate]. }
  pose proof (read10_complete _ _ (v ++ b ++ d) Ht) as R. pose proof (read10_complete _ _ (v' ++ b') Ht') as R'.
  rewrite Ex, R in R'. injection R' as Etag Erest.
  pose proof (value_wt _ _ _ Hv) as W. pose proof (value_wt _ _ _ Hv') as W'.
  destruct (tag_split num _ W) as [A1 A2]. destruct (tag_split num' _ W') as [B1 B2].
  assert (num = num') by congruence. assert (Ew : wire_type w = wire_type w') by congruence. subst num'.
  pose proof (read_value_complete num w v (b ++ d) Hn Hv) as Q. pose proof (read_value_complete num w' v' b' Hn' Hv') as Q'.
  rewrite <- Ew, <- Erest, Q in Q'. injection Q' as <- Eb. subst b'.
  assert (v' = v) by (apply app_inv_tail in Erest; congruence). subst v'.
  destruct (IH l' d Hs') as (l2 & -> & H2). exists l2. split; [reflexivity|exact H2].
Qed.
Lemma last_set {A} (vs : list A) : last (map Some vs) None <> None <-> vs <> [].
Proof.
  destruct vs as [|x vs]; [cbn; tauto|]. split; [discriminate|]. intros _. revert x.
  induction vs as [|y vs IH]; intros x; [discriminate|]. exact (IH y).
Qed.
Lemma last_one_set {A} (R : wfield -> list A -> Prop) (P : wfield -> Prop) l o :
  (forall f vs, In f l -> R f vs -> (vs <> [] <-> P f)) -> last_one R l o -> (o <> None <-> exists f, In f l /\ P f).
Proof.
  intros HR (vs & (vss & H2 & ->) & ->). rewrite last_set. induction H2 as [|f v l vss Hf _ IH]; cbn [concat].
  - split; [congruence|intros (f & [] & _)].
  - assert (G : forall f vs, In f l -> R f vs -> (vs <> [] <-> P f)) by (intros g ws Hg; apply HR; right; exact Hg). specialize (IH G).
    pose proof (HR f v (or_introl eq_refl) Hf) as K. split.
    + intros Hne. destruct v as [|x v]; [|exists f; split; [left; reflexivity|apply K; discriminate]].
      cbn [app] in Hne. apply IH in Hne. destruct Hne as (g & Hg & Pg). exists g. split; [right; exact Hg|exact Pg].
    + intros (g & [<-|Hg] & Pg); [apply K in Pg; destruct v; [congruence|discriminate]|].
      destruct v; [apply IH; eauto|discriminate].
Qed.
Lemma required_iff l m : record_says l m -> (complete m <-> has_required l).
Proof.
  intros (A1 & A2 & A3 & _). unfold complete, has_required.
  assert (HN : forall f vs, In f l -> number f vs -> (vs <> [] <-> wf_num f = 1 /\ exists v, wf_val f = WVarint v)).
  { intros f vs _ [(Ef & b & Hb & ->)|([Ef|Ef] & ->)].
    - split; [eauto|discriminate].
    - split; [congruence|intros (E1 & _); congruence].
    - split; [congruence|intros (_ & v & Ev); exfalso; exact (Ef _ Ev)]. }
  assert (HF : forall n f vs, In f l -> fixed n f vs -> (vs <> [] <-> wf_num f = n /\ exists v, wf_val f = WFix32 v)).
  { intros n f vs _ [(Ef & b & Hb & ->)|([Ef|Ef] & ->)].
    - split; [eauto|discriminate].
    - split; [congruence|intros (E1 & _); congruence].
    - split; [congruence|intros (_ & v & Ev); exfalso; exact (Ef _ Ev)]. }
  rewrite (last_one_set _ _ _ _ HN A1), (last_one_set _ _ _ _ (HF 2) A2), (last_one_set _ _ _ _ (HF 4) A3).
  split; intros ((f & H1) & (g & H2) & (h & H3)).
  - destruct H1 as (? & ? & ? & ?), H2 as (? & ? & ? & ?), H3 as (? & ? & ? & ?). split; [eauto|]. split; eauto.
  - destruct H1 as (? & ? & ? & ?), H2 as (? & ? & ? & ?), H3 as (? & ? & ? & ?). split; [eauto 6|]. split; eauto 6.
Qed.
Theorem plus_truncation b m c d : bytes_ok b = true -> sr_unmarshal b = Some m -> b = c ++ d ->
  ((exists m', sr_unmarshal c = Some m') <-> exists l1 l2, stream l1 c /\ stream l2 d /\ has_required l1).
Proof.
  intros Hb Hm ->. destruct (ok_app _ _ Hb) as [Hc Hd]. apply (sr_unmarshal_iff _ m Hb) in Hm. destruct Hm as ((l & Hs & Hl) & _). split.
  - intros (m' & Hm'). apply (sr_unmarshal_iff _ m' Hc) in Hm'. destruct Hm' as ((l1 & Hs1 & Hl1) & Hr).
    destruct (stream_prefix l1 c Hs1 l d Hs) as (l2 & -> & Hs2). exists l1, l2. split; [exact Hs1|]. split; [exact Hs2|]. apply (required_iff l1 m' Hl1), Hr.
  - intros (l1 & l2 & Hs1 & Hs2 & Hr). assert (l = l1 ++ l2) by (apply (stream_unique _ _ _ Hb Hs), stream_app; assumption). subst l.
    apply (sr_store_all_iff _ m (stream_f_ok _ _ Hs Hb)) in Hl. rewrite sr_store_all_app in Hl. destruct (sr_store_all sr_empty l1) as [m1|] eqn:E1; [|discriminate].
    apply (sr_store_all_iff _ m1 (stream_f_ok _ _ Hs1 Hc)) in E1. exists m1. apply (sr_unmarshal_iff _ m1 Hc). split; [eauto|]. apply (required_iff l1 m1 E1), Hr.
Qed.

(** ** Concatenation *)
Definition over {A} (o o2 : option A) : option A := match o2 with Some _ => o2 | None => o end.
Definition zipapp {A} (a x : list (list A)) : list (list A) := map (fun p => fst p ++ snd p) (combine a x).
Lemma zipapp_length {A} (a x : list (list A)) : length a = length x -> length (zipapp a x) = length x.
Proof. intros H. unfold zipapp. rewrite map_length, combine_length. lia. Qed.
Lemma zipapp_nth {A} : forall (a x : list (list A)) i, length a = length x -> nth i (zipapp a x) [] = nth i a [] ++ nth i x [].
Proof.
  unfold zipapp. induction a as [|u a IH]; intros [|y x] i H; try discriminate; [destruct i; reflexivity|].
  destruct i; cbn [combine map nth]; [reflexivity|]. apply IH. cbn in H. lia.
Qed.
Lemma zipapp_set {A} : forall (a x : list (list A)) i (v : list A), length a = length x ->
  set_at i (nth i (zipapp a x) [] ++ v) (zipapp a x) = zipapp a (set_at i (nth i x [] ++ v) x).
Proof.
  unfold zipapp. induction a as [|u a IH]; intros [|y x] i v H; try discriminate; [destruct i; reflexivity|].
  destruct i; cbn [combine map nth set_at fst snd]; [rewrite app_assoc; reflexivity|]. f_equal. apply IH. cbn in H. lia.
Qed.
Definition merge (m x : storage_record) : storage_record :=
  mkSR (over (sr_number m) (sr_number x)) (over (sr_time m) (sr_time x)) (sr_reasons m ++ sr_reasons x)
       (over (sr_flags m) (sr_flags x)) (zipapp (sr_sensors m) (sr_sensors x)) (sr_unk m ++ sr_unk x).
Lemma merge_store m x f : length (sr_sensors m) = length (sr_sensors x) ->
  sr_store (merge m x) f = option_map (merge m) (sr_store x f).
Proof.
  intros H. rewrite !sr_store_eq. unfold sr_store', add_unknown, merge. cbn [sr_number sr_time sr_reasons sr_flags sr_sensors sr_unk].
  destruct (wf_val f); repeat match goal with
    | |- context [if ?c then _ else _] => destruct c
    | |- context [match read_packed ?a ?b with _ => _ end] => destruct (read_packed a b)
    | |- context [match nth_error ?a ?b with _ => _ end] => destruct (nth_error a b)
    | |- context [match leaf_unmarshal ?a ?b with _ => _ end] => destruct (leaf_unmarshal a b)
    end; cbn [option_map sr_number sr_time sr_reasons sr_flags sr_sensors sr_unk over]; rewrite ?app_assoc, ?zipapp_set by exact H; try reflexivity.
Qed.
Lemma store_sensors x f y : sr_store x f = Some y -> length (sr_sensors y) = length (sr_sensors x).
Proof.
  rewrite sr_store_eq. unfold sr_store', add_unknown.
  destruct (wf_val f); repeat match goal with
    | |- context [if ?c then _ else _] => destruct c
    | |- context [match read_packed ?a ?b with _ => _ end] => destruct (read_packed a b)
    | |- context [match nth_error ?a ?b with _ => _ end] => destruct (nth_error a b)
    | |- context [match leaf_unmarshal ?a ?b with _ => _ end] => destruct (leaf_unmarshal a b)
    end; intros H; try discriminate; apply (f_equal (fun o => match o with Some z => sr_sensors z | None => [] end)) in H; cbn [sr_sensors] in H; rewrite <- H; rewrite ?length_set_at; reflexivity.
Qed.
Lemma merge_store_all m l : forall x, length (sr_sensors m) = length (sr_sensors x) ->
  sr_store_all (merge m x) l = option_map (merge m) (sr_store_all x l).
Proof.
  induction l as [|f l IH]; intros x H; cbn [sr_store_all]; [reflexivity|]. rewrite (merge_store m x f H).
  destruct (sr_store x f) as [y|] eqn:E; cbn [option_map]; [|reflexivity]. apply IH. rewrite (store_sensors _ _ _ E). exact H.
Qed.
Lemma zipapp_nil {A} : forall (a x : list (list A)), length a = length x -> Forall (fun y => y = []) x -> zipapp a x = a.
Proof.
  unfold zipapp. induction a as [|u a IH]; intros [|y x] H F; try discriminate; [reflexivity|]. inversion F; subst. cbn [combine map fst snd].
  rewrite app_nil_r. f_equal. apply IH; [cbn in H; lia|assumption].
Qed.
Lemma merge_empty m : length (sr_sensors m) = 18%nat -> merge m sr_empty = m.
Proof.
  intros H. unfold merge. replace (zipapp (sr_sensors m) (sr_sensors sr_empty)) with (sr_sensors m).
  - destruct m as [m1 m2 m3 m4 m5 m6]. cbn [sr_number sr_time sr_reasons sr_flags sr_unk sr_sensors sr_empty over]. rewrite !app_nil_r. reflexivity.
  - symmetry. apply zipapp_nil; [rewrite H; reflexivity|]. apply Forall_forall. intros y Hy. apply in_map_iff in Hy. destruct Hy as (? & <- & _). reflexivity.
Qed.
Lemma unmarshal_parts b m : bytes_ok b = true -> sr_unmarshal b = Some m ->
  exists l, stream l b /\ sr_store_all sr_empty l = Some m /\ initialized m = true.
Proof.
  intros Hb. unfold sr_unmarshal. destruct (read_fields (length b) b) as [l|] eqn:Hr; [|discriminate]. apply (read_fields_iff b l Hb) in Hr.
  destruct (sr_store_all sr_empty l) as [m'|] eqn:Hm; [|discriminate]. destruct (initialized m') eqn:Hi; [|discriminate].
  intros H. assert (m' = m) by congruence. subst m'. exists l. auto.
Qed.
Lemma sensors_18 l : forall x m, length (sr_sensors x) = 18%nat -> sr_store_all x l = Some m -> length (sr_sensors m) = 18%nat.
Proof.
  induction l as [|f l IH]; intros x m H; cbn [sr_store_all]; [intros E; assert (x = m) by congruence; subst; exact H|].
  destruct (sr_store x f) as [y|] eqn:E; [|discriminate]. apply IH. rewrite (store_sensors _ _ _ E). exact H.
Qed.
Theorem plus_concat b1 m1 b2 m2 : bytes_ok b1 = true -> bytes_ok b2 = true ->
  sr_unmarshal b1 = Some m1 -> sr_unmarshal b2 = Some m2 ->
  exists m, sr_unmarshal (b1 ++ b2) = Some m /\ merged m1 m2 m.
Proof.
  intros Hb1 Hb2 H1 H2. destruct (unmarshal_parts b1 m1 Hb1 H1) as (l1 & S1 & T1 & I1). destruct (unmarshal_parts b2 m2 Hb2 H2) as (l2 & S2 & T2 & I2).
  assert (L1 : length (sr_sensors m1) = 18%nat) by (apply (sensors_18 l1 sr_empty); [reflexivity|exact T1]).
  assert (L2 : length (sr_sensors m2) = 18%nat) by (apply (sensors_18 l2 sr_empty); [reflexivity|exact T2]).
  exists (merge m1 m2).
  assert (Hok : bytes_ok (b1 ++ b2) = true) by (rewrite bytes_ok_app, Hb1; exact Hb2).
  assert (T : sr_store_all sr_empty (l1 ++ l2) = Some (merge m1 m2)).
  { rewrite sr_store_all_app, T1. rewrite <- (merge_empty m1 L1) at 1. rewrite merge_store_all by (rewrite L1; reflexivity). rewrite T2. reflexivity. }
  unfold initialized in *. apply andb_prop in I2. destruct I2 as [I2 I2c]. apply andb_prop in I2. destruct I2 as [I2a I2b].
  split.
  - unfold sr_unmarshal. rewrite (proj2 (read_fields_iff _ (l1 ++ l2) Hok) (stream_app _ _ _ _ S1 S2)), T. unfold initialized, merge. cbn [sr_number sr_time sr_flags].
    destruct (sr_number m2); [|discriminate]. destruct (sr_time m2); [|discriminate]. destruct (sr_flags m2); [|discriminate]. reflexivity.
  - unfold merged, merge. cbn [sr_number sr_time sr_flags sr_reasons sr_sensors sr_unk].
    destruct (sr_number m2); [|discriminate]. destruct (sr_time m2); [|discriminate]. destruct (sr_flags m2); [|discriminate].
    split; [reflexivity|]. split; [reflexivity|]. split; [reflexivity|]. split; [reflexivity|]. split; [rewrite zipapp_length; congruence|].
    split; [|reflexivity]. intros i. apply zipapp_nth. congruence.
Qed.

(** ** The .proto file *)
Definition row_ok (row : N * string * list (N * ptype * string)) : bool :=
  let '(num, _, fields) := row in
  match nth_error schemas (N.to_nat (num - 7)) with
  | Some sch => (7 <=? num) && forallb (fun f => let '(k, ty, _) := f in (1 <=? k) &&
      match nth_error sch (N.to_nat (k - 1)), ty with
      | Some PU32, PU32 | Some PBool, PBool | Some PSint, PSint | Some PSfix, PSfix | Some PFloat, PFloat | Some PBytes, PBytes => true
      | _, _ => false end) fields
  | None => false
  end.
Lemma file_ok : forallb row_ok proto_file = true. Proof. vm_compute. reflexivity. Qed.
Lemma documented b m : bytes_ok b = true -> sr_unmarshal b = Some m ->
  exists l, stream l b /\ forall num name fields, In (num, name, fields) proto_file ->
    gathers (declared_sensors num fields) l (nth (N.to_nat (num - 7)) (sr_sensors m) []).
Proof.
  intros Hb H. apply sr_unmarshal_iff in H; [|exact Hb]. destruct H as ((l & Hl & Hs) & _). exists l. split; [exact Hl|].
  destruct Hs as (_ & _ & _ & _ & _ & Hs & _). intros num name fields Hin.
  pose proof file_ok as F. rewrite forallb_forall in F. specialize (F _ Hin). unfold row_ok in F.
  destruct (nth_error schemas (N.to_nat (num - 7))) as [sch|] eqn:Hsch; [|discriminate F]. apply andb_prop in F. destruct F as [F7 F].
  rewrite forallb_forall in F. apply N.leb_le in F7. specialize (Hs _ _ Hsch).
  replace (7 + N.of_nat (N.to_nat (num - 7))) with num in Hs by lia.
  assert (K : forall f xs, sensors num sch f xs -> declared_sensors num fields f xs); cycle 1.
  { destruct Hs as (vss & Hv & Hc). exists vss. split; [|exact Hc]. clear - K Hv. induction Hv; constructor; auto. }
  clear Hs. intros f xs [(H1 & s & x & H2 & H3 & H4)|Hno]; [left|right; exact Hno].
  split; [exact H1|]. exists s, x. split; [exact H2|]. split; [|exact H4]. destruct H3 as (l' & Hl' & _ & Hf & _).
  exists l'. split; [exact Hl'|]. intros k ty nm Hk. specialize (F _ Hk). cbn beta iota in F. apply andb_prop in F. destruct F as [Fk F].
  apply N.leb_le in Fk. assert (nth_error sch (N.to_nat (k - 1)) = Some ty) as E.
  { destruct (nth_error sch (N.to_nat (k - 1))) as [[| | | | |]|], ty; try discriminate F; reflexivity. }
  specialize (Hf _ _ E). replace (N.of_nat (N.to_nat (k - 1)) + 1) with k in Hf by lia. exact Hf.
Qed.
