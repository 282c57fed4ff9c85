(** * ProtoFacts4: unknown fields survive; order does not matter. *)
From Coq Require Import Lia ZifyBool ZifyN ZifyNat.
From Verif Require Import GoBase Proto Spec_Proto Spec_ProtoMsg BaseFacts ProtoFacts ProtoFacts2 ProtoFacts3.

(** ** Unknown fields *)
Lemma top_known_dec f : top_known f \/ ~ top_known f.
Proof. unfold top_known. destruct (wf_val f); try tauto; lia. Qed.
Lemma leaf_known_dec sch f : f_ok f -> leaf_known sch f \/ ~ leaf_known sch f.
Proof.
  intros ((Hn & _) & _). destruct (nth_error sch (N.to_nat (wf_num f - 1))) as [ty|] eqn:Hty; [destruct (from_wire ty (wf_val f)) as [v|] eqn:Hw|].
  - left. exists (N.to_nat (wf_num f - 1)), ty, v. split; [exact Hty|]. split; [lia|apply means_iff, Hw].
  - right. intros (i & ty' & v & Hi & Hni & Hm). apply num_index in Hni; [|exact Hn]. rewrite Hni, Hi in Hty. injection Hty as <-.
    apply means_none with (v := v) in Hw. exact (Hw Hm).
  - right. intros (i & ty' & v & Hi & Hni & Hm). apply num_index in Hni; [|exact Hn]. rewrite Hni, Hi in Hty. discriminate.
Qed.
Lemma picks_ex (P : wfield -> Prop) l : Forall (fun f => P f \/ ~ P f) l -> exists us, picks P l us.
Proof.
  induction 1 as [|f l [Hf|Hf] _ (us & IH)]; [exists []; constructor|exists (f :: us); constructor; assumption|exists us; apply pi_skip; assumption].
Qed.
Lemma picks_app {A} (P : A -> Prop) l1 u1 l2 u2 : picks P l1 u1 -> picks P l2 u2 -> picks P (l1 ++ l2) (u1 ++ u2).
Proof. induction 1; intros H2; cbn [app]; [exact H2|constructor; auto|apply pi_skip; auto]. Qed.
Lemma picks_none {A} (P : A -> Prop) l : Forall (fun x => ~ P x) l -> picks P l [].
Proof. induction 1; [constructor|apply pi_skip; assumption]. Qed.
Lemma picks_all {A} (P : A -> Prop) l : Forall P l -> picks P l l.
Proof. induction 1; constructor; assumption. Qed.
Lemma picks_forall {A} (P Q : A -> Prop) l u : picks P l u -> Forall Q l -> Forall (fun x => P x /\ Q x) u.
Proof. induction 1; intros HQ; inversion HQ; subst; [constructor|constructor; auto|auto]. Qed.
Lemma unknown_gathered known l us bs : Forall f_ok l -> picks (fun f => ~ known f) l us ->
  Forall (fun f => known f \/ ~ known f) l ->
  gathers (fun f bs => exists b, bs = [b] /\ unknown known f b) l bs -> concat bs = flat_map unknown_bytes us.
Proof.
  intros Hl Hp Hd (vss & Hg & ->). revert vss Hg Hl Hd. induction Hp as [|f l us Hf Hp IH|f l us Hf Hp IH]; intros vss Hg Hl Hd;
    inversion Hg as [|? v ? vs Hv Hvs]; subst; [reflexivity|..]; inversion Hl; inversion Hd; subst; destruct Hv as (b & -> & [(K & ->)|(K & B)]);
    try contradiction; cbn [concat app flat_map]; try (rewrite IH; [|assumption..]).
  - f_equal. apply kept_iff; assumption.
  - reflexivity.
Qed.
Lemma unk_stream_self us : Forall f_ok us -> stream us (flat_map unknown_bytes us) /\ bytes_ok (flat_map unknown_bytes us) = true.
Proof.
  induction 1 as [|f us Hf H [I1 I2]]; [split; [apply st_nil|reflexivity]|]. cbn [flat_map]. destruct Hf as (Hn & Hv & Hb). split.
  - apply (stream_app [f]); [|exact I1]. destruct f as [num w raw]. apply stream_one; assumption.
  - unfold unknown_bytes at 1. rewrite !bytes_ok_app, I2, Hb, (tag_bytes _ _ Hn (value_wt _ _ _ Hv)). reflexivity.
Qed.
Lemma stream_unique l l' b : bytes_ok b = true -> stream l b -> stream l' b -> l = l'.
Proof. intros Hb H H'. apply (read_fields_iff b l Hb) in H. apply (read_fields_iff b l' Hb) in H'. congruence. Qed.
Lemma leaf_fields_known sch vals : vals_ok sch vals -> forall spre,
  Forall (leaf_known (spre ++ sch)) (leaf_fields (N.of_nat (length spre) + 1) sch vals).
Proof.
  induction 1 as [|ty o sch vals Ho H IH]; intros spre; [constructor|]. cbn [leaf_fields]. apply Forall_app. split.
  - destruct o as [v|]; constructor; [|constructor]. exists (length spre), ty, v. cbn [wf_num wf_val].
    split; [rewrite nth_error_app2, Nat.sub_diag by lia; reflexivity|]. split; [reflexivity|]. apply means_iff, put_value_ok, Ho.
  - specialize (IH (spre ++ [ty])). rewrite <- app_assoc, app_length in IH. cbn [app length] in IH.
    replace (N.of_nat (length spre + 1) + 1) with (N.of_nat (length spre) + 1 + 1) in IH by lia. exact IH.
Qed.
Theorem leaf_unknown_survive sch s l x : (length sch < 1000)%nat -> bytes_ok s = true -> blen s < 2 ^ 64 -> stream l s -> leaf_unmarshal sch s = Some x ->
  exists l' us, stream l' (leaf_marshal sch x) /\ picks (fun f => ~ leaf_known sch f) l us /\ picks (fun f => ~ leaf_known sch f) l' us.
Proof.
  intros Hlen Hs Hbl Hst Hx. pose proof (stream_f_ok l s Hst Hs) as Hl. pose proof (leaf_decoded_ok sch s x Hs Hbl Hx) as (Hv & Hu & _).
  apply (leaf_unmarshal_iff sch s x Hs) in Hx. destruct Hx as (l0 & Hst0 & _ & _ & bs & Hg & Hunk).
  rewrite (stream_unique l0 l s Hs Hst0 Hst) in *.
  assert (Hd : Forall (fun f => leaf_known sch f \/ ~ leaf_known sch f) l) by (eapply Forall_impl; [|exact Hl]; intros; apply leaf_known_dec; assumption).
  destruct (picks_ex (fun f => ~ leaf_known sch f) l) as (us & Hp); [eapply Forall_impl; [|exact Hd]; intros f [A|A]; tauto|].
  rewrite (unknown_gathered _ l us bs Hl Hp Hd Hg) in Hunk.
  destruct (leaf_fields_stream sch (lf_vals x) Hv 1) as [S1 _]; [lia|change (2 ^ 29) with 536870912; lia|].
  pose proof (picks_forall _ _ _ _ Hp Hl) as Hus.
  destruct (unk_stream_self us) as [U1 _]; [eapply Forall_impl; [|exact Hus]; cbn; tauto|].
  exists (leaf_fields 1 sch (lf_vals x) ++ us), us. split.
  - unfold leaf_marshal. rewrite Hunk. apply stream_app; assumption.
  - split; [exact Hp|]. apply (picks_app _ _ [] _ us).
    + apply picks_none. pose proof (leaf_fields_known sch (lf_vals x) Hv []) as Hk. cbn [length app N.of_nat] in Hk. change (0 + 1) with 1 in Hk.
      eapply Forall_impl; [|exact Hk]. cbn. tauto.
    + apply picks_all. eapply Forall_impl; [|exact Hus]. cbn. tauto.
Qed.
Lemma sensor_fields_known schs sens : forall num, 7 <= num -> num + N.of_nat (length schs) <= 25 -> Forall top_known (sensor_fields num schs sens).
Proof.
  revert sens. induction schs as [|sch schs IH]; intros sens num H1 H2; [constructor|]. destruct sens as [|l sens]; [constructor|].
  cbn [sensor_fields length] in *. apply Forall_app. split; [|apply IH; lia].
  induction l as [|x l IHl]; constructor; [|exact IHl]. unfold top_known, sensor_field. cbn [wf_val wf_num]. lia.
Qed.
Theorem top_unknown_survive b l m : bytes_ok b = true -> stream l b -> sr_unmarshal b = Some m ->
  exists b' l' us, sr_marshal m = Some b' /\ stream l' b' /\ picks (fun f => ~ top_known f) l us /\ picks (fun f => ~ top_known f) l' us.
Proof.
  intros Hb Hst Hm. pose proof (stream_f_ok l b Hst Hb) as Hl.
  destruct (sr_decoded_ok b m Hb Hm) as ((n & t & fl & Hn & Ht & Hfl & Bn & _) & Hr & Hs & _).
  apply (sr_unmarshal_iff b m Hb) in Hm. destruct Hm as ((l0 & Hst0 & _ & _ & _ & _ & _ & _ & bs & Hg & Hunk) & _).
  rewrite (stream_unique l0 l b Hb Hst0 Hst) in *.
  assert (Hd : Forall (fun f => top_known f \/ ~ top_known f) l) by (eapply Forall_impl; [|exact Hl]; intros; apply top_known_dec).
  destruct (picks_ex (fun f => ~ top_known f) l) as (us & Hp); [eapply Forall_impl; [|exact Hd]; intros f [A|A]; tauto|].
  rewrite (unknown_gathered _ l us bs Hl Hp Hd Hg) in Hunk.
  pose proof (picks_forall _ _ _ _ Hp Hl) as Hus.
  destruct (unk_stream_self us) as [U1 _]; [eapply Forall_impl; [|exact Hus]; cbn; tauto|].
  assert (Bn' : n < 2 ^ 64) by (rewrite pow32 in Bn; rewrite pow64; lia).
  pose proof (put_varint_varint n Bn') as Hvn.
  destruct (put_field_stream 1 (WVarint n)) as [S1 _]; [change (2 ^ 29) with 536870912; lia|apply pl_varint, Hvn|exact (varint_ok _ _ Hvn)|].
  destruct (fix_stream 2 t) as [S2 _]; [change (2 ^ 29) with 536870912; lia|].
  destruct (reasons_stream (sr_reasons m)) as [S3 _].
  destruct (fix_stream 4 fl) as [S4 _]; [change (2 ^ 29) with 536870912; lia|].
  destruct (sensors_stream schemas (sr_sensors m) Hs schemas_small 7) as [S5 _]; [lia|reflexivity|].
  pose proof (stream_app _ _ _ _ S1 (stream_app _ _ _ _ S2 (stream_app _ _ _ _ S3 (stream_app _ _ _ _ S4 (stream_app _ _ _ _ S5 U1))))) as S.
  eexists. eexists. exists us. unfold sr_marshal. rewrite Hn, Ht, Hfl, Hunk. split; [reflexivity|]. split; [exact S|]. split; [exact Hp|].
  assert (HK : forall ks, Forall top_known ks -> picks (fun f => ~ top_known f) ks []).
  { intros ks Hk. apply picks_none. eapply Forall_impl; [|exact Hk]. cbn. tauto. }
  apply (picks_app _ [_] []); [apply HK; constructor; [cbn; lia|constructor]|].
  apply (picks_app _ [_] []); [apply HK; constructor; [cbn; lia|constructor]|].
  apply (picks_app _ (map reason_field _) []); [apply HK; apply Forall_map, Forall_forall; intros; cbn; lia|].
  apply (picks_app _ [_] []); [apply HK; constructor; [cbn; lia|constructor]|].
  apply (picks_app _ _ []); [apply HK, sensor_fields_known; [lia|cbn; lia]|].
  apply picks_all. eapply Forall_impl; [|exact Hus]. cbn. tauto.
Qed.

(** ** Order *)
Lemma gathers_swap {A} (R : wfield -> list A -> Prop) l1 f g l2 vs :
  (forall v, R f v -> v = []) \/ (forall v, R g v -> v = []) ->
  gathers R (l1 ++ f :: g :: l2) vs -> gathers R (l1 ++ g :: f :: l2) vs.
Proof.
  intros H (vss & Hg & ->). apply Forall2_app_inv_l in Hg. destruct Hg as (v1 & v2 & G1 & G2 & ->).
  inversion G2 as [|? a ? r Ha G3]; subst. inversion G3 as [|? b ? r2 Hb G4]; subst.
  exists (v1 ++ b :: a :: r2). split; [apply Forall2_app; [exact G1|]; repeat constructor; assumption|].
  rewrite !concat_app. cbn [concat]. f_equal. rewrite !app_assoc. f_equal.
  destruct H as [H|H]; [rewrite (H a Ha)|rewrite (H b Hb)]; rewrite app_nil_r; reflexivity.
Qed.
Lemma last_one_swap {A} (R : wfield -> list A -> Prop) l1 f g l2 o :
  (forall v, R f v -> v = []) \/ (forall v, R g v -> v = []) ->
  last_one R (l1 ++ f :: g :: l2) o -> last_one R (l1 ++ g :: f :: l2) o.
Proof. intros H (vs & Hg & ->). exists vs. split; [apply gathers_swap; assumption|reflexivity]. Qed.
Lemma unknown_swap l1 f g l2 bs : top_known f \/ top_known g ->
  gathers (fun f bs => exists b, bs = [b] /\ unknown top_known f b) (l1 ++ f :: g :: l2) bs ->
  exists bs', gathers (fun f bs => exists b, bs = [b] /\ unknown top_known f b) (l1 ++ g :: f :: l2) bs' /\ concat bs' = concat bs.
Proof.
  intros H (vss & Hg & ->). apply Forall2_app_inv_l in Hg. destruct Hg as (v1 & v2 & G1 & G2 & ->).
  inversion G2 as [|? a ? r Ha G3]; subst. inversion G3 as [|? b ? r2 Hb G4]; subst.
  exists (concat (v1 ++ b :: a :: r2)). split.
  { exists (v1 ++ b :: a :: r2). split; [apply Forall2_app; [exact G1|]; repeat constructor; assumption|reflexivity]. }
  destruct Ha as (x & -> & Hx), Hb as (y & -> & Hy). rewrite !concat_app. f_equal. cbn [concat app].
  destruct H as [H|H]; [destruct Hx as [(_ & ->)|(K & _)]; [|contradiction]|destruct Hy as [(_ & ->)|(K & _)]; [|contradiction]]; reflexivity.
Qed.
Lemma num_apart f g n : wf_num f <> wf_num g -> wf_num f <> n \/ wf_num g <> n.
Proof. lia. Qed.
Lemma record_swap l1 f g l2 m : wf_num f <> wf_num g -> top_known f \/ top_known g ->
  record_says (l1 ++ f :: g :: l2) m -> record_says (l1 ++ g :: f :: l2) m.
Proof.
  intros Hn Hk (A1 & A2 & A3 & A4 & A5 & A6 & bs & A7 & A8).
  assert (HE : forall A (R : wfield -> list A -> Prop) n, (forall h v, wf_num h <> n -> R h v -> v = []) ->
    (forall v, R f v -> v = []) \/ (forall v, R g v -> v = [])).
  { intros A R n HR. destruct (num_apart f g n Hn); [left|right]; intros v; apply HR; assumption. }
  assert (E1 : forall h v, wf_num h <> 1 -> number h v -> v = []) by (intros h v Hh [(E & _)|(_ & ->)]; [contradiction|reflexivity]).
  assert (E2 : forall n h v, wf_num h <> n -> fixed n h v -> v = []) by (intros n h v Hh [(E & _)|(_ & ->)]; [contradiction|reflexivity]).
  assert (E3 : forall h v, wf_num h <> 3 -> reasons h v -> v = []) by (intros h v Hh [(E & _)|[(E & _)|(_ & ->)]]; [contradiction|contradiction|reflexivity]).
  assert (E4 : forall n sch h v, wf_num h <> n -> sensors n sch h v -> v = []) by (intros n sch h v Hh [(E & _)|(_ & ->)]; [contradiction|reflexivity]).
  split; [apply last_one_swap; [exact (HE _ _ 1 E1)|exact A1]|].
  split; [apply last_one_swap; [exact (HE _ _ 2 (E2 2))|exact A2]|].
  split; [apply last_one_swap; [exact (HE _ _ 4 (E2 4))|exact A3]|].
  split; [apply gathers_swap; [exact (HE _ _ 3 E3)|exact A4]|].
  split; [exact A5|]. split.
  - intros i sch Hi. apply gathers_swap; [exact (HE _ _ _ (E4 (7 + N.of_nat i) sch))|exact (A6 i sch Hi)].
  - destruct (unknown_swap l1 f g l2 bs Hk A7) as (bs' & B1 & B2). exists bs'. split; [exact B1|congruence].
Qed.
Lemma reordered_says l l' : reordered l l' -> forall m, record_says l m <-> record_says l' m.
Proof.
  induction 1 as [l|l1 f g l2 Hn Hk|l l' l'' H1 IH1 H2 IH2]; intros m; [tauto|split; apply record_swap; try assumption; try congruence; tauto|].
  rewrite IH1. apply IH2.
Qed.
Theorem reordered_decodes l l' b b' : reordered l l' -> bytes_ok b = true -> bytes_ok b' = true -> stream l b -> stream l' b' ->
  sr_unmarshal b = sr_unmarshal b'.
Proof.
  intros Hr Hb Hb' Hs Hs'.
  assert (HE : forall m, sr_unmarshal b = Some m <-> sr_unmarshal b' = Some m).
  { intros m. rewrite (sr_unmarshal_iff b m Hb), (sr_unmarshal_iff b' m Hb').
    split; intros ((l0 & H1 & H2) & H3); (split; [|exact H3]).
    - exists l'. split; [exact Hs'|]. rewrite (stream_unique l0 l b Hb H1 Hs) in H2. apply (reordered_says l l' Hr), H2.
    - exists l. split; [exact Hs|]. rewrite (stream_unique l0 l' b' Hb' H1 Hs') in H2. apply (reordered_says l l' Hr), H2. }
  destruct (sr_unmarshal b) as [m|] eqn:E.
  - symmetry. apply HE. reflexivity.
  - destruct (sr_unmarshal b') as [m|] eqn:E'; [|reflexivity]. apply HE. reflexivity.
Qed.
