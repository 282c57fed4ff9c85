(** * ProtoFacts3: marshalled messages, and that decoding gives them back. *)
From Coq Require Import Lia ZifyBool ZifyN ZifyNat.
From Verif Require Import GoBase Proto Spec_Proto BaseFacts ProtoFacts ProtoFacts2.

(** ** Values *)
Lemma pow32 : 2 ^ 32 = 4294967296. Proof. reflexivity. Qed.
Lemma pow64 : 2 ^ 64 = 18446744073709551616. Proof. reflexivity. Qed.
Lemma zpow31 : (2 ^ 31 = 2147483648)%Z. Proof. reflexivity. Qed.
Lemma zpow32 : (2 ^ 32 = 4294967296)%Z. Proof. reflexivity. Qed.
Lemma of_int_bound k z : (0 < k)%Z -> of_int k z < 2 ^ Z.to_N k.
Proof.
  intros Hk. unfold of_int. pose proof (Z.mod_pos_bound z (2 ^ k) ltac:(apply Z.pow_pos_nonneg; lia)).
  assert (Z.of_N (2 ^ Z.to_N k) = 2 ^ k)%Z by (rewrite N2Z.inj_pow, Z2N.id by lia; reflexivity). lia.
Qed.
Lemma int32_of_int k z : (32 <= k)%Z -> (- 2 ^ 31 <= z < 2 ^ 31)%Z -> to_int32 (of_int k z) = z.
Proof.
  intros Hk Hz. apply to_int32_iff. split; [exact Hz|]. unfold of_int.
  rewrite Z2N.id by (apply Z.mod_pos_bound, Z.pow_pos_nonneg; lia).
  replace k with (32 + (k - 32))%Z by lia. rewrite Z.pow_add_r by lia.
  rewrite Z.rem_mul_r by (try apply Z.pow_nonzero; try apply Z.pow_pos_nonneg; lia).
  rewrite Z.mul_comm, Z.mod_add by (apply Z.pow_nonzero; lia). apply Z.mod_mod. apply Z.pow_nonzero; lia.
Qed.
Lemma zigzag_bound z : (- 2 ^ 31 <= z < 2 ^ 31)%Z -> zigzag z < 2 ^ 32.
Proof. rewrite zpow31, pow32. unfold zigzag. intros H. destruct (z <? 0)%Z eqn:E; lia. Qed.
Lemma unzigzag_zigzag z : (- 2 ^ 31 <= z < 2 ^ 31)%Z -> unzigzag (zigzag z) = z.
Proof.
  intros H. pose proof (zigzag_bound z H) as Hb. apply unzigzag_iff. unfold zigzag in *. rewrite pow32 in Hb.
  destruct (z <? 0)%Z eqn:E.
  - apply mn_sint_neg; [lia|]. rewrite zpow32. rewrite Z.mod_small; lia.
  - apply mn_sint_pos; [lia|]. rewrite zpow32. rewrite Z.mod_small; lia.
Qed.
Lemma put_value_ok ty v : pval_ok ty v -> let w := to_wire v ty in
  from_wire ty w = Some v /\ plain w (put_value w) /\ bytes_ok (put_value w) = true.
Proof.
  intros H. cbv zeta.
  assert (HV : forall n, n < 2 ^ 64 -> plain (WVarint n) (put_varint 10 n) /\ bytes_ok (put_varint 10 n) = true).
  { intros n Hn. pose proof (put_varint_varint n Hn) as Hv. split; [apply pl_varint, Hv|exact (varint_ok _ _ Hv)]. }
  assert (HF : forall n, plain (WFix32 (le_enc 4 n)) (le_enc 4 n) /\ bytes_ok (le_enc 4 n) = true).
  { intros n. split; [apply pl_fix32, length_le_enc|apply le_enc_ok]. }
  destruct ty, v; cbn [pval_ok] in H; try contradiction; cbn [to_wire put_value from_wire].
  - rewrite pow32 in H. split; [rewrite N.mod_small by exact H; reflexivity|]. apply HV. rewrite pow64. lia.
  - split; [destruct x; reflexivity|]. apply HV. destruct x; reflexivity.
  - split; [rewrite unzigzag_zigzag by exact H; reflexivity|]. apply HV. pose proof (zigzag_bound z H) as Hb. rewrite pow32 in Hb. rewrite pow64. lia.
  - split; [|apply HF]. rewrite le_dec_enc_id; [|change (256 ^ N.of_nat 4) with (2 ^ Z.to_N 32); apply of_int_bound; lia].
    rewrite int32_of_int by (try lia; exact H). reflexivity.
  - split; [|apply HF]. rewrite le_dec_enc_id; [reflexivity|exact H].
  - destruct H as [Hs Hl]. split; [reflexivity|]. pose proof (put_varint_varint _ Hl) as Hv. split; [apply pl_bytes, Hv|].
    rewrite bytes_ok_app, Hs, (varint_ok _ _ Hv). reflexivity.
Qed.
Lemma tag_bytes num wt : 1 <= num < 2 ^ 29 -> wt < 8 -> bytes_ok (put_tag num wt) = true.
Proof. intros Hn Hw. exact (varint_ok _ _ (put_varint_varint _ (tag_small num wt Hn Hw))). Qed.
Lemma put_field_stream num w : 1 <= num < 2 ^ 29 -> plain w (put_value w) -> bytes_ok (put_value w) = true ->
  stream [mkWf num w (put_value w)] (put_field num w) /\ bytes_ok (put_field num w) = true.
Proof.
  intros Hn Hp Hb. split; [apply stream_one; [exact Hn|left; exact Hp]|].
  unfold put_field. rewrite bytes_ok_app, Hb, (tag_bytes _ _ Hn (plain_wt _ _ Hp)). reflexivity.
Qed.

(** ** Unknown fields *)
Lemma unk_stream known b : unk_ok known b -> exists us, stream us b /\ Forall f_ok us /\ Forall (fun f => ~ known f) us /\
  b = flat_map unknown_bytes us.
Proof.
  intros (Hb & us & bs & Hk & -> & Hu). exists us. revert bs Hk Hb. induction Hu as [|f us (Hn & Hr & Hv) Hu IH]; intros bs Hk Hb.
  - inversion Hk; subst. split; [apply st_nil|]. repeat split; constructor.
  - inversion Hk as [|? b1 ? bs1 Hk1 Hk2]; subst. cbn [concat] in Hb |- *. apply ok_app in Hb. destruct Hb as [Hb1 Hb2].
    destruct (IH bs1 Hk2 Hb2) as (I1 & I2 & I3 & I4).
    assert (Hf : f_ok f).
    { split; [exact Hr|]. split; [exact Hv|]. destruct Hk1 as (t & -> & _). apply ok_app in Hb1. apply Hb1. }
    split.
    + destruct Hk1 as (t & -> & Ht & _). rewrite <- app_assoc. destruct f as [num w raw]. apply st_field; assumption.
    + split; [constructor; assumption|]. split; [constructor; assumption|]. cbn [flat_map]. rewrite <- I4. f_equal. apply kept_iff; assumption.
Qed.
Lemma leaf_unk_fold sch us : Forall f_ok us -> Forall (fun f => ~ leaf_known sch f) us ->
  forall m, fold_left (leaf_store sch) us m = mkLeaf (lf_vals m) (lf_unk m ++ flat_map unknown_bytes us).
Proof.
  intros Hf Hk. induction Hk as [|f us Hn Hk IH]; intros m; [cbn; rewrite app_nil_r; destruct m; reflexivity|].
  inversion Hf as [|? ? Hf1 Hf2]; subst. cbn [fold_left flat_map].
  assert (leaf_store sch m f = mkLeaf (lf_vals m) (lf_unk m ++ unknown_bytes f)) as ->.
  { unfold leaf_store. destruct (nth_error sch (N.to_nat (wf_num f - 1))) as [ty|] eqn:Hty; [|reflexivity].
    destruct (from_wire ty (wf_val f)) as [v|] eqn:Hv; [|reflexivity]. exfalso. apply Hn.
    exists (N.to_nat (wf_num f - 1)), ty, v. split; [exact Hty|]. split; [destruct Hf1 as ((H1 & _) & _); lia|apply means_iff, Hv]. }
  rewrite IH by exact Hf2. cbn [lf_vals lf_unk]. rewrite <- app_assoc. reflexivity.
Qed.

(** ** Sensor messages *)
Fixpoint leaf_fields (num : N) (sch : list ptype) (vals : list (option pval)) : list wfield :=
  match sch, vals with
  | ty :: sch', v :: vals' =>
      match v with Some v => [mkWf num (to_wire v ty) (put_value (to_wire v ty))] | None => [] end
      ++ leaf_fields (num + 1) sch' vals'
  | _, _ => []
  end.
Definition vals_ok (sch : list ptype) (vals : list (option pval)) : Prop :=
  Forall2 (fun ty o => match o with Some v => pval_ok ty v | None => True end) sch vals.
Lemma leaf_fields_stream sch vals : vals_ok sch vals -> forall num, 1 <= num -> num + N.of_nat (length sch) < 2 ^ 29 ->
  stream (leaf_fields num sch vals) (put_leaf_fields num sch vals) /\ bytes_ok (put_leaf_fields num sch vals) = true.
Proof.
  induction 1 as [|ty o sch vals Ho H IH]; intros num H1 H2; [split; [apply st_nil|reflexivity]|].
  cbn [leaf_fields put_leaf_fields length] in *. destruct (IH (num + 1)) as [I1 I2]; [lia..|].
  destruct o as [v|]; [|split; assumption].
  destruct (put_value_ok ty v Ho) as (_ & P2 & P3). destruct (put_field_stream num (to_wire v ty)) as [S1 S2]; [lia|assumption..|].
  split; [apply stream_app; assumption|]. rewrite bytes_ok_app, S2, I2. reflexivity.
Qed.
Lemma set_at_app {A} (pre : list A) x y post : set_at (length pre) x (pre ++ y :: post) = pre ++ x :: post.
Proof. induction pre as [|z pre IH]; [reflexivity|]. cbn [length app set_at]. rewrite IH. reflexivity. Qed.
Lemma leaf_fields_fold sch vals : vals_ok sch vals -> forall spre pre u, length spre = length pre ->
  fold_left (leaf_store (spre ++ sch)) (leaf_fields (N.of_nat (length pre) + 1) sch vals) (mkLeaf (pre ++ map (fun _ => None) sch) u)
  = mkLeaf (pre ++ vals) u.
Proof.
  induction 1 as [|ty o sch vals Ho H IH]; intros spre pre u Hl; [reflexivity|]. cbn [leaf_fields map].
  assert (Hrest : forall o', fold_left (leaf_store (spre ++ ty :: sch)) (leaf_fields (N.of_nat (length pre) + 1 + 1) sch vals)
      (mkLeaf (pre ++ o' :: map (fun _ => None) sch) u) = mkLeaf (pre ++ o' :: vals) u).
  { intros o'. specialize (IH (spre ++ [ty]) (pre ++ [o']) u). rewrite !app_length in IH. cbn [length] in IH.
    rewrite <- !app_assoc in IH. cbn [app] in IH.
    replace (N.of_nat (length pre + 1) + 1) with (N.of_nat (length pre) + 1 + 1) in IH by lia. apply IH. lia. }
  destruct o as [v|]; [|apply Hrest]. cbn [app fold_left].
  destruct (put_value_ok ty v Ho) as (P1 & _ & _).
  assert (leaf_store (spre ++ ty :: sch) (mkLeaf (pre ++ None :: map (fun _ => None) sch) u)
    (mkWf (N.of_nat (length pre) + 1) (to_wire v ty) (put_value (to_wire v ty))) = mkLeaf (pre ++ Some v :: map (fun _ => None) sch) u) as ->; [|apply Hrest].
  unfold leaf_store. cbn [wf_num wf_val lf_vals lf_unk].
  replace (N.to_nat (N.of_nat (length pre) + 1 - 1)) with (length spre) by lia.
  rewrite nth_error_app2, Nat.sub_diag by lia. cbn [nth_error]. rewrite P1, Hl, set_at_app. reflexivity.
Qed.
Theorem leaf_round_trip sch x : (length sch < 1000)%nat -> leaf_ok sch x ->
  leaf_unmarshal sch (leaf_marshal sch x) = Some x /\ bytes_ok (leaf_marshal sch x) = true.
Proof.
  intros Hlen (Hv & Hu & _). unfold leaf_marshal.
  destruct (leaf_fields_stream sch (lf_vals x) Hv 1) as [S1 S2]; [lia|change (2 ^ 29) with 536870912; lia|].
  destruct (unk_stream _ _ Hu) as (us & U1 & U2 & U3 & U4).
  assert (Hb : bytes_ok (put_leaf_fields 1 sch (lf_vals x) ++ lf_unk x) = true) by (rewrite bytes_ok_app, S2; apply Hu).
  split; [|exact Hb]. unfold leaf_unmarshal.
  rewrite (proj2 (read_fields_iff _ _ Hb) (stream_app _ _ _ _ S1 U1)). f_equal. rewrite fold_left_app.
  pose proof (leaf_fields_fold sch (lf_vals x) Hv [] [] [] eq_refl) as Hfold. cbn [length app N.of_nat] in Hfold. change (0 + 1) with 1 in Hfold.
  unfold leaf_empty. rewrite Hfold. rewrite (leaf_unk_fold sch us U2 U3). cbn [lf_vals lf_unk app]. rewrite <- U4. destruct x; reflexivity.
Qed.

(** ** StorageRecord *)
Lemma top_unk_fold us : Forall f_ok us -> Forall (fun f => ~ top_known f) us ->
  forall m, sr_store_all m us = Some (mkSR (sr_number m) (sr_time m) (sr_reasons m) (sr_flags m) (sr_sensors m) (sr_unk m ++ flat_map unknown_bytes us)).
Proof.
  intros Hf Hk. induction Hk as [|f us Hn Hk IH]; intros m; [cbn; rewrite app_nil_r; destruct m; reflexivity|].
  inversion Hf as [|? ? Hf1 Hf2]; subst. cbn [sr_store_all flat_map].
  assert (sr_store m f = Some (add_unknown m f)) as ->.
  { rewrite sr_store_eq. unfold sr_store', top_known in *. destruct (wf_val f); try reflexivity.
    - destruct (wf_num f =? 1) eqn:E1; [lia|]. destruct (wf_num f =? 3) eqn:E3; [lia|reflexivity].
    - destruct (wf_num f =? 3) eqn:E3; [lia|].
      destruct (if wf_num f <? 7 then None else nth_error schemas (N.to_nat (wf_num f - 7))) as [sch|] eqn:Hs; [|reflexivity].
      apply schemas_index in Hs. lia.
    - destruct (wf_num f =? 2) eqn:E1; [lia|]. destruct (wf_num f =? 4) eqn:E3; [lia|reflexivity]. }
  rewrite IH by exact Hf2. unfold add_unknown. cbn [sr_number sr_time sr_flags sr_reasons sr_sensors sr_unk]. rewrite <- app_assoc. reflexivity.
Qed.
Definition reason_field (r : Z) : wfield := mkWf 3 (WVarint (of_int 64 r)) (put_varint 10 (of_int 64 r)).
Lemma reasons_stream l : stream (map reason_field l) (flat_map (fun r => put_field 3 (WVarint (of_int 64 r))) l) /\
  bytes_ok (flat_map (fun r => put_field 3 (WVarint (of_int 64 r))) l) = true.
Proof.
  induction l as [|r l [I1 I2]]; [split; [apply st_nil|reflexivity]|]. cbn [map flat_map].
  assert (Hv : varint (of_int 64 r) (put_varint 10 (of_int 64 r))) by (apply put_varint_varint, (of_int_bound 64); lia).
  destruct (put_field_stream 3 (WVarint (of_int 64 r))) as [S1 S2].
  - change (2 ^ 29) with 536870912. lia.
  - apply pl_varint, Hv.
  - exact (varint_ok _ _ Hv).
  - split; [apply (stream_app [reason_field r]); assumption|]. rewrite bytes_ok_app, S2, I2. reflexivity.
Qed.
Lemma reasons_fold l : Forall (fun z => (- 2 ^ 31 <= z < 2 ^ 31)%Z) l -> forall m,
  sr_store_all m (map reason_field l) = Some (mkSR (sr_number m) (sr_time m) (sr_reasons m ++ l) (sr_flags m) (sr_sensors m) (sr_unk m)).
Proof.
  induction 1 as [|r l Hr Hl IH]; intros m; [cbn; rewrite app_nil_r; destruct m; reflexivity|]. cbn [map sr_store_all].
  assert (sr_store m (reason_field r) = Some (mkSR (sr_number m) (sr_time m) (sr_reasons m ++ [r]) (sr_flags m) (sr_sensors m) (sr_unk m))) as ->.
  { rewrite sr_store_eq. unfold sr_store', reason_field. cbn [wf_val wf_num N.eqb Pos.eqb].
    rewrite int32_of_int by (try lia; exact Hr). reflexivity. }
  rewrite IH. cbn [sr_number sr_time sr_flags sr_reasons sr_sensors sr_unk].
  rewrite <- app_assoc. reflexivity.
Qed.
Definition sensor_field (num : N) (sch : list ptype) (x : leaf) : wfield :=
  mkWf num (WBytes (leaf_marshal sch x)) (put_value (WBytes (leaf_marshal sch x))).
Lemma sensor_stream num sch l : 1 <= num < 2 ^ 29 -> (length sch < 1000)%nat -> Forall (leaf_ok sch) l ->
  stream (map (sensor_field num sch) l) (flat_map (fun x => put_field num (WBytes (leaf_marshal sch x))) l) /\
  bytes_ok (flat_map (fun x => put_field num (WBytes (leaf_marshal sch x))) l) = true.
Proof.
  intros Hn Hlen. induction 1 as [|x l Hx Hl [I1 I2]]; [split; [apply st_nil|reflexivity]|]. cbn [map flat_map].
  destruct (leaf_round_trip sch x Hlen Hx) as [_ Hb]. pose proof (put_varint_varint _ (proj2 (proj2 Hx))) as Hv.
  destruct (put_field_stream num (WBytes (leaf_marshal sch x))) as [S1 S2].
  - exact Hn.
  - apply pl_bytes, Hv.
  - cbn [put_value]. rewrite bytes_ok_app, Hb, (varint_ok _ _ Hv). reflexivity.
  - split; [apply (stream_app [sensor_field num sch x]); assumption|]. rewrite bytes_ok_app, S2, I2. reflexivity.
Qed.
Lemma sensor_fold i sch l : nth_error schemas i = Some sch -> (length sch < 1000)%nat -> Forall (leaf_ok sch) l ->
  forall n t r f u pre acc post, length pre = i ->
  sr_store_all (mkSR n t r f (pre ++ acc :: post) u) (map (sensor_field (7 + N.of_nat i) sch) l)
  = Some (mkSR n t r f (pre ++ (acc ++ l) :: post) u).
Proof.
  intros Hi Hlen. induction 1 as [|x l Hx Hl IH]; intros n t r f u pre acc post Hp; [rewrite app_nil_r; reflexivity|].
  cbn [map sr_store_all].
  assert (sr_store (mkSR n t r f (pre ++ acc :: post) u) (sensor_field (7 + N.of_nat i) sch x) = Some (mkSR n t r f (pre ++ (acc ++ [x]) :: post) u)) as ->.
  { rewrite sr_store_eq. unfold sr_store', sensor_field. cbn [wf_val wf_num].
    assert (7 + N.of_nat i =? 3 = false) as -> by lia. assert (7 + N.of_nat i <? 7 = false) as -> by lia.
    replace (N.to_nat (7 + N.of_nat i - 7)) with i by lia. rewrite Hi, (proj1 (leaf_round_trip sch x Hlen Hx)).
    cbn [sr_number sr_time sr_flags sr_reasons sr_sensors sr_unk]. rewrite app_nth2, Hp, Nat.sub_diag by lia. cbn [nth].
    rewrite <- Hp at 1. rewrite set_at_app. reflexivity. }
  rewrite (IH n t r f u pre (acc ++ [x]) post Hp), <- app_assoc. reflexivity.
Qed.
Fixpoint sensor_fields (num : N) (schs : list (list ptype)) (sens : list (list leaf)) : list wfield :=
  match schs, sens with
  | sch :: schs', l :: sens' => map (sensor_field num sch) l ++ sensor_fields (num + 1) schs' sens'
  | _, _ => []
  end.
Definition sens_ok (schs : list (list ptype)) (sens : list (list leaf)) : Prop := Forall2 (fun sch l => Forall (leaf_ok sch) l) schs sens.
Lemma sensors_stream schs sens : sens_ok schs sens -> Forall (fun sch => (length sch < 1000)%nat) schs ->
  forall num, 1 <= num -> num + N.of_nat (length schs) < 2 ^ 29 ->
  stream (sensor_fields num schs sens) (put_sensors num schs sens) /\ bytes_ok (put_sensors num schs sens) = true.
Proof.
  induction 1 as [|sch l schs sens Hl H IH]; intros Hlen num H1 H2; [split; [apply st_nil|reflexivity]|].
  inversion Hlen; subst. cbn [sensor_fields put_sensors length] in *. destruct (IH ltac:(assumption) (num + 1)) as [I1 I2]; [lia..|].
  destruct (sensor_stream num sch l) as [S1 S2]; [lia|assumption..|].
  split; [apply stream_app; assumption|]. rewrite bytes_ok_app, S2, I2. reflexivity.
Qed.
Lemma sensors_fold schs sens : sens_ok schs sens -> Forall (fun sch => (length sch < 1000)%nat) schs ->
  forall n t r f u spre pre, length spre = length pre -> spre ++ schs = schemas ->
  sr_store_all (mkSR n t r f (pre ++ map (fun _ => []) schs) u) (sensor_fields (7 + N.of_nat (length pre)) schs sens)
  = Some (mkSR n t r f (pre ++ sens) u).
Proof.
  induction 1 as [|sch l schs sens Hl H IH]; intros Hlen n t r f u spre pre Hp Hs; [reflexivity|].
  inversion Hlen; subst. cbn [sensor_fields map]. rewrite sr_store_all_app.
  rewrite (sensor_fold (length pre) sch l) by (try assumption; try reflexivity; rewrite <- Hs, nth_error_app2, Hp, Nat.sub_diag by lia; reflexivity).
  cbn [app]. specialize (IH ltac:(assumption) n t r f u (spre ++ [sch]) (pre ++ [l])).
  rewrite !app_length, <- !app_assoc in IH. cbn [length app] in IH.
  replace (7 + N.of_nat (length pre + 1)) with (7 + N.of_nat (length pre) + 1) in IH by lia. apply IH; [lia|exact Hs].
Qed.
Lemma schemas_small : Forall (fun sch : list ptype => (length sch < 1000)%nat) schemas.
Proof. unfold schemas. repeat (constructor; [cbn [length]; lia|]). constructor. Qed.
Lemma fix_stream num v : 1 <= num < 2 ^ 29 -> stream [mkWf num (WFix32 (le_enc 4 v)) (le_enc 4 v)] (put_field num (WFix32 (le_enc 4 v))) /\
  bytes_ok (put_field num (WFix32 (le_enc 4 v))) = true.
Proof. intros Hn. apply put_field_stream; [exact Hn|apply pl_fix32, length_le_enc|apply le_enc_ok]. Qed.
Theorem sr_round_trip m : record_ok m -> exists b, sr_marshal m = Some b /\ bytes_ok b = true /\ sr_unmarshal b = Some m.
Proof.
  intros ((n & t & fl & Hn & Ht & Hfl & Bn & Bt & Bf) & Hr & Hs & Hu).
  unfold sr_marshal. rewrite Hn, Ht, Hfl. eexists. split; [reflexivity|].
  assert (Bn' : n < 2 ^ 64) by (rewrite pow32 in Bn; rewrite pow64; lia).
  pose proof (put_varint_varint n Bn') as Hvn.
  destruct (put_field_stream 1 (WVarint n)) as [S1 O1]; [change (2 ^ 29) with 536870912; lia|apply pl_varint, Hvn|exact (varint_ok _ _ Hvn)|].
  destruct (fix_stream 2 t) as [S2 O2]; [change (2 ^ 29) with 536870912; lia|].
  destruct (reasons_stream (sr_reasons m)) as [S3 O3].
  destruct (fix_stream 4 fl) as [S4 O4]; [change (2 ^ 29) with 536870912; lia|].
  destruct (sensors_stream schemas (sr_sensors m) Hs schemas_small 7) as [S5 O5]; [lia|reflexivity|].
  destruct (unk_stream _ _ Hu) as (us & S6 & U2 & U3 & U4).
  pose proof (stream_app _ _ _ _ S1 (stream_app _ _ _ _ S2 (stream_app _ _ _ _ S3 (stream_app _ _ _ _ S4 (stream_app _ _ _ _ S5 S6))))) as S.
  assert (Hb : bytes_ok (put_field 1 (WVarint n) ++ put_field 2 (WFix32 (le_enc 4 t))
            ++ flat_map (fun r => put_field 3 (WVarint (of_int 64 r))) (sr_reasons m)
            ++ put_field 4 (WFix32 (le_enc 4 fl))
            ++ put_sensors 7 schemas (sr_sensors m) ++ sr_unk m) = true).
  { rewrite !bytes_ok_app, O1, O2, O3, O4, O5. apply Hu. }
  split; [exact Hb|]. unfold sr_unmarshal. rewrite (proj2 (read_fields_iff _ _ Hb) S).
  assert (Hfin : sr_store_all sr_empty ([mkWf 1 (WVarint n) (put_value (WVarint n))] ++ [mkWf 2 (WFix32 (le_enc 4 t)) (le_enc 4 t)]
     ++ map reason_field (sr_reasons m) ++ [mkWf 4 (WFix32 (le_enc 4 fl)) (le_enc 4 fl)] ++ sensor_fields 7 schemas (sr_sensors m) ++ us) = Some m).
  { cbn [app]. cbn [sr_store_all]. rewrite sr_store_eq. unfold sr_store' at 1. cbn [wf_val wf_num N.eqb Pos.eqb].
    rewrite sr_store_eq. unfold sr_store' at 1. cbn [wf_val wf_num N.eqb Pos.eqb].
    rewrite N.mod_small by exact Bn. rewrite le_dec_enc_id by exact Bt.
    rewrite sr_store_all_app, (reasons_fold _ Hr). cbn [sr_number sr_time sr_flags sr_reasons sr_sensors sr_unk].
    cbn [sr_store_all]. rewrite sr_store_eq. unfold sr_store' at 1. cbn [wf_val wf_num N.eqb Pos.eqb].
    rewrite le_dec_enc_id by exact Bf. cbn [sr_number sr_time sr_flags sr_reasons sr_sensors sr_unk].
    rewrite sr_store_all_app.
    pose proof (sensors_fold schemas (sr_sensors m) Hs schemas_small (Some n) (Some t) (sr_reasons m) (Some fl) [] [] [] eq_refl eq_refl) as HF.
    cbn [length app] in HF. cbn [sr_empty sr_sensors sr_reasons sr_unk app].
    match type of HF with sr_store_all ?a ?b = Some ?c => match goal with |- context[sr_store_all ?a' (sensor_fields 7 ?x ?y)] => change (sr_store_all a' (sensor_fields 7 x y)) with (sr_store_all a b) end end.
    rewrite HF, (top_unk_fold us U2 U3). cbn [sr_number sr_time sr_flags sr_reasons sr_sensors sr_unk app].
    rewrite <- U4. destruct m as [m1 m2 m3 m4 m5 m6]; cbn [sr_number sr_time sr_flags sr_reasons sr_sensors sr_unk] in *. subst. reflexivity. }
  rewrite Hfin. unfold initialized. rewrite Hn, Ht, Hfl. reflexivity.
Qed.

(** ** What was decoded can be encoded *)
Lemma from_wire_ok ty f v : f_ok f -> from_wire ty (wf_val f) = Some v -> pval_ok ty v.
Proof.
  intros Hf H. destruct ty, (wf_val f) eqn:E; cbn [from_wire] in H; try discriminate; injection H as <-; cbn [pval_ok]; try exact I.
  - apply N.mod_lt. discriminate.
  - pose proof (proj1 (unzigzag_iff v0 _) eq_refl) as Hm. inversion Hm; rewrite zpow31 in *; lia.
  - destruct (proj1 (to_int32_iff _ (le_dec b)) eq_refl) as [Hb _]. exact Hb.
  - destruct (f_ok_fix f b Hf E) as [Hb Hl]. pose proof (le_dec_bound b Hb) as H. rewrite Hl in H. exact H.
  - exact (f_ok_bytes f s Hf E).
Qed.
Lemma unk_ok_nil known : unk_ok known [].
Proof. split; [reflexivity|]. exists [], []. repeat split; constructor. Qed.
Lemma unk_ok_snoc known b f : f_ok f -> unk_ok known b -> ~ known f -> unk_ok known (b ++ unknown_bytes f).
Proof.
  intros Hf (Hb & us & bs & H1 & -> & H2) Hk. split.
  - rewrite bytes_ok_app, Hb. unfold unknown_bytes. destruct Hf as (Hn & Hv & Hr).
    rewrite bytes_ok_app, Hr, (tag_bytes _ _ Hn (value_wt _ _ _ Hv)). reflexivity.
  - exists (us ++ [f]), (bs ++ [unknown_bytes f]). split; [apply Forall2_app; [exact H1|constructor; [apply kept_iff; [exact Hf|reflexivity]|constructor]]|].
    split; [rewrite concat_app; cbn [concat]; rewrite app_nil_r; reflexivity|].
    apply Forall_app. split; [exact H2|]. constructor; [|constructor]. split; [exact Hk|]. split; apply Hf.
Qed.
Lemma vals_ok_set sch : forall vals i ty v, vals_ok sch vals -> nth_error sch i = Some ty -> pval_ok ty v -> vals_ok sch (set_at i (Some v) vals).
Proof.
  induction sch as [|ty0 sch IH]; intros vals i ty v Hv Hi Hp; [destruct i; discriminate|]. inversion Hv; subst.
  destruct i as [|i]; cbn [nth_error set_at] in *.
  - injection Hi as ->. constructor; assumption.
  - constructor; [assumption|]. eapply IH; eassumption.
Qed.
Definition leaf_size (sch : list ptype) (x : leaf) : nat := length (leaf_marshal sch x).
Lemma varint_mono k : forall v v', v' <= v -> v < 2 ^ (7 * N.of_nat k) -> (length (put_varint k v') <= length (put_varint k v))%nat.
Proof.
  induction k as [|k IH]; intros v v' Hle Hv; [cbn; lia|]. cbn [put_varint].
  destruct (v' <? 128) eqn:E'; destruct (v <? 128) eqn:E; cbn [length]; try lia.
  apply le_n_S, IH; [apply N.div_le_mono; lia|]. apply N.div_lt_upper_bound; [lia|].
  replace (7 * N.of_nat (S k)) with (7 + 7 * N.of_nat k) in Hv by lia. rewrite N.pow_add_r in Hv. exact Hv.
Qed.
Lemma varint_le v v' p : varint v p -> v' <= v -> (length (put_varint 10 v') <= length p)%nat.
Proof.
  intros Hp Hle. etransitivity; [|exact (put_varint_shortest v p Hp)]. apply varint_mono; [exact Hle|].
  eapply N.lt_trans; [apply Hp|]. reflexivity.
Qed.
Lemma zigzag_unzigzag v : zigzag (unzigzag v) = v mod 4294967296.
Proof.
  unfold unzigzag. set (m := v mod 4294967296). pose proof (N.div_mod m 2 ltac:(lia)). assert (m mod 2 < 2) by (apply N.mod_lt; lia).
  unfold zigzag. destruct (m mod 2 =? 0) eqn:E.
  - assert ((Z.of_N (m / 2) <? 0) = false)%Z as -> by lia. lia.
  - assert ((- Z.of_N (m / 2) - 1 <? 0) = true)%Z as -> by lia. lia.
Qed.
Lemma put_value_le ty f v : f_ok f -> from_wire ty (wf_val f) = Some v ->
  wire_type (to_wire v ty) = wire_type (wf_val f) /\ (length (put_value (to_wire v ty)) <= length (wf_raw f))%nat.
Proof.
  intros (_ & Hv & _) H. destruct Hv as [Hv|[E _]]; [|rewrite E in H; destruct ty; discriminate].
  destruct Hv as [n b Hn|b Hn|s n Hn|b Hn]; destruct ty; cbn [from_wire] in H; try discriminate; injection H as <-; cbn [to_wire wire_type put_value]; (split; [reflexivity|]).
  - apply (varint_le n _ _ Hn). apply N.mod_le. discriminate.
  - destruct (n =? 0) eqn:E; cbn [negb]; apply (varint_le n _ _ Hn); lia.
  - rewrite zigzag_unzigzag. apply (varint_le n _ _ Hn). apply N.mod_le. discriminate.
  - rewrite !app_length. pose proof (put_varint_shortest _ _ Hn). lia.
  - rewrite length_le_enc. lia.
  - rewrite length_le_enc. lia.
Qed.
Lemma put_leaf_set sch : forall num vals i ty v, length vals = length sch -> nth_error sch i = Some ty ->
  (length (put_leaf_fields num sch (set_at i (Some v) vals)) <=
   length (put_leaf_fields num sch vals) + length (put_field (num + N.of_nat i) (to_wire v ty)))%nat.
Proof.
  induction sch as [|ty0 sch IH]; intros num vals i ty v Hl Hi; [destruct i; discriminate|].
  destruct vals as [|o vals]; [discriminate|]. destruct i as [|i]; cbn [nth_error set_at put_leaf_fields] in *.
  - injection Hi as ->. rewrite !app_length. rewrite N.add_0_r. lia.
  - rewrite !app_length. specialize (IH (num + 1) vals i ty v ltac:(cbn in Hl; lia) Hi).
    replace (num + 1 + N.of_nat i) with (num + N.of_nat (S i)) in IH by lia. lia.
Qed.
Lemma f2_length {A B} (R : A -> B -> Prop) l l' : Forall2 R l l' -> length l = length l'.
Proof. induction 1; cbn; congruence. Qed.
Definition leaf_inv (sch : list ptype) (x : leaf) : Prop := vals_ok sch (lf_vals x) /\ unk_ok (leaf_known sch) (lf_unk x).
Lemma unknown_size f t : f_ok f -> tag (wf_num f) (wire_type (wf_val f)) t ->
  (length (put_tag (wf_num f) (wire_type (wf_val f))) <= length t)%nat.
Proof. intros _ Ht. apply put_varint_shortest, Ht. Qed.
Lemma leaf_inv_step sch x f t : f_ok f -> tag (wf_num f) (wire_type (wf_val f)) t -> leaf_inv sch x ->
  leaf_inv sch (leaf_store sch x f) /\ (leaf_size sch (leaf_store sch x f) <= leaf_size sch x + length t + length (wf_raw f))%nat.
Proof.
  intros Hf Ht (Hv & Hu). pose proof (unknown_size f t Hf Ht) as Hsz. assert (Hn : 1 <= wf_num f) by apply Hf.
  assert (Hl : length (lf_vals x) = length sch) by (symmetry; exact (f2_length _ _ _ Hv)).
  assert (Hunk : ~ leaf_known sch f -> leaf_inv sch (mkLeaf (lf_vals x) (lf_unk x ++ unknown_bytes f)) /\
    (leaf_size sch (mkLeaf (lf_vals x) (lf_unk x ++ unknown_bytes f)) <= leaf_size sch x + length t + length (wf_raw f))%nat).
  { intros Hk. split; [split; [exact Hv|apply unk_ok_snoc; assumption]|].
    unfold leaf_size, leaf_marshal, unknown_bytes. cbn [lf_vals lf_unk]. rewrite !app_length. lia. }
  unfold leaf_store. destruct (nth_error sch (N.to_nat (wf_num f - 1))) as [ty|] eqn:Hty; [destruct (from_wire ty (wf_val f)) as [v|] eqn:Hw|].
  - split; [split; [|exact Hu]|].
    + cbn [lf_vals]. eapply vals_ok_set; [exact Hv|exact Hty|exact (from_wire_ok ty f v Hf Hw)].
    + unfold leaf_size, leaf_marshal. cbn [lf_vals lf_unk]. rewrite !app_length.
      pose proof (put_leaf_set sch 1 (lf_vals x) _ ty v Hl Hty) as Hs. unfold put_field in Hs. rewrite app_length in Hs.
      destruct (put_value_le ty f v Hf Hw) as [Hwt Hpv]. rewrite Hwt in Hs.
      replace (1 + N.of_nat (N.to_nat (wf_num f - 1))) with (wf_num f) in Hs by lia. lia.
  - apply Hunk. intros (i & ty' & v & Hi & Hni & Hm). apply num_index in Hni; [|exact Hn]. rewrite Hni, Hi in Hty. injection Hty as <-.
    apply means_none with (v := v) in Hw. exact (Hw Hm).
  - apply Hunk. intros (i & ty' & v & Hi & Hni & Hm). apply num_index in Hni; [|exact Hn]. rewrite Hni, Hi in Hty. discriminate.
Qed.
Lemma leaf_inv_fold sch l b : stream l b -> bytes_ok b = true -> forall x, leaf_inv sch x ->
  leaf_inv sch (fold_left (leaf_store sch) l x) /\ (leaf_size sch (fold_left (leaf_store sch) l x) <= leaf_size sch x + length b)%nat.
Proof.
  induction 1 as [|num w t v l b Hn Ht Hv Hs IH]; intros Hb x Hx; [split; [exact Hx|cbn; lia]|].
  apply ok_app in Hb. destruct Hb as [_ Hb]. apply ok_app in Hb. destruct Hb as [Hb1 Hb2]. cbn [fold_left].
  destruct (leaf_inv_step sch x (mkWf num w v) t) as [I1 I2]; [repeat split; try apply Hn; assumption|exact Ht|exact Hx|].
  destruct (IH Hb2 _ I1) as [J1 J2]. split; [exact J1|]. rewrite !app_length. cbn [wf_raw] in I2. lia.
Qed.
Lemma leaf_empty_inv sch : leaf_inv sch (leaf_empty sch) /\ leaf_size sch (leaf_empty sch) = 0%nat.
Proof.
  split; [split; [|apply unk_ok_nil]|].
  - cbn [leaf_empty lf_vals]. unfold vals_ok. induction sch; constructor; [exact I|assumption].
  - unfold leaf_size, leaf_marshal, leaf_empty. cbn [lf_vals lf_unk]. rewrite app_nil_r.
    assert (forall num, put_leaf_fields num sch (map (fun _ => None) sch) = []) as ->; [|reflexivity].
    induction sch as [|ty sch IH]; intros num; [reflexivity|]. cbn [map put_leaf_fields app]. apply IH.
Qed.
Lemma leaf_decoded_ok sch s x : bytes_ok s = true -> blen s < 2 ^ 64 -> leaf_unmarshal sch s = Some x -> leaf_ok sch x.
Proof.
  intros Hs Hl. unfold leaf_unmarshal. destruct (read_fields (length s) s) as [l|] eqn:Hr; [|discriminate]. intros H. injection H as <-.
  apply (read_fields_iff s l Hs) in Hr. destruct (leaf_empty_inv sch) as [E1 E2].
  destruct (leaf_inv_fold sch l s Hr Hs _ E1) as [[I1 I2] I3]. split; [exact I1|]. split; [exact I2|].
  unfold leaf_size in *. unfold blen in *. lia.
Qed.
Definition opt_ok (o : option N) : Prop := match o with Some n => n < 2 ^ 32 | None => True end.
Definition sr_inv (m : storage_record) : Prop :=
  opt_ok (sr_number m) /\ opt_ok (sr_time m) /\ opt_ok (sr_flags m) /\
  Forall (fun z => (- 2 ^ 31 <= z < 2 ^ 31)%Z) (sr_reasons m) /\ sens_ok schemas (sr_sensors m) /\ unk_ok top_known (sr_unk m).
Lemma sens_ok_set schs : forall sens i sch x, sens_ok schs sens -> nth_error schs i = Some sch -> leaf_ok sch x ->
  sens_ok schs (set_at i (nth i sens [] ++ [x]) sens).
Proof.
  induction schs as [|sch0 schs IH]; intros sens i sch x Hs Hi Hx; [destruct i; discriminate|]. inversion Hs; subst.
  destruct i as [|i]; cbn [nth_error set_at nth] in *.
  - injection Hi as ->. constructor; [apply Forall_app; split; [assumption|constructor; [exact Hx|constructor]]|assumption].
  - constructor; [assumption|]. eapply IH; eassumption.
Qed.
Lemma packed_range b l : packed b l -> Forall (fun z => (- 2 ^ 31 <= z < 2 ^ 31)%Z) l.
Proof. induction 1 as [|v t z b l _ [Hz _] _ IH]; constructor; assumption. Qed.
Lemma fix_bound f b : f_ok f -> wf_val f = WFix32 b -> le_dec b < 2 ^ 32.
Proof. intros Hf E. destruct (f_ok_fix f b Hf E) as [Hb Hl]. pose proof (le_dec_bound b Hb) as H. rewrite Hl in H. exact H. Qed.
Lemma sr_inv_step m f m' : f_ok f -> sr_inv m -> sr_store m f = Some m' -> sr_inv m'.
Proof.
  intros Hf (I1 & I2 & I3 & I4 & I5 & I6) H. rewrite sr_store_eq in H. unfold sr_store' in H.
  assert (Hunk : ~ top_known f -> sr_inv (add_unknown m f)).
  { intros Hk. do 5 (split; [assumption|]). cbn [add_unknown sr_unk]. apply unk_ok_snoc; assumption. }
  destruct (wf_val f) as [v|b|s|b|b] eqn:Hv.
  - destruct (wf_num f =? 1) eqn:E1; [|destruct (wf_num f =? 3) eqn:E3]; injection H as <-.
    + split; [cbn; apply N.mod_lt; discriminate|]. repeat (split; [assumption|]). assumption.
    + do 3 (split; [assumption|]). split; [|split; assumption]. cbn [sr_reasons]. apply Forall_app. split; [exact I4|].
      constructor; [|constructor]. apply (proj1 (to_int32_iff _ v) eq_refl).
    + apply Hunk. unfold top_known. rewrite Hv. lia.
  - injection H as <-. apply Hunk. unfold top_known. rewrite Hv. tauto.
  - destruct (f_ok_bytes f s Hf Hv) as [Hs Hsl].
    destruct (wf_num f =? 3) eqn:E3; [|destruct (if wf_num f <? 7 then None else nth_error schemas (N.to_nat (wf_num f - 7))) as [sch|] eqn:Hsch].
    + destruct (read_packed (length s) s) as [l|] eqn:Hp; [|discriminate]. injection H as <-.
      apply (read_packed_iff s l Hs), packed_range in Hp.
      do 3 (split; [assumption|]). split; [|split; assumption]. cbn [sr_reasons]. apply Forall_app. split; assumption.
    + apply schemas_index in Hsch. destruct (leaf_unmarshal sch s) as [x|] eqn:Hx; [|discriminate]. injection H as <-.
      do 4 (split; [assumption|]). split; [|assumption]. cbn [sr_sensors].
      eapply sens_ok_set; [exact I5|apply Hsch|exact (leaf_decoded_ok sch s x Hs Hsl Hx)].
    + injection H as <-. apply schemas_index_none in Hsch. apply Hunk. unfold top_known. rewrite Hv. lia.
  - injection H as <-. apply Hunk. unfold top_known. rewrite Hv. tauto.
  - pose proof (fix_bound f b Hf Hv) as Hb. destruct (wf_num f =? 2) eqn:E1; [|destruct (wf_num f =? 4) eqn:E3]; injection H as <-.
    + split; [assumption|]. split; [exact Hb|]. repeat (split; [assumption|]). assumption.
    + do 2 (split; [assumption|]). split; [exact Hb|]. repeat (split; [assumption|]). assumption.
    + apply Hunk. unfold top_known. rewrite Hv. lia.
Qed.
Lemma sr_inv_all l : Forall f_ok l -> forall m m', sr_inv m -> sr_store_all m l = Some m' -> sr_inv m'.
Proof.
  induction 1 as [|f l Hf Hl IH]; intros m m' Hm H; [injection H as <-; exact Hm|]. cbn [sr_store_all] in H.
  destruct (sr_store m f) as [m1|] eqn:E; [|discriminate]. exact (IH m1 m' (sr_inv_step m f m1 Hf Hm E) H).
Qed.
Lemma sr_empty_inv : sr_inv sr_empty.
Proof.
  do 3 (split; [exact I|]). split; [constructor|]. split; [|apply unk_ok_nil].
  cbn [sr_empty sr_sensors]. unfold sens_ok. generalize schemas. intros l. induction l; constructor; [constructor|assumption].
Qed.
Theorem sr_decoded_ok b m : bytes_ok b = true -> sr_unmarshal b = Some m -> record_ok m.
Proof.
  intros Hb H. unfold sr_unmarshal in H. destruct (read_fields (length b) b) as [l|] eqn:Hr; [|discriminate].
  destruct (sr_store_all sr_empty l) as [m'|] eqn:Hm; [|discriminate]. destruct (initialized m') eqn:Hi; [|discriminate]. injection H as <-.
  apply (read_fields_iff b l Hb) in Hr.
  destruct (sr_inv_all l (stream_f_ok l b Hr Hb) _ _ sr_empty_inv Hm) as (I1 & I2 & I3 & I4 & I5 & I6).
  split; [|repeat (split; [assumption|]); assumption]. unfold initialized in Hi.
  destruct (sr_number m') as [n|], (sr_time m') as [t|], (sr_flags m') as [fl|]; cbn in Hi; try discriminate.
  exists n, t, fl. repeat split; assumption.
Qed.
