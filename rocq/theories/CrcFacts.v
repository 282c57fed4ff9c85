(** * CrcFacts: proofs about Crc.v *)
From Coq Require Import Lia ZifyBool ZifyNat ZifyN.
From Verif Require Import GoBase BaseFacts Crc Spec_Crc.

Lemma clmul_double a b : clmul (N.double a) b = N.double (clmul a b).
Proof. destruct a; reflexivity. Qed.
Lemma clmul_succ_double a b : clmul (N.succ_double a) b = N.lxor b (N.double (clmul a b)).
Proof. destruct a; cbn; [rewrite N.lxor_0_r|]; reflexivity. Qed.

Lemma lxor_double_double a b : N.lxor (N.double a) (N.double b) = N.double (N.lxor a b).
Proof.
  apply N.bits_inj. intros n. rewrite N.lxor_spec, !N.double_spec.
  destruct (N.eq_dec n 0) as [->|Hn].
  - rewrite !N.testbit_even_0. reflexivity.
  - replace n with (N.succ (N.pred n)) by lia.
    rewrite !N.testbit_even_succ, N.lxor_spec by lia. reflexivity.
Qed.
Lemma lxor_succ_double a b : N.succ_double a = N.lxor 1 (N.double a) /\ N.lxor 1 (N.double b) = N.succ_double b.
Proof. split; [destruct a | destruct b]; reflexivity. Qed.

Lemma succ_double_lxor a : N.succ_double a = N.lxor 1 (N.double a).
Proof. destruct a; reflexivity. Qed.

Lemma lxor_swap a b c d : N.lxor (N.lxor a b) (N.lxor c d) = N.lxor (N.lxor a c) (N.lxor b d).
Proof.
  rewrite !N.lxor_assoc. f_equal. rewrite <- !N.lxor_assoc. f_equal. apply N.lxor_comm.
Qed.

Lemma lxor_cancel a b : N.lxor (N.lxor a b) a = b.
Proof. rewrite (N.lxor_comm a b), N.lxor_assoc, N.lxor_nilpotent. apply N.lxor_0_r. Qed.

Lemma clmul_lxor a : forall c b, clmul (N.lxor a c) b = N.lxor (clmul a b) (clmul c b).
Proof.
  induction a as [|a IH|a IH] using N.binary_ind; intros c b.
  - rewrite N.lxor_0_l. reflexivity.
  - destruct c as [|c _|c _] using N.binary_ind.
    + rewrite !N.lxor_0_r. reflexivity.
    + rewrite lxor_double_double, !clmul_double, IH, lxor_double_double. reflexivity.
    + rewrite (succ_double_lxor c), <- N.lxor_assoc, (N.lxor_comm _ 1), N.lxor_assoc,
        lxor_double_double, <- succ_double_lxor, !clmul_succ_double.
      rewrite <- succ_double_lxor, clmul_succ_double, clmul_double, IH.
      rewrite <- lxor_double_double. rewrite <- !N.lxor_assoc.
      f_equal. apply N.lxor_comm.
  - destruct c as [|c _|c _] using N.binary_ind.
    + rewrite !N.lxor_0_r. reflexivity.
    + rewrite (succ_double_lxor a), N.lxor_assoc, lxor_double_double, <- succ_double_lxor.
      rewrite <- succ_double_lxor, !clmul_succ_double, clmul_double, IH.
      rewrite <- lxor_double_double, N.lxor_assoc. reflexivity.
    + rewrite (succ_double_lxor a), (succ_double_lxor c), lxor_swap, N.lxor_nilpotent, N.lxor_0_l.
      rewrite lxor_double_double, clmul_double, <- !succ_double_lxor, !clmul_succ_double.
      rewrite lxor_swap, N.lxor_nilpotent, N.lxor_0_l, IH, lxor_double_double. reflexivity.
Qed.

Lemma shiftl_succ a n : N.shiftl a (N.succ n) = N.double (N.shiftl a n).
Proof. apply N.shiftl_succ_r. Qed.

Lemma clmul_shiftl a b n : clmul (N.shiftl a n) b = N.shiftl (clmul a b) n.
Proof.
  induction n as [|n IH] using N.peano_ind.
  - rewrite !N.shiftl_0_r. reflexivity.
  - rewrite !shiftl_succ, clmul_double, IH. reflexivity.
Qed.

(** ** Congruence modulo a polynomial *)
Definition pcong (g a b : N) : Prop := exists q, N.lxor a b = clmul q g.

Lemma pcong_refl g a : pcong g a a.
Proof. exists 0. apply N.lxor_nilpotent. Qed.
Lemma pcong_sym g a b : pcong g a b -> pcong g b a.
Proof. intros [q H]. exists q. rewrite N.lxor_comm. exact H. Qed.
Lemma pcong_trans g a b c : pcong g a b -> pcong g b c -> pcong g a c.
Proof.
  intros [q H] [q' H']. exists (N.lxor q q'). rewrite clmul_lxor, <- H, <- H'.
  rewrite N.lxor_assoc, <- (N.lxor_assoc b b), N.lxor_nilpotent, N.lxor_0_l. reflexivity.
Qed.
Lemma pcong_lxor g a b c d : pcong g a b -> pcong g c d -> pcong g (N.lxor a c) (N.lxor b d).
Proof.
  intros [q H] [q' H']. exists (N.lxor q q'). rewrite clmul_lxor, <- H, <- H'. apply lxor_swap.
Qed.
Lemma pcong_shiftl g a b n : pcong g a b -> pcong g (N.shiftl a n) (N.shiftl b n).
Proof.
  intros [q H]. exists (N.shiftl q n). rewrite clmul_shiftl, <- H, N.shiftl_lxor. reflexivity.
Qed.
Lemma pcong_double g a b : pcong g a b -> pcong g (N.double a) (N.double b).
Proof.
  intros H. apply (pcong_shiftl g a b 1) in H. exact H.
Qed.

(** ** Degrees *)
Lemma lt_pow2_bits a n : a < 2 ^ n <-> forall m, n <= m -> N.testbit a m = false.
Proof.
  split.
  - intros H m Hm. destruct (N.eq_dec a 0) as [->|Ha]; [apply N.bits_0|].
    apply N.bits_above_log2. apply N.log2_lt_pow2 in H; lia.
  - intros H. destruct (N.eq_dec a 0) as [->|Ha]; [apply N.neq_0_lt_0, N.pow_nonzero; lia|].
    apply N.log2_lt_pow2; [lia|]. destruct (N.lt_ge_cases (N.log2 a) n) as [Hl|Hl]; [exact Hl|].
    specialize (H _ Hl). rewrite N.bit_log2 in H by exact Ha. discriminate.
Qed.

Lemma lxor_lt_pow2 a b n : a < 2 ^ n -> b < 2 ^ n -> N.lxor a b < 2 ^ n.
Proof.
  rewrite !lt_pow2_bits. intros Ha Hb m Hm. rewrite N.lxor_spec, Ha, Hb by exact Hm. reflexivity.
Qed.

(** A non-zero multiple of a polynomial of degree w has degree at least w. *)
Lemma clmul_deg w g q : 2 ^ w <= g < 2 ^ (w + 1) -> q <> 0 ->
  2 ^ (w + N.log2 q) <= clmul q g < 2 ^ (w + N.log2 q + 1).
Proof.
  intros Hg. induction q as [|q IH|q IH] using N.binary_ind; intros Hq; [congruence| |].
  - assert (q <> 0) as Hq' by (destruct q; [contradiction|discriminate]).
    specialize (IH Hq'). rewrite clmul_double.
    rewrite N.double_spec, N.log2_double by lia.
    replace (w + N.succ (N.log2 q)) with (N.succ (w + N.log2 q)) by lia.
    rewrite N.double_spec.
    replace (N.succ (w + N.log2 q) + 1) with (N.succ (w + N.log2 q + 1)) by lia.
    rewrite !N.pow_succ_r'. lia.
  - rewrite clmul_succ_double. destruct (N.eq_dec q 0) as [->|Hq'].
    + cbn. rewrite N.lxor_0_r, N.add_0_r. exact Hg.
    + specialize (IH Hq'). rewrite N.succ_double_spec, N.log2_succ_double by lia.
      replace (w + N.succ (N.log2 q)) with (N.succ (w + N.log2 q)) by lia.
      replace (N.succ (w + N.log2 q) + 1) with (N.succ (w + N.log2 q + 1)) by lia.
      set (k := w + N.log2 q) in *.
      assert (g < 2 ^ (N.succ k)) as Hg1.
      { apply N.lt_le_trans with (2 ^ (w + 1)); [apply Hg|]. apply N.pow_le_mono_r; lia. }
      assert (N.testbit (N.double (clmul q g)) (N.succ k) = true) as Hb.
      { rewrite N.double_spec, N.testbit_even_succ by lia.
        assert (N.log2 (clmul q g) = k) as Hl.
        { apply N.log2_unique; [lia|]. rewrite <- N.add_1_r. exact IH. }
        rewrite <- Hl. apply N.bit_log2.
        assert (2 ^ k <> 0) by (apply N.pow_nonzero; lia). lia. }
      split.
      * destruct (N.lt_ge_cases (N.lxor g (N.double (clmul q g))) (2 ^ N.succ k)) as [Hlt|]; [|assumption].
        rewrite lt_pow2_bits in Hlt. specialize (Hlt (N.succ k) ltac:(lia)).
        rewrite N.lxor_spec, Hb in Hlt.
        rewrite lt_pow2_bits in Hg1. rewrite Hg1 in Hlt by lia. discriminate.
      * apply lxor_lt_pow2.
        -- apply N.lt_le_trans with (2 ^ (N.succ k)); [exact Hg1|]. apply N.pow_le_mono_r; lia.
        -- rewrite N.double_spec, N.pow_succ_r'. lia.
Qed.

(** Remainders are unique: the specification determines the checksum. *)
Lemma clmul_small w g q : 2 ^ w <= g < 2 ^ (w + 1) -> clmul q g < 2 ^ w -> q = 0.
Proof.
  intros Hg H. destruct (N.eq_dec q 0) as [|Hq]; [assumption|].
  pose proof (clmul_deg w g q Hg Hq) as [H1 _].
  assert (2 ^ w <= 2 ^ (w + N.log2 q)) by (apply N.pow_le_mono_r; lia). lia.
Qed.

Lemma pcong_small w g a b : 2 ^ w <= g < 2 ^ (w + 1) -> a < 2 ^ w -> b < 2 ^ w ->
  pcong g a b -> a = b.
Proof.
  intros Hg Ha Hb [q H].
  assert (N.lxor a b < 2 ^ w) as Hx by (apply lxor_lt_pow2; assumption).
  rewrite H in Hx. apply clmul_small in Hx; [|exact Hg]. subst q. cbn in H.
  apply N.lxor_eq. exact H.
Qed.

Lemma poly_rem_unique w g a r r' : 2 ^ w <= g < 2 ^ (w + 1) ->
  poly_rem w g a r -> poly_rem w g a r' -> r = r'.
Proof.
  intros Hg [Hr [q H]] [Hr' [q' H']]. apply (pcong_small w g); auto.
  exists (N.lxor q q'). rewrite clmul_lxor.
  assert (N.lxor (clmul q g) r = N.lxor (clmul q' g) r') as He by congruence.
  apply N.lxor_eq. rewrite lxor_swap, (N.lxor_comm r), (N.lxor_comm r').
  rewrite He. apply N.lxor_nilpotent.
Qed.

Lemma pcong_rem w g a r : r < 2 ^ w -> pcong g a r -> poly_rem w g a r.
Proof.
  intros Hr [q H]. split; [exact Hr|]. exists q. rewrite <- H, N.lxor_assoc, N.lxor_nilpotent, N.lxor_0_r.
  reflexivity.
Qed.

(** x is invertible modulo a polynomial with constant term 1. *)
Lemma clmul_even q g : N.testbit g 0 = true ->
  N.testbit (clmul q g) 0 = false -> exists q', q = N.double q'.
Proof.
  intros Hg. destruct q as [|q _|q _] using N.binary_ind.
  - exists 0. reflexivity.
  - intros _. exists q. reflexivity.
  - rewrite clmul_succ_double, N.lxor_spec, Hg, N.double_spec, N.testbit_even_0. discriminate.
Qed.

Lemma double_inj a b : N.double a = N.double b -> a = b.
Proof. rewrite !N.double_spec. lia. Qed.

Lemma clmul_unshift g k : N.testbit g 0 = true ->
  forall q e, N.shiftl e k = clmul q g -> exists q', e = clmul q' g.
Proof.
  intros Hg. induction k as [|k IH] using N.peano_ind; intros q e H.
  - rewrite N.shiftl_0_r in H. exists q. exact H.
  - rewrite shiftl_succ in H. destruct (clmul_even q g Hg) as [q' ->].
    + rewrite <- H, N.double_spec. apply N.testbit_even_0.
    + rewrite clmul_double in H. apply double_inj in H. apply (IH q' e H).
Qed.

(** The general burst-detection argument. *)
Lemma burst_not_cong w g a b e k n : 2 ^ w <= g < 2 ^ (w + 1) -> N.testbit g 0 = true ->
  0 < e < 2 ^ w -> N.lxor a b = N.shiftl e k ->
  ~ pcong g (N.shiftl a n) (N.shiftl b n).
Proof.
  intros Hg Hg0 He Hab [q H]. rewrite <- N.shiftl_lxor, Hab, N.shiftl_shiftl in H.
  apply clmul_unshift in H; [|exact Hg0]. destruct H as [q' H].
  assert (clmul q' g < 2 ^ w) as Hs by (rewrite <- H; apply He).
  apply clmul_small in Hs; [|exact Hg]. subst q'. cbn in H. lia.
Qed.

(** ** The register shift *)
Definition all_below (n : nat) : list N := map N.of_nat (seq 0 n).

Lemma crc8_shift_alt c : c < 256 ->
  crc8_shift c < 256 /\
  (crc8_shift c = N.double c \/ crc8_shift c = N.lxor (N.double c) poly8).
Proof.
  intros H.
  assert ((crc8_shift c <? 256) && ((crc8_shift c =? N.double c) || (crc8_shift c =? N.lxor (N.double c) poly8)) = true) as Hb.
  { revert c H. apply byte_sweep. vm_compute. reflexivity. }
  apply andb_true_iff in Hb. rewrite orb_true_iff, !N.eqb_eq, N.ltb_lt in Hb. tauto.
Qed.

Lemma crc8_shift_cong c : c < 2 ^ 8 -> crc8_shift c < 2 ^ 8 /\ pcong poly8 (crc8_shift c) (N.shiftl c 1).
Proof.
  intros H. destruct (crc8_shift_alt c H) as [Hl Hc]. split; [exact Hl|].
  change (N.shiftl c 1) with (N.double c) in *. 
  destruct Hc as [-> | ->].
  - apply pcong_refl.
  - exists 1. cbn [clmul clmul_pos]. apply lxor_cancel.
Qed.

Lemma testbit_top w c : c < 2 ^ (w + 1) -> N.testbit c w = false -> c < 2 ^ w.
Proof.
  rewrite !lt_pow2_bits. intros H Ht m Hm. destruct (N.eq_dec m w) as [->|Hn]; [exact Ht|].
  apply H. lia.
Qed.

Lemma crc16_shift_cong c : c < 2 ^ 16 -> crc16_shift c < 2 ^ 16 /\ pcong poly16 (crc16_shift c) (N.shiftl c 1).
Proof.
  intros H. unfold crc16_shift.
  change 0x8000 with (2 ^ 15). 
  assert (N.land c (2 ^ 15) = if N.testbit c 15 then 2 ^ 15 else 0) as Hl.
  { apply N.bits_inj. intros n. rewrite N.land_spec, N.pow2_bits_eqb.
    destruct (15 =? n) eqn:Hn.
    - apply N.eqb_eq in Hn. subst n. destruct (N.testbit c 15); reflexivity.
    - rewrite andb_false_r. destruct (N.testbit c 15); [rewrite N.pow2_bits_eqb, Hn | rewrite N.bits_0]; reflexivity. }
  change 0xFFFF with (N.ones 16). rewrite N.land_ones. rewrite Hl.
  destruct (N.testbit c 15) eqn:Ht.
  - cbn [N.eqb N.pow Pos.pow Pos.iter Pos.mul Pos.eqb].
    assert (N.lxor (N.shiftl c 1 mod 2 ^ 16) 0x1021 = N.lxor (N.shiftl c 1) poly16) as He.
    { apply N.bits_inj. intros n. rewrite !N.lxor_spec.
      destruct (N.lt_ge_cases n 16) as [Hn|Hn].
      - rewrite N.mod_pow2_bits_low by exact Hn. f_equal.
        change poly16 with (N.lxor 0x1021 (2 ^ 16)). rewrite N.lxor_spec, N.pow2_bits_eqb.
        replace (16 =? n) with false by lia. rewrite xorb_false_r. reflexivity.
      - rewrite N.mod_pow2_bits_high by exact Hn.
        change poly16 with (N.lxor 0x1021 (2 ^ 16)). rewrite N.lxor_spec, N.pow2_bits_eqb.
        assert (N.testbit 0x1021 n = false) as ->.
        { assert (0x1021 < 2 ^ 16) as H1 by reflexivity. rewrite lt_pow2_bits in H1. apply H1; exact Hn. }
        destruct (N.eq_dec n 16) as [->|Hne].
        + rewrite N.shiftl_spec_high' by lia. change (16 - 1) with 15. rewrite Ht. reflexivity.
        + replace (16 =? n) with false by lia.
          rewrite N.shiftl_spec_high' by lia. rewrite lt_pow2_bits in H.
          rewrite H by lia. reflexivity. }
    split.
    + apply lxor_lt_pow2; [|reflexivity]. apply N.mod_upper_bound. discriminate.
    + rewrite He. exists 1. cbn [clmul clmul_pos]. apply lxor_cancel.
  - change (0 =? 0) with true. cbn match.
    assert (c < 2 ^ 15) as Hc by (apply testbit_top; [exact H|exact Ht]).
    assert (N.shiftl c 1 < 2 ^ 16) as Hs.
    { rewrite N.shiftl_mul_pow2. change (2 ^ 16) with (2 ^ 15 * 2 ^ 1).
      change (2^1) with 2. lia. }
    rewrite N.mod_small by exact Hs. split; [exact Hs|]. apply pcong_refl.
Qed.

Lemma iter_shift_cong w g (f : N -> N) :
  (forall c, c < 2 ^ w -> f c < 2 ^ w /\ pcong g (f c) (N.shiftl c 1)) ->
  forall n c, c < 2 ^ w -> Nat.iter n f c < 2 ^ w /\ pcong g (Nat.iter n f c) (N.shiftl c (N.of_nat n)).
Proof.
  intros Hf. induction n as [|n IH]; intros c Hc.
  - split; [exact Hc|]. rewrite N.shiftl_0_r. apply pcong_refl.
  - destruct (IH c Hc) as [IH1 IH2]. cbn [Nat.iter nat_rect].
    change (nat_rect (fun _ : nat => N) c (fun _ : nat => f) n) with (Nat.iter n f c).
    destruct (Hf _ IH1) as [H1 H2]. split; [exact H1|].
    apply pcong_trans with (N.shiftl (Nat.iter n f c) 1); [exact H2|].
    rewrite Nat2N.inj_succ, <- N.add_1_r, <- N.shiftl_shiftl. apply pcong_shiftl. exact IH2.
Qed.

Lemma byte_lt b : byte_ok b = true -> b < 2 ^ 8.
Proof. unfold byte_ok. intros H. apply N.ltb_lt in H. exact H. Qed.

Lemma crc8_byte_cong c b : c < 2 ^ 8 -> byte_ok b = true ->
  crc8_byte c b < 2 ^ 8 /\ pcong poly8 (crc8_byte c b) (N.lxor (N.shiftl c 8) (N.shiftl b 8)).
Proof.
  intros Hc Hb. unfold crc8_byte. rewrite <- N.shiftl_lxor.
  apply (iter_shift_cong 8 poly8 crc8_shift crc8_shift_cong 8).
  apply lxor_lt_pow2; [exact Hc|]. apply byte_lt; exact Hb.
Qed.

Lemma crc16_byte_cong c b : c < 2 ^ 16 -> byte_ok b = true ->
  crc16_byte c b < 2 ^ 16 /\ pcong poly16 (crc16_byte c b) (N.lxor (N.shiftl c 8) (N.shiftl b 16)).
Proof.
  intros Hc Hb. unfold crc16_byte. apply byte_lt in Hb.
  assert (N.shiftl b 8 < 2 ^ 16) as Hs.
  { rewrite N.shiftl_mul_pow2. change (2 ^ 16) with (2 ^ 8 * 2 ^ 8). apply N.mul_lt_mono_pos_r; [reflexivity|exact Hb]. }
  change 0xFFFF with (N.ones 16). rewrite N.land_ones, N.mod_small by exact Hs.
  change (N.shiftl b 16) with (N.shiftl b (8 + 8)). rewrite <- N.shiftl_shiftl, <- N.shiftl_lxor.
  apply (iter_shift_cong 16 poly16 crc16_shift crc16_shift_cong 8).
  apply lxor_lt_pow2; assumption.
Qed.

(** ** The whole message *)
Lemma msg_poly_snoc l b : msg_poly (l ++ [b]) = 256 * msg_poly l + b.
Proof. unfold msg_poly. rewrite fold_left_app. reflexivity. Qed.

Lemma shiftl8_add m b : b < 2 ^ 8 -> 256 * m + b = N.lxor (N.shiftl m 8) b.
Proof.
  intros Hb. rewrite N.shiftl_mul_pow2. change (2 ^ 8) with 256 in *.
  rewrite <- N.add_nocarry_lxor; [lia|].
  apply N.bits_inj. intros n. rewrite N.land_spec, N.bits_0.
  change 256 with (2 ^ 8). destruct (N.lt_ge_cases n 8) as [Hn|Hn].
  - rewrite <- N.shiftl_mul_pow2, N.shiftl_spec_low by exact Hn. reflexivity.
  - change 256 with (2 ^ 8) in Hb. rewrite lt_pow2_bits in Hb. rewrite (Hb n Hn). apply andb_false_r.
Qed.

Lemma crc_fold_cong w g init (step : N -> N -> N) :
  (forall c b, c < 2 ^ w -> byte_ok b = true ->
     step c b < 2 ^ w /\ pcong g (step c b) (N.lxor (N.shiftl c 8) (N.shiftl b w))) ->
  init < 2 ^ w ->
  forall data, bytes_ok data = true ->
  fold_left step data init < 2 ^ w /\ pcong g (fold_left step data init) (crc_dividend w init data).
Proof.
  intros Hstep Hi data. induction data as [|b l IH] using rev_ind; intros Hd.
  - split; [exact Hi|]. unfold crc_dividend, msg_poly. cbn [fold_left length].
    cbn [N.of_nat]. change (8 * 0) with 0. rewrite N.shiftl_0_l, N.lxor_0_r, N.shiftl_0_r. apply pcong_refl.
  - rewrite bytes_ok_app, andb_true_iff in Hd. destruct Hd as [Hl Hb].
    cbn [bytes_ok forallb] in Hb. rewrite andb_true_r in Hb.
    destruct (IH Hl) as [IH1 IH2]. rewrite fold_left_app. cbn [fold_left].
    destruct (Hstep _ _ IH1 Hb) as [H1 H2]. split; [exact H1|].
    eapply pcong_trans; [exact H2|]. unfold crc_dividend.
    rewrite msg_poly_snoc, (shiftl8_add _ _ (byte_lt _ Hb)), N.shiftl_lxor, <- N.lxor_assoc.
    apply pcong_lxor; [|apply pcong_refl].
    eapply pcong_trans; [apply pcong_shiftl; exact IH2|]. unfold crc_dividend.
    rewrite N.shiftl_lxor, !N.shiftl_shiftl, app_length. cbn [length].
    replace (8 * N.of_nat (length l) + 8) with (8 * N.of_nat (length l + 1)) by lia.
    rewrite (N.add_comm w 8). apply pcong_refl.
Qed.

Lemma crc8_cong data : bytes_ok data = true ->
  crc8 data < 2 ^ 8 /\ pcong poly8 (crc8 data) (crc_dividend 8 0xFF data).
Proof. apply (crc_fold_cong 8 poly8 0xFF crc8_byte crc8_byte_cong). reflexivity. Qed.
Lemma crc16_cong data : bytes_ok data = true ->
  crc16 data < 2 ^ 16 /\ pcong poly16 (crc16 data) (crc_dividend 16 0xFFFF data).
Proof. apply (crc_fold_cong 16 poly16 0xFFFF crc16_byte crc16_byte_cong). reflexivity. Qed.

Lemma crc8_is_crc data : bytes_ok data = true -> is_crc 8 poly8 0xFF data (crc8 data).
Proof.
  intros H. destruct (crc8_cong data H) as [H1 H2]. apply pcong_rem; [exact H1|].
  apply pcong_sym; exact H2.
Qed.
Lemma crc16_is_crc data : bytes_ok data = true -> is_crc 16 poly16 0xFFFF data (crc16 data).
Proof.
  intros H. destruct (crc16_cong data H) as [H1 H2]. apply pcong_rem; [exact H1|].
  apply pcong_sym; exact H2.
Qed.

Lemma crc_burst w g init (crc : bytes -> N) :
  2 ^ w <= g < 2 ^ (w + 1) -> N.testbit g 0 = true ->
  (forall d, bytes_ok d = true -> crc d < 2 ^ w /\ pcong g (crc d) (crc_dividend w init d)) ->
  forall a b, bytes_ok a = true -> bytes_ok b = true -> burst w a b -> crc a <> crc b.
Proof.
  intros Hg Hg0 Hcrc a b Ha Hb [Hlen (e & k & He & Hx)] Heq.
  destruct (Hcrc a Ha) as [_ Ca]. destruct (Hcrc b Hb) as [_ Cb]. rewrite <- Heq in Cb.
  apply (burst_not_cong w g _ _ e k w Hg Hg0 He Hx).
  assert (pcong g (crc_dividend w init a) (crc_dividend w init b)) as Hc
    by (eapply pcong_trans; [apply pcong_sym; exact Ca|exact Cb]).
  unfold crc_dividend in Hc. rewrite Hlen in Hc. destruct Hc as [q Hc]. exists q. rewrite <- Hc.
  rewrite lxor_swap, N.lxor_nilpotent, N.lxor_0_l. reflexivity.
Qed.

Lemma crc8_burst a b : bytes_ok a = true -> bytes_ok b = true -> burst 8 a b -> crc8 a <> crc8 b.
Proof. apply (crc_burst 8 poly8 0xFF crc8); [split; [discriminate|reflexivity]|reflexivity|exact crc8_cong]. Qed.
Lemma crc16_burst a b : bytes_ok a = true -> bytes_ok b = true -> burst 16 a b -> crc16 a <> crc16 b.
Proof. apply (crc_burst 16 poly16 0xFFFF crc16); [split; [discriminate|reflexivity]|reflexivity|exact crc16_cong]. Qed.

Lemma crc8_lt data : bytes_ok data = true -> crc8 data < 256.
Proof. intros H. apply (crc8_cong data H). Qed.
Lemma crc16_lt data : bytes_ok data = true -> crc16 data < 65536.
Proof. intros H. apply (crc16_cong data H). Qed.

(** A single changed byte is a burst of at most eight bits. *)
Lemma fold_poly_app l acc : fold_left (fun acc b => 256 * acc + b) l acc = N.shiftl acc (8 * N.of_nat (length l)) + msg_poly l.
Proof.
  induction l as [|b l IH] using rev_ind.
  - cbn. change (8 * 0) with 0. rewrite N.shiftl_0_r. lia.
  - rewrite fold_left_app, msg_poly_snoc, app_length. cbn [fold_left length]. rewrite IH.
    replace (8 * N.of_nat (length l + 1)) with (8 * N.of_nat (length l) + 8) by lia.
    rewrite <- N.shiftl_shiftl, (N.shiftl_mul_pow2 _ 8). change (2 ^ 8) with 256. lia.
Qed.

Lemma add_disjoint_lxor m b k : b < 2 ^ k -> N.shiftl m k + b = N.lxor (N.shiftl m k) b.
Proof.
  intros Hb. rewrite <- N.add_nocarry_lxor; [reflexivity|].
  apply N.bits_inj. intros n. rewrite N.land_spec, N.bits_0.
  destruct (N.lt_ge_cases n k) as [Hn|Hn].
  - rewrite N.shiftl_spec_low by exact Hn. reflexivity.
  - rewrite lt_pow2_bits in Hb. rewrite (Hb n Hn). apply andb_false_r.
Qed.

Lemma msg_poly_lt l : bytes_ok l = true -> msg_poly l < 2 ^ (8 * N.of_nat (length l)).
Proof.
  induction l as [|b l IH] using rev_ind; intros H; [reflexivity|].
  rewrite bytes_ok_app, andb_true_iff in H. destruct H as [Hl Hb].
  cbn [bytes_ok forallb] in Hb. rewrite andb_true_r in Hb. apply byte_lt in Hb.
  specialize (IH Hl). rewrite msg_poly_snoc, app_length. cbn [length].
  replace (8 * N.of_nat (length l + 1)) with (8 * N.of_nat (length l) + 8) by lia.
  rewrite N.pow_add_r. change (2 ^ 8) with 256 in *.
  generalize dependent (2 ^ (8 * N.of_nat (length l))). intros; lia.
Qed.

Lemma msg_poly_app p l : bytes_ok l = true ->
  msg_poly (p ++ l) = N.lxor (N.shiftl (msg_poly p) (8 * N.of_nat (length l))) (msg_poly l).
Proof.
  intros H. unfold msg_poly at 1. rewrite fold_left_app, fold_poly_app.
  apply add_disjoint_lxor. apply msg_poly_lt; exact H.
Qed.

(** A burst inside a longer message is a burst of the message. *)
Lemma burst_context w p a b s :
  bytes_ok a = true -> bytes_ok b = true -> bytes_ok s = true ->
  burst w a b -> burst w (p ++ a ++ s) (p ++ b ++ s).
Proof.
  intros Ha Hb Hs [Hlen (e & k & He & Hx)]. split.
  - rewrite !app_length, Hlen. reflexivity.
  - exists e, (k + 8 * N.of_nat (length s)). split; [exact He|].
    rewrite !msg_poly_app by (rewrite ?bytes_ok_app, ?Ha, ?Hb, ?Hs; reflexivity).
    rewrite !app_length, Hlen, lxor_swap, N.lxor_nilpotent, N.lxor_0_l.
    rewrite lxor_swap, N.lxor_nilpotent, N.lxor_0_r, <- N.shiftl_lxor, Hx, N.shiftl_shiftl.
    reflexivity.
Qed.

Lemma burst_byte x y : byte_ok x = true -> byte_ok y = true -> x <> y -> burst 8 [x] [y].
Proof.
  intros Hx Hy Hn. split; [reflexivity|]. exists (N.lxor x y), 0.
  apply byte_lt in Hx, Hy. split.
  - split; [|apply lxor_lt_pow2; assumption].
    destruct (N.eq_dec (N.lxor x y) 0) as [H|H]; [|lia]. apply N.lxor_eq in H. contradiction.
  - rewrite N.shiftl_0_r. unfold msg_poly. cbn [fold_left]. rewrite N.mul_0_r, !N.add_0_l. reflexivity.
Qed.

Lemma burst_weaken w w' a b : w <= w' -> burst w a b -> burst w' a b.
Proof.
  intros Hw [Hlen (e & k & He & Hx)]. split; [exact Hlen|]. exists e, k. split; [|exact Hx].
  split; [apply He|]. apply N.lt_le_trans with (2 ^ w); [apply He|]. apply N.pow_le_mono_r; lia.
Qed.

Lemma crc8_one_byte p x y s :
  bytes_ok p = true -> byte_ok x = true -> byte_ok y = true -> bytes_ok s = true -> x <> y ->
  crc8 (p ++ [x] ++ s) <> crc8 (p ++ [y] ++ s).
Proof.
  intros Hp Hx Hy Hs Hn. apply crc8_burst.
  - rewrite !bytes_ok_app, Hp, Hs. cbn. rewrite Hx. reflexivity.
  - rewrite !bytes_ok_app, Hp, Hs. cbn. rewrite Hy. reflexivity.
  - apply burst_context; auto; try (cbn; rewrite ?Hx, ?Hy; reflexivity).
    apply burst_byte; assumption.
Qed.

Lemma crc8_unique data c : bytes_ok data = true -> is_crc 8 poly8 0xFF data c -> c = crc8 data.
Proof.
  intros H Hc. eapply (poly_rem_unique 8 poly8); [|exact Hc|apply (crc8_is_crc data H)].
  vm_compute. split; [discriminate|reflexivity].
Qed.
Lemma crc16_unique data c : bytes_ok data = true -> is_crc 16 poly16 0xFFFF data c -> c = crc16 data.
Proof.
  intros H Hc. eapply (poly_rem_unique 16 poly16); [|exact Hc|apply (crc16_is_crc data H)].
  vm_compute. split; [discriminate|reflexivity].
Qed.

Lemma burst_two_bytes x y x' y' : bytes_ok [x; y] = true -> bytes_ok [x'; y'] = true ->
  [x; y] <> [x'; y'] -> burst 16 [x; y] [x'; y'].
Proof.
  intros H H' Hn. split; [reflexivity|].
  exists (N.lxor (msg_poly [x; y]) (msg_poly [x'; y'])), 0.
  split; [|rewrite N.shiftl_0_r; reflexivity].
  pose proof (msg_poly_lt _ H) as L. pose proof (msg_poly_lt _ H') as L'.
  change (8 * N.of_nat (length [x; y])) with 16 in L.
  change (8 * N.of_nat (length [x'; y'])) with 16 in L'.
  split; [|apply lxor_lt_pow2; assumption].
  destruct (N.eq_dec (N.lxor (msg_poly [x; y]) (msg_poly [x'; y'])) 0) as [Z|Z]; [|lia].
  apply N.lxor_eq in Z. exfalso. apply Hn.
  cbn [bytes_ok forallb] in H, H'. unfold byte_ok in H, H'.
  cbn [msg_poly fold_left] in Z. unfold msg_poly in Z. cbn [fold_left] in Z.
  assert (x = x' /\ y = y') as [-> ->] by lia. reflexivity.
Qed.
Lemma crc16_two_bytes p x y x' y' s :
  bytes_ok p = true -> bytes_ok [x; y] = true -> bytes_ok [x'; y'] = true -> bytes_ok s = true ->
  [x; y] <> [x'; y'] ->
  crc16 (p ++ [x; y] ++ s) <> crc16 (p ++ [x'; y'] ++ s).
Proof.
  intros Hp H H' Hs Hn. apply crc16_burst.
  - unfold bytes_ok in *. rewrite !forallb_app, Hp, H, Hs. reflexivity.
  - unfold bytes_ok in *. rewrite !forallb_app, Hp, H', Hs. reflexivity.
  - apply burst_context; auto. apply burst_two_bytes; assumption.
Qed.
