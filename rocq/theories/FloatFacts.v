(** * FloatFacts: binary64 arithmetic of the model over the reals (Flocq). *)
From Coq Require Import ZArith Reals Lia Lra Psatz.
From Coq Require Import Floats.SpecFloat.
From Flocq Require Import Core.Core Relative IEEE754.BinarySingleNaN.
From Verif Require Import GoBase Float64 Spec_Float.
Local Open Scope R_scope.

Local Instance Hprec : FLX.Prec_gt_0 Float64.prec := eq_refl.
Local Instance Hmax : Prec_lt_emax Float64.prec Float64.emax := eq_refl.
Notation pr := Float64.prec.
Notation em := Float64.emax.
Notation fx := (SpecFloat.fexp pr em).
Notation rnd := (round radix2 fx ZnearestE).
Notation bf := (binary_float pr em).

Lemma binary_round_aux_equiv sx mx ex lx :
  SpecFloat.binary_round_aux pr em sx mx ex lx = BinarySingleNaN.binary_round_aux pr em mode_NE sx mx ex lx.
Proof.
  unfold SpecFloat.binary_round_aux, BinarySingleNaN.binary_round_aux.
  destruct (shr_fexp _ _ _ _ _) as [mrs' e']. f_equal.
  assert (H : forall m l, round_nearest_even m l = choice_mode mode_NE sx m l).
  { intros m l. case l; [reflexivity|intro c]. case c; [|reflexivity..]. simpl. unfold Round.cond_incr. now case Z.even. }
  rewrite H. reflexivity.
Qed.
Lemma binary_round_equiv s m e :
  SpecFloat.binary_round pr em s m e = BinarySingleNaN.binary_round pr em mode_NE s m e.
Proof.
  unfold SpecFloat.binary_round, BinarySingleNaN.binary_round, shl_align_fexp.
  destruct (shl_align _ _ _) as [mz ez]. apply binary_round_aux_equiv.
Qed.
Lemma binary_normalize_equiv m e szero :
  SpecFloat.binary_normalize pr em m e szero
  = B2SF (BinarySingleNaN.binary_normalize pr em Hprec Hmax mode_NE m e szero).
Proof.
  case m as [ | p | p].
  - now simpl.
  - simpl; rewrite B2SF_SF2B; apply binary_round_equiv.
  - simpl; rewrite B2SF_SF2B; apply binary_round_equiv.
Qed.
Lemma mul_equiv (x y : bf) : f_mul (B2SF x) (B2SF y) = B2SF (Bmult mode_NE x y).
Proof.
  unfold f_mul. destruct x as [sx|sx| |sx mx ex Bx], y as [sy|sy| |sy my ey By]; [reflexivity..|].
  simpl. rewrite B2SF_SF2B. apply binary_round_aux_equiv.
Qed.
Lemma div_equiv (x y : bf) : f_div (B2SF x) (B2SF y) = B2SF (Bdiv mode_NE x y).
Proof.
  unfold f_div. destruct x as [sx|sx| |sx mx ex Bx], y as [sy|sy| |sy my ey By]; [reflexivity..|].
  simpl. rewrite B2SF_SF2B. set (melz := SFdiv_core_binary _ _ _ _ _ _). case melz as [[mz ez] lz]. apply binary_round_aux_equiv.
Qed.
Lemma add_equiv (x y : bf) : f_add (B2SF x) (B2SF y) = B2SF (Bplus mode_NE x y).
Proof.
  unfold f_add. destruct x as [sx|sx| |sx mx ex Bx], y as [sy|sy| |sy my ey By]; [now (trivial || simpl; case Bool.eqb)..|].
  apply binary_normalize_equiv.
Qed.

Lemma lift (x : f64) : float64 x -> exists b : bf, x = B2SF b /\ is_finite b = true /\ B2R b = real x.
Proof.
  intros [Hv Hf]. exists (SF2B x Hv). rewrite B2SF_SF2B, is_finite_SF2B, B2R_SF2B. auto.
Qed.
Lemma lower (b : bf) : is_finite b = true -> float64 (B2SF b) /\ real (B2SF b) = B2R b.
Proof.
  intros H. split; [split|].
  - apply valid_binary_B2SF.
  - unfold finite. rewrite is_finite_SF_B2SF. exact H.
  - apply SF2R_B2SF.
Qed.

#[local] Instance vexp : Valid_exp fx := fexp_correct pr em Hprec.
Lemma rnd_bound x y : Rabs x <= y -> generic_format radix2 fx y -> Rabs (rnd x) <= y.
Proof.
  intros H Hf. apply abs_round_le_generic; auto with typeclass_instances.
Qed.
Lemma fmt_pow e : (-1074 <= e <= 1023)%Z -> generic_format radix2 fx (bpow radix2 e).
Proof. intros H. apply generic_format_bpow. unfold SpecFloat.fexp, SpecFloat.emin, pr, em. lia. Qed.
Lemma fmt_Z z : (Z.abs z <= 2 ^ 53)%Z -> generic_format radix2 fx (IZR z).
Proof.
  intros H. destruct (Z.eq_dec (Z.abs z) (2 ^ 53)) as [He|Hne].
  - assert (IZR z = bpow radix2 53 \/ IZR z = - bpow radix2 53) as [->| ->].
    { change (bpow radix2 53) with (IZR (2 ^ 53)). rewrite <- opp_IZR. destruct (Z.abs_spec z) as [[_ E]|[_ E]]; [left|right]; f_equal; lia. }
    + apply fmt_pow. lia.
    + apply generic_format_opp, fmt_pow. lia.
  - change fx with (FLT.FLT_exp (-1074) 53). apply FLT.generic_format_FLT.
    exists (Float radix2 z 0); cbn [Fnum Fexp]; [unfold F2R; cbn; lra| |lia].
    change (Zpower radix2 53) with (2 ^ 53)%Z. lia.
Qed.

Lemma of_Z_val z : (Z.abs z <= 2 ^ 53)%Z -> float64 (f_of_Z z) /\ real (f_of_Z z) = IZR z.
Proof.
  intros Hz. unfold f_of_Z. rewrite binary_normalize_equiv.
  pose proof (binary_normalize_correct pr em Hprec Hmax mode_NE z 0 false) as H. cbv zeta in H.
  assert (Hx : F2R (Float radix2 z 0) = IZR z) by (unfold F2R; cbn; lra). rewrite Hx in H.
  cbn [round_mode] in H. assert (Hr : rnd (IZR z) = IZR z) by (apply round_generic; [auto with typeclass_instances|apply fmt_Z, Hz]).
  rewrite Hr in H. rewrite Rlt_bool_true in H.
  - destruct H as (H1 & H2 & _). destruct (lower _ H2) as [L1 L2]. split; [exact L1|]. rewrite L2. exact H1.
  - apply Rle_lt_trans with (bpow radix2 53); [|apply bpow_lt; reflexivity].
    rewrite <- abs_IZR. change (bpow radix2 53) with (IZR (2 ^ 53)). apply IZR_le, Hz.
Qed.
Lemma mul_val a b : float64 a -> float64 b -> Rabs (real a * real b) <= bpow radix2 1000 ->
  float64 (f_mul a b) /\ real (f_mul a b) = rnd (real a * real b).
Proof.
  intros Ha Hb Hs. destruct (lift a Ha) as (x & -> & Fx & Vx), (lift b Hb) as (y & -> & Fy & Vy).
  rewrite mul_equiv. pose proof (Bmult_correct pr em Hprec Hmax mode_NE x y) as H. cbn [round_mode] in H.
  rewrite Vx, Vy in H. rewrite Rlt_bool_true in H.
  - destruct H as (H1 & H2 & _). rewrite Fx, Fy in H2. destruct (lower _ H2) as [L1 L2]. split; [exact L1|]. rewrite L2. exact H1.
  - apply Rle_lt_trans with (bpow radix2 1000); [|apply bpow_lt; reflexivity]. apply rnd_bound; [exact Hs|apply fmt_pow; lia].
Qed.
Lemma div_val a b : float64 a -> float64 b -> real b <> 0 -> Rabs (real a / real b) <= bpow radix2 1000 ->
  float64 (f_div a b) /\ real (f_div a b) = rnd (real a / real b).
Proof.
  intros Ha Hb Hn Hs. destruct (lift a Ha) as (x & -> & Fx & Vx), (lift b Hb) as (y & -> & Fy & Vy).
  rewrite div_equiv. rewrite <- Vy in Hn. pose proof (Bdiv_correct pr em Hprec Hmax mode_NE x y Hn) as H. cbn [round_mode] in H.
  rewrite Vx, Vy in H. rewrite Rlt_bool_true in H.
  - destruct H as (H1 & H2 & _). rewrite Fx in H2. destruct (lower _ H2) as [L1 L2]. split; [exact L1|]. rewrite L2. exact H1.
  - apply Rle_lt_trans with (bpow radix2 1000); [|apply bpow_lt; reflexivity]. apply rnd_bound; [exact Hs|apply fmt_pow; lia].
Qed.
Lemma add_val a b : float64 a -> float64 b -> Rabs (real a + real b) <= bpow radix2 1000 ->
  float64 (f_add a b) /\ real (f_add a b) = rnd (real a + real b).
Proof.
  intros Ha Hb Hs. destruct (lift a Ha) as (x & -> & Fx & Vx), (lift b Hb) as (y & -> & Fy & Vy).
  rewrite add_equiv. pose proof (Bplus_correct pr em Hprec Hmax mode_NE x y Fx Fy) as H. cbn [round_mode] in H.
  rewrite Vx, Vy in H. rewrite Rlt_bool_true in H.
  - destruct H as (H1 & H2 & _). destruct (lower _ H2) as [L1 L2]. split; [exact L1|]. rewrite L2. exact H1.
  - apply Rle_lt_trans with (bpow radix2 1000); [|apply bpow_lt; reflexivity]. apply rnd_bound; [exact Hs|apply fmt_pow; lia].
Qed.

(** Truncation *)
Lemma trunc_val m e : Z.of_N (trunc_pos m e) = Zfloor (IZR (Zpos m) * bpow radix2 e).
Proof.
  destruct e as [|p|p]; cbn [trunc_pos].
  - cbn. rewrite Rmult_1_r, Zfloor_IZR. reflexivity.
  - rewrite N2Z.inj_mul, N2Z.inj_pow. cbn [Z.of_N]. rewrite <- IZR_Zpower by (cbn; lia).
    rewrite <- mult_IZR, Zfloor_IZR. reflexivity.
  - rewrite N2Z.inj_div, N2Z.inj_pow. cbn [Z.of_N].
    change (bpow radix2 (Z.neg p)) with (/ IZR (Z.pow_pos 2 p)).
    change (Z.pow_pos 2 p) with (2 ^ Zpos p)%Z.
    symmetry. apply Zfloor_div. apply Z.pow_nonzero; lia.
Qed.
Lemma to_u32_val {E : go_env} f : float64 f -> 0 <= real f < IZR (2 ^ 32) ->
  Z.of_N (f_to_u32 f) = Zfloor (real f).
Proof.
  intros [Hv Hf] [H0 H1]. destruct f as [s|s| |s m e]; try discriminate Hf.
  - cbn. rewrite (Zfloor_IZR 0). reflexivity.
  - unfold real in *. cbn [SF2R] in *. destruct s.
    + exfalso. apply (Rlt_irrefl 0). eapply Rle_lt_trans; [exact H0|]. apply F2R_lt_0. reflexivity.
    + cbn [SpecFloat.cond_Zopp] in *. unfold F2R in *. cbn [Fnum Fexp] in *. unfold f_to_u32.
      pose proof (trunc_val m e) as Ht.
      assert (Z.of_N (trunc_pos m e) < 2 ^ 32)%Z.
      { rewrite Ht. apply lt_IZR. eapply Rle_lt_trans; [apply Zfloor_lb|exact H1]. }
      cbn [negb orb]. rewrite (proj2 (N.ltb_lt _ _)) by lia. cbn [andb]. exact Ht.
Qed.
