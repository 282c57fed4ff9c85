(** * CoordFacts: accuracy of the coordinate and time conversions. *)
From Coq Require Import ZArith Reals Lia Lra Psatz.
From Coq Require Import Floats.SpecFloat.
From Flocq Require Import Core.Core Relative IEEE754.BinarySingleNaN.
From Verif Require Import GoBase Float64 Spec_Float FloatFacts.
Local Open Scope R_scope.

Local Instance Hprec : FLX.Prec_gt_0 Float64.prec := eq_refl.
Local Instance vexp : Valid_exp fx := fexp_correct pr em Hprec.

Lemma rnd_le x y : x <= y -> rnd x <= rnd y.
Proof. intros H. apply round_le; auto with typeclass_instances. Qed.
Lemma rnd_Z z : (Z.abs z <= 2 ^ 53)%Z -> rnd (IZR z) = IZR z.
Proof. intros H. apply round_generic; [auto with typeclass_instances|apply fmt_Z, H]. Qed.
Lemma rnd_ge_Z x z : (Z.abs z <= 2 ^ 53)%Z -> IZR z <= x -> IZR z <= rnd x.
Proof. intros H Hx. rewrite <- (rnd_Z z H). apply rnd_le, Hx. Qed.
Lemma rnd_le_Z x z : (Z.abs z <= 2 ^ 53)%Z -> x <= IZR z -> rnd x <= IZR z.
Proof. intros H Hx. rewrite <- (rnd_Z z H). apply rnd_le, Hx. Qed.
Definition u53 : R := / IZR (2 ^ 53).
Definition u1022 : R := / IZR (2 ^ 1022).
Lemma u53_val : 0 < u53 <= / 9007199254740992.
Proof. unfold u53. change (IZR (2 ^ 53)) with 9007199254740992. lra. Qed.
Lemma rnd_rel x : u1022 <= x -> exists eps, Rabs eps <= u53 /\ rnd x = x * (1 + eps).
Proof.
  intros H. destruct (relative_error_N_FLT_ex radix2 (-1074) 53 eq_refl (fun x => negb (Z.even x)) x) as (eps & H1 & H2).
  - change (bpow radix2 (-1074 + 53 - 1)) with u1022. rewrite Rabs_pos_eq; [exact H|].
    apply Rle_trans with u1022; [|exact H]. unfold u1022. left. apply Rinv_0_lt_compat. apply IZR_lt. reflexivity.
  - exists eps. split; [|exact H2]. eapply Rle_trans; [exact H1|]. unfold u53. cbn [Z.opp Z.add bpow Z.pow_pos Pos.iter]. cbn. lra.
Qed.

(** Absolute error, for arguments up to B. *)
Lemma rnd_err B x : 0 <= x <= B -> Rabs (rnd x - x) <= B / 9007199254740992 + / 1000000000000000000000000000000.
Proof.
  intros [H0 HB]. destruct (relative_error_N_FLT'_ex radix2 (-1074) 53 eq_refl (fun x => negb (Z.even x)) x) as (eps & eta & H1 & H2 & _ & H3).
  change (FLT_exp (-1074) 53) with fx in H3. change (Znearest (fun x : Z => negb (Z.even x))) with ZnearestE in H3. rewrite H3.
  replace (x * (1 + eps) + eta - x) with (x * eps + eta) by ring.
  eapply Rle_trans; [apply Rabs_triang|]. rewrite Rabs_mult, (Rabs_pos_eq x H0).
  assert (He : Rabs eps <= / 9007199254740992).
  { eapply Rle_trans; [exact H1|]. unfold u_ro. change (bpow radix2 (- (53) + 1)) with (/ 4503599627370496).
    replace (/ 2 * / 4503599627370496) with (/ 9007199254740992) by lra. apply (Rmult_le_reg_r (1 + / 9007199254740992)); [lra|].
    set (u := / 9007199254740992). assert (Hu : 0 < u) by (unfold u; lra). clearbody u. unfold Rdiv. rewrite Rmult_assoc, Rinv_l by lra. nra. }
  assert (Ht : Rabs eta <= / 1000000000000000000000000000000).
  { eapply Rle_trans; [exact H2|]. apply Rle_trans with (/ 2 * bpow radix2 (-110)).
    - apply Rmult_le_compat_l; [lra|]. apply bpow_le. lia.
    - change (bpow radix2 (-110)) with (/ 1298074214633706907132624082305024). lra. }
  apply Rplus_le_compat; [|exact Ht]. unfold Rdiv. apply Rmult_le_compat; [exact H0|apply Rabs_pos|exact HB|exact He].
Qed.
Lemma Rabs_le_bounds a b : Rabs a <= b -> - b <= a <= b.
Proof. intros H. split; [|]; unfold Rabs in H; destruct (Rcase_abs a); lra. Qed.
Lemma small_ok x : Rabs x <= 1000000000000000000000000000000 -> Rabs x <= bpow radix2 1000.
Proof.
  intros H. eapply Rle_trans; [exact H|]. apply Rle_trans with (bpow radix2 110).
  - change (bpow radix2 110) with (IZR (2 ^ 110)). apply IZR_le. vm_compute. discriminate.
  - apply bpow_le. lia.
Qed.

Definition MAX : Z := 4294967295.
Section Coord.
Context {E : go_env}.
Variable full : N.
Hypothesis Hfull : (full = 90 \/ full = 180)%N.
Let F := IZR (Z.of_N full).
Lemma F_bounds : 90 <= F <= 180.
Proof. unfold F. destruct Hfull as [-> | ->]; cbn; lra. Qed.
Lemma of_N_val n : (n <= 2 ^ 53)%N -> float64 (f_of_N n) /\ real (f_of_N n) = IZR (Z.of_N n).
Proof. intros H. apply of_Z_val. lia. Qed.

Lemma dec_val v : (v < 2 ^ 32)%N ->
  float64 (coord_decode full v) /\ real (coord_decode full v) = rnd (IZR (Z.of_N v) * F / IZR MAX).
Proof.
  intros Hv. unfold coord_decode.
  destruct (of_N_val v) as [V1 V2]; [change (2 ^ 32)%N with 4294967296%N in Hv; change (2 ^ 53)%N with 9007199254740992%N; lia|].
  destruct (of_N_val full) as [F1 F2]; [destruct Hfull as [-> | ->]; vm_compute; discriminate|].
  destruct (of_N_val 4294967295) as [M1 M2]; [vm_compute; discriminate|].
  assert (HvR : 0 <= IZR (Z.of_N v) <= 4294967295) by (split; apply IZR_le; change (2 ^ 32)%N with 4294967296%N in Hv; lia).
  pose proof F_bounds as HF. fold F in F2.
  assert (HP : Rabs (IZR (Z.of_N v) * F) <= 1000000000000000000000000000000) by (rewrite Rabs_pos_eq; nra).
  destruct (mul_val (f_of_N v) (f_of_N full) V1 F1) as [P1 P2]; [rewrite V2, F2; apply small_ok, HP|].
  rewrite V2, F2 in P2.
  assert (HE : rnd (IZR (Z.of_N v) * F) = IZR (Z.of_N v) * F).
  { unfold F. rewrite <- mult_IZR. apply rnd_Z. change (2 ^ 32)%N with 4294967296%N in Hv. destruct Hfull as [-> | ->]; lia. }
  rewrite HE in P2.
  destruct (div_val (f_mul (f_of_N v) (f_of_N full)) (f_of_N 4294967295) P1 M1) as [D1 D2].
  - rewrite M2. cbn. lra.
  - rewrite P2, M2. apply small_ok. change (IZR (Z.of_N 4294967295)) with 4294967295. rewrite Rabs_pos_eq.
    + unfold Rdiv. nra.
    + unfold Rdiv. nra.
  - split; [exact D1|]. rewrite D2, P2, M2. reflexivity.
Qed.

Lemma dec_real v : (v < 2 ^ 32)%N -> exists t, t * 4294967295 = IZR (Z.of_N v) /\ 0 <= t <= 1 /\
  real (coord_decode full v) = rnd (t * F) /\ 0 <= real (coord_decode full v) <= F /\
  Rabs (real (coord_decode full v) - t * F) <= 3 / 100000000000000.
Proof.
  intros Hv. destruct (dec_val v Hv) as [_ H]. exists (IZR (Z.of_N v) / 4294967295). pose proof F_bounds as HF.
  assert (HvR : 0 <= IZR (Z.of_N v) <= 4294967295) by (split; apply IZR_le; change (2 ^ 32)%N with 4294967296%N in Hv; lia).
  replace (IZR (Z.of_N v) / 4294967295 * F) with (IZR (Z.of_N v) * F / IZR MAX) by (unfold MAX, Rdiv; ring).
  assert (Ht : 0 <= IZR (Z.of_N v) / 4294967295 <= 1) by (unfold Rdiv; split; lra).
  assert (Hb : 0 <= IZR (Z.of_N v) * F / IZR MAX <= F).
  { replace (IZR (Z.of_N v) * F / IZR MAX) with (IZR (Z.of_N v) / 4294967295 * F) by (unfold MAX, Rdiv; ring). nra. }
  split; [unfold Rdiv; lra|]. split; [exact Ht|]. split; [exact H|]. rewrite H. split.
  - split; [apply (rnd_ge_Z _ 0); [vm_compute; discriminate|apply Hb]|].
    unfold F. apply rnd_le_Z; [destruct Hfull as [-> | ->]; vm_compute; discriminate|apply Hb].
  - eapply Rle_trans; [apply (rnd_err 180); lra|]. lra.
Qed.

Lemma enc_val x : float64 x -> 0 <= real x <= F ->
  exists q p, q = rnd (real x / F) /\ p = rnd (q * 4294967295) /\ 0 <= q <= 1 /\ 0 <= p <= 4294967295 /\
    Z.of_N (coord_encode full x) = Zfloor p.
Proof.
  intros Hx Hr. pose proof F_bounds as HF.
  destruct (of_N_val full) as [F1 F2]; [destruct Hfull as [-> | ->]; vm_compute; discriminate|]. fold F in F2.
  destruct (of_N_val 4294967295) as [M1 M2]; [vm_compute; discriminate|]. change (IZR (Z.of_N 4294967295)) with 4294967295 in M2.
  assert (Ha : 0 <= real x / F <= 1).
  { split; [apply Rmult_le_pos; [lra|]; left; apply Rinv_0_lt_compat; lra|].
    apply (Rmult_le_reg_r F); [lra|]. unfold Rdiv. rewrite Rmult_assoc, Rinv_l; lra. }
  destruct (div_val x (f_of_N full) Hx F1) as [D1 D2]; [rewrite F2; lra|rewrite F2; apply small_ok; rewrite Rabs_pos_eq; lra|].
  rewrite F2 in D2. set (q := rnd (real x / F)) in *.
  assert (Hq : 0 <= q <= 1) by (split; [apply (rnd_ge_Z _ 0)|apply (rnd_le_Z _ 1)]; try (vm_compute; discriminate); lra).
  destruct (mul_val (f_div x (f_of_N full)) (f_of_N 4294967295) D1 M1) as [P1 P2];
    [rewrite D2, M2; apply small_ok; rewrite Rabs_pos_eq; lra|].
  rewrite D2, M2 in P2. set (p := rnd (q * 4294967295)) in *.
  assert (Hp : 0 <= p <= 4294967295) by (split; [apply (rnd_ge_Z _ 0)|apply (rnd_le_Z _ 4294967295)]; try (vm_compute; discriminate); lra).
  exists q, p. repeat (split; [assumption || reflexivity|]). unfold coord_encode. rewrite to_u32_val; [rewrite P2; reflexivity|exact P1|].
  rewrite P2. change (IZR (2 ^ 32)) with 4294967296. lra.
Qed.
Lemma floor_bounds p : 0 <= p -> exists k, Zfloor p = k /\ IZR k <= p < IZR k + 1.
Proof. intros H. exists (Zfloor p). split; [reflexivity|]. split; [apply Zfloor_lb|apply Zfloor_ub]. Qed.

Lemma enc_range x : float64 x -> 0 <= real x <= F -> (coord_encode full x < 2 ^ 32)%N.
Proof.
  intros Hx Hr. destruct (enc_val x Hx Hr) as (q & p & _ & _ & _ & Hp & He).
  assert (Z.of_N (coord_encode full x) <= 4294967295)%Z; [|change (2 ^ 32)%N with 4294967296%N; lia].
  rewrite He. apply le_IZR. eapply Rle_trans; [apply Zfloor_lb|]. lra.
Qed.

(** accuracy of encode followed by decode *)
Lemma enc_dec_close x : float64 x -> 0 <= real x <= F ->
  Rabs (real (coord_decode full (coord_encode full x)) - real x) <= F / 4294967295 + / 1000000000000.
Proof.
  intros Hx Hr. pose proof F_bounds as HF. pose proof (enc_range x Hx Hr) as Hlt.
  destruct (enc_val x Hx Hr) as (q & p & Hq & Hp & Bq & Bp & He).
  destruct (dec_real _ Hlt) as (t & Ht & Bt & _ & _ & Hd).
  destruct (floor_bounds p (proj1 Bp)) as (k & Hk & Bk). rewrite He, Hk in Ht.
  set (a := real x / F) in *. assert (Ha : real x = a * F) by (unfold a, Rdiv; rewrite Rmult_assoc, Rinv_l; lra).
  assert (Ba : 0 <= a <= 1).
  { split; [apply Rmult_le_pos; [lra|]; left; apply Rinv_0_lt_compat; lra|].
    apply (Rmult_le_reg_r F); [lra|]. lra. }
  pose proof (rnd_err 1 a Ba) as E1. rewrite <- Hq in E1.
  pose proof (rnd_err 4294967295 (q * 4294967295) ltac:(lra)) as E2. rewrite <- Hp in E2.
  apply Rabs_le_bounds in E1. apply Rabs_le_bounds in E2. apply Rabs_le_bounds in Hd. rewrite Ha.
  set (y := real (coord_decode full (coord_encode full x))) in *.
  assert (Hta : - / 4294967295 - / 1000000000000000 <= t - a <= / 1000000000000000) by lra.
  apply Rabs_le. assert (t * F - a * F = (t - a) * F) by ring.
  assert ((t - a) * F <= / 1000000000000000 * F) by (apply Rmult_le_compat_r; lra).
  assert ((- / 4294967295 - / 1000000000000000) * F <= (t - a) * F) by (apply Rmult_le_compat_r; lra).
  unfold Rdiv. split; lra.
Qed.

(** decode followed by encode loses at most one quantum *)
Lemma dec_enc_close v : (v < 2 ^ 32)%N ->
  coord_encode full (coord_decode full v) = v \/ (0 < v)%N /\ coord_encode full (coord_decode full v) = (v - 1)%N.
Proof.
  intros Hv. pose proof F_bounds as HF. destruct (dec_val v Hv) as [Hf _].
  destruct (dec_real v Hv) as (t & Ht & Bt & _ & By & Hd).
  destruct (enc_val _ Hf By) as (q & p & Hq & Hp & Bq & Bp & He).
  set (y := real (coord_decode full v)) in *. set (a := y / F) in *.
  assert (Ha : y = a * F) by (unfold a, Rdiv; rewrite Rmult_assoc, Rinv_l; lra).
  assert (Ba : 0 <= a <= 1) by (split; apply (Rmult_le_reg_r F); lra).
  pose proof (rnd_err 1 a Ba) as E1. rewrite <- Hq in E1.
  pose proof (rnd_err 4294967295 (q * 4294967295) ltac:(lra)) as E2. rewrite <- Hp in E2.
  apply Rabs_le_bounds in E1. apply Rabs_le_bounds in E2. apply Rabs_le_bounds in Hd.
  rewrite Ha in Hd. assert (a * F - t * F = (a - t) * F) by ring.
  assert (Hat : - / 1000000000000000 <= a - t <= / 1000000000000000) by (split; apply (Rmult_le_reg_r F); lra).
  assert (Hpv : -1 < p - IZR (Z.of_N v) < 1) by lra.
  destruct (floor_bounds p (proj1 Bp)) as (k & Hk & Bk). rewrite Hk in He.
  assert (K1 : (k < Z.of_N v + 1)%Z) by (apply lt_IZR; rewrite plus_IZR; lra).
  assert (K2 : (Z.of_N v - 2 < k)%Z) by (apply lt_IZR; rewrite minus_IZR; lra).
  lia.
Qed.

(** decoding is strictly monotone, encoding monotone *)
Lemma dec_monotone v w : (v < w)%N -> (w < 2 ^ 32)%N -> real (coord_decode full v) < real (coord_decode full w).
Proof.
  intros Hvw Hw. pose proof F_bounds as HF. destruct (dec_real v) as (t & Ht & Bt & _ & _ & Hd); [lia|].
  destruct (dec_real w Hw) as (t' & Ht' & Bt' & _ & _ & Hd').
  apply Rabs_le_bounds in Hd. apply Rabs_le_bounds in Hd'.
  assert (Hs : IZR (Z.of_N v) + 1 <= IZR (Z.of_N w)) by (rewrite <- plus_IZR; apply IZR_le; lia).
  assert (H1 : / 4294967295 <= t' - t) by lra.
  assert (H2 : / 4294967295 * 90 <= (t' - t) * F) by (apply Rmult_le_compat; lra).
  assert (H3 : (t' - t) * F = t' * F - t * F) by ring. lra.
Qed.
Lemma enc_monotone x y : float64 x -> float64 y -> 0 <= real x -> real x <= real y -> real y <= F ->
  (coord_encode full x <= coord_encode full y)%N.
Proof.
  intros Hx Hy H0 Hxy H1. pose proof F_bounds as HF.
  destruct (enc_val x Hx) as (q & p & Hq & Hp & _ & _ & He); [lra|].
  destruct (enc_val y Hy) as (q' & p' & Hq' & Hp' & _ & _ & He'); [lra|].
  assert (q <= q'). { subst q q'. apply rnd_le. apply Rmult_le_compat_r; [left; apply Rinv_0_lt_compat; lra|exact Hxy]. }
  assert (p <= p'). { subst p p'. apply rnd_le. lra. }
  assert (Zfloor p <= Zfloor p')%Z by (apply Zfloor_le; assumption). lia.
Qed.
End Coord.

(** ** Time *)
Section Time.
Context {E : go_env}.
Lemma time_val s ns : (0 <= s < 2 ^ 32)%Z -> (0 <= ns < 1000000000)%Z ->
  float64 (duration_seconds (time_sub (s * 1000000000 + ns))) /\
  exists f, 0 <= f <= 1 /\ f = rnd (IZR ns / 1000000000) /\
    real (duration_seconds (time_sub (s * 1000000000 + ns))) = rnd (IZR s + f).
Proof.
  intros Hs Hn. change (2 ^ 32)%Z with 4294967296%Z in Hs.
  assert (Ht : time_sub (s * 1000000000 + ns) = (s * 1000000000 + ns)%Z).
  { unfold time_sub. change (2 ^ 63)%Z with 9223372036854775808%Z. lia. }
  rewrite Ht. unfold duration_seconds.
  assert (Hq : Z.quot (s * 1000000000 + ns) 1000000000 = s).
  { rewrite Z.quot_div_nonneg by lia. rewrite Z.div_add_l by lia. rewrite Z.div_small; lia. }
  assert (Hr : Z.rem (s * 1000000000 + ns) 1000000000 = ns).
  { rewrite Z.rem_mod_nonneg by lia. rewrite Z.add_comm, Z.mod_add by lia. apply Z.mod_small; lia. }
  rewrite Hq, Hr.
  destruct (of_Z_val s) as [S1 S2]; [change (2 ^ 53)%Z with 9007199254740992%Z; lia|].
  destruct (of_Z_val ns) as [N1 N2]; [change (2 ^ 53)%Z with 9007199254740992%Z; lia|].
  destruct (of_Z_val 1000000000) as [G1 G2]; [vm_compute; discriminate|].
  assert (0 <= IZR ns <= 1000000000) by (split; apply IZR_le; lia).
  assert (0 <= IZR s <= 4294967296) by (split; apply IZR_le; lia).
  assert (Hb : 0 <= IZR ns / 1000000000 <= 1) by (unfold Rdiv; lra).
  change (f_of_N 1000000000) with (f_of_Z 1000000000).
  destruct (div_val _ _ N1 G1) as [D1 D2]; [rewrite G2; lra|rewrite N2, G2; apply small_ok; rewrite Rabs_pos_eq; lra|].
  rewrite N2, G2 in D2. set (f := rnd (IZR ns / 1000000000)) in *.
  assert (Hf : 0 <= f <= 1) by (split; [apply (rnd_ge_Z _ 0)|apply (rnd_le_Z _ 1)]; try (vm_compute; discriminate); lra).
  destruct (add_val _ _ S1 D1) as [A1 A2]; [rewrite S2, D2; apply small_ok; rewrite Rabs_pos_eq; lra|].
  split; [exact A1|]. exists f. rewrite A2, S2, D2. auto.
Qed.
Lemma time_floor s ns : (0 <= s < 2 ^ 32)%Z -> (0 <= ns <= 999999000)%Z ->
  Z.of_N (time_encode (s * 1000000000 + ns)) = s.
Proof.
  intros Hs Hn. destruct (time_val s ns Hs ltac:(lia)) as (H1 & f & Hf & Hf' & H2). change (2 ^ 32)%Z with 4294967296%Z in Hs.
  assert (Hsr : 0 <= IZR s <= 4294967295) by (split; apply IZR_le; lia).
  assert (Hnr : 0 <= IZR ns <= 999999000) by (split; apply IZR_le; lia).
  pose proof (rnd_err 1 (IZR ns / 1000000000) ltac:(unfold Rdiv; lra)) as E1. rewrite <- Hf' in E1. apply Rabs_le_bounds in E1.
  assert (L1 : IZR s <= rnd (IZR s + f)) by (apply rnd_ge_Z; [change (2 ^ 53)%Z with 9007199254740992%Z; lia|lra]).
  assert (L2 : rnd (IZR s + f) < IZR s + 1).
  { pose proof (rnd_err 4294967296 (IZR s + f) ltac:(lra)) as E2. apply Rabs_le_bounds in E2. unfold Rdiv in *. lra. }
  unfold time_encode. rewrite to_u32_val; [|exact H1|rewrite H2; change (IZR (2 ^ 32)) with 4294967296; lra].
  rewrite H2. apply Zfloor_imp. rewrite plus_IZR. lra.
Qed.
Lemma time_near s ns : (0 <= s < 2 ^ 32 - 1)%Z -> (0 <= ns < 1000000000)%Z ->
  Z.of_N (time_encode (s * 1000000000 + ns)) = s \/ Z.of_N (time_encode (s * 1000000000 + ns)) = (s + 1)%Z.
Proof.
  intros Hs Hn. change (2 ^ 32 - 1)%Z with 4294967295%Z in Hs.
  destruct (time_val s ns ltac:(change (2 ^ 32)%Z with 4294967296%Z; lia) Hn) as (H1 & f & Hf & _ & H2).
  assert (Hsr : 0 <= IZR s <= 4294967294) by (split; apply IZR_le; lia).
  assert (L1 : IZR s <= rnd (IZR s + f)) by (apply rnd_ge_Z; [change (2 ^ 53)%Z with 9007199254740992%Z; lia|lra]).
  assert (L2 : rnd (IZR s + f) <= IZR (s + 1)) by (apply rnd_le_Z; [change (2 ^ 53)%Z with 9007199254740992%Z; lia|rewrite plus_IZR; lra]).
  rewrite plus_IZR in L2.
  unfold time_encode. rewrite to_u32_val; [|exact H1|rewrite H2; change (IZR (2 ^ 32)) with 4294967296; lra]. rewrite H2.
  assert (s <= Zfloor (rnd (IZR s + f)))%Z by (apply Zfloor_lub, L1).
  assert (Zfloor (rnd (IZR s + f)) < s + 2)%Z by (apply lt_IZR; eapply Rle_lt_trans; [apply Zfloor_lb|]; rewrite plus_IZR; lra).
  lia.
Qed.
Lemma time_roundtrip v : (v < 2 ^ 32)%N -> time_encode (time_decode v) = v.
Proof.
  intros Hv. change (2 ^ 32)%N with 4294967296%N in Hv. unfold time_decode.
  pose proof (time_floor (Z.of_N v) 0 ltac:(change (2 ^ 32)%Z with 4294967296%Z; lia) ltac:(lia)) as H.
  rewrite Z.add_0_r in H. lia.
Qed.
End Time.
