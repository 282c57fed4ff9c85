(** * TimeExact: exactly which fractions of a second are rounded up. *)
From Coq Require Import ZArith Reals Lia Lra Psatz.
From Coq Require Import Floats.SpecFloat.
From Flocq Require Import Core.Core Relative IEEE754.BinarySingleNaN.
From Verif Require Import GoBase Float64 Spec_Float FloatFacts CoordFacts.
Local Open Scope R_scope.

Local Instance Hprec' : FLX.Prec_gt_0 Float64.prec := eq_refl.
Local Instance vexp' : Valid_exp fx := fexp_correct pr em Hprec'.

Lemma rnd_binade k x : (0 <= k <= 31)%Z -> IZR (2 ^ k) <= x < IZR (2 ^ (k + 1)) ->
  rnd x = IZR (ZnearestE (x * IZR (2 ^ (52 - k)))) / IZR (2 ^ (52 - k)).
Proof.
  intros Hk Hx.
  assert (P : forall e, (0 <= e)%Z -> bpow radix2 e = IZR (2 ^ e)) by (intros e He; symmetry; apply (IZR_Zpower radix2), He).
  assert (C : cexp radix2 fx x = (k - 52)%Z).
  { unfold cexp. rewrite (mag_unique_pos radix2 x (k + 1)).
    - change fx with (FLT_exp (-1074) 53). unfold FLT_exp. lia.
    - replace (k + 1 - 1)%Z with k by lia. rewrite !P by lia. exact Hx. }
  unfold round, scaled_mantissa, F2R. cbn [Fnum Fexp]. rewrite C.
  replace (- (k - 52))%Z with (52 - k)%Z by lia. rewrite P by lia.
  replace (k - 52)%Z with (- (52 - k))%Z by lia. rewrite bpow_opp, P by lia. reflexivity.
Qed.
Lemma near_lt y M : y < IZR M - / 2 -> (ZnearestE y < M)%Z.
Proof.
  intros H. pose proof (Znearest_half (fun x => negb (Z.even x)) y) as G. apply Rabs_le_bounds in G. apply lt_IZR. lra.
Qed.
Lemma near_ge y M : IZR M - / 2 < y -> (M <= ZnearestE y)%Z.
Proof.
  intros H. pose proof (Znearest_half (fun x => negb (Z.even x)) y) as G. apply Rabs_le_bounds in G.
  assert (M - 1 < ZnearestE y)%Z; [|lia]. apply lt_IZR. rewrite minus_IZR. lra.
Qed.
(** rounding the sum, by the distance to the next second *)
Lemma sum_down k s f : (0 <= k <= 31)%Z -> (2 ^ k <= s < 2 ^ (k + 1))%Z -> 0 <= f <= 1 ->
  f < 1 - / (2 * IZR (2 ^ (52 - k))) -> rnd (IZR s + f) < IZR s + 1.
Proof.
  intros Hk Hs Hf H. assert (Q : (0 < 2 ^ (52 - k))%Z) by (apply Z.pow_pos_nonneg; lia). assert (Q' : 0 < IZR (2 ^ (52 - k))) by (apply IZR_lt, Q).
  set (q := (2 ^ (52 - k))%Z) in *.
  assert (Hq : 0 < / (2 * IZR q)) by (apply Rinv_0_lt_compat; lra).
  destruct Hs as [Hs1 Hs2]. assert (Hs3 : (s + 1 <= 2 ^ (k + 1))%Z) by lia. apply IZR_le in Hs1, Hs3. rewrite plus_IZR in Hs3.
  rewrite (rnd_binade k) by (try assumption; lra). fold q.
  assert (L : (ZnearestE ((IZR s + f) * IZR q) < (s + 1) * q)%Z).
  { apply near_lt. rewrite mult_IZR, plus_IZR. assert (E : / (2 * IZR q) * IZR q = / 2) by (field; lra).
    apply (Rmult_lt_compat_r (IZR q)) in H; [|exact Q']. rewrite Rmult_minus_distr_r, E in H. lra. }
  apply IZR_lt in L. rewrite mult_IZR, plus_IZR in L. apply (Rmult_lt_reg_r (IZR q)); [exact Q'|]. unfold Rdiv. rewrite Rmult_assoc, Rinv_l, Rmult_1_r by lra. exact L.
Qed.
Lemma sum_up k s f : (0 <= k <= 31)%Z -> (2 ^ k <= s < 2 ^ (k + 1))%Z -> 0 <= f <= 1 ->
  1 - / (2 * IZR (2 ^ (52 - k))) < f -> IZR s + 1 <= rnd (IZR s + f).
Proof.
  intros Hk Hs Hf H. assert (Q : (0 < 2 ^ (52 - k))%Z) by (apply Z.pow_pos_nonneg; lia). assert (Q' : 0 < IZR (2 ^ (52 - k))) by (apply IZR_lt, Q).
  destruct Hs as [Hs1 Hs2]. assert (Hs3 : (s + 1 <= 2 ^ (k + 1))%Z) by lia. apply IZR_le in Hs1. 
  destruct (Req_dec f 1) as [->|Hf1].
  { rewrite <- plus_IZR. rewrite rnd_Z; [lra|]. assert (2 ^ (k + 1) <= 2 ^ 53)%Z by (apply Z.pow_le_mono_r; lia). assert (0 <= 2 ^ k)%Z by (apply Z.pow_nonneg; lia). apply le_IZR in Hs1. lia. }
  apply IZR_le in Hs3. rewrite plus_IZR in Hs3. set (q := (2 ^ (52 - k))%Z) in *.
  rewrite (rnd_binade k) by (try assumption; lra). fold q.
  assert (L : ((s + 1) * q <= ZnearestE ((IZR s + f) * IZR q))%Z).
  { apply near_ge. rewrite mult_IZR, plus_IZR. assert (E : / (2 * IZR q) * IZR q = / 2) by (field; lra).
    apply (Rmult_lt_compat_r (IZR q)) in H; [|exact Q']. rewrite Rmult_minus_distr_r, E in H. lra. }
  apply IZR_le in L. rewrite mult_IZR, plus_IZR in L. apply (Rmult_le_reg_r (IZR q)); [exact Q'|]. unfold Rdiv. rewrite Rmult_assoc, Rinv_l, Rmult_1_r by lra. exact L.
Qed.
Lemma small_down s f : (0 <= s < 2 ^ 23)%Z -> 0 <= f <= 1 - / 1073741824 -> rnd (IZR s + f) < IZR s + 1.
Proof.
  intros Hs Hf. change (2 ^ 23)%Z with 8388608%Z in Hs.
  assert (G : generic_format radix2 fx (IZR s + 1 - / 1073741824)).
  { change fx with (FLT_exp (-1074) 53). apply generic_format_FLT. exists (Float radix2 ((s + 1) * 1073741824 - 1) (-30)).
    - unfold F2R. cbn [Fnum Fexp]. change (bpow radix2 (-30)) with (/ 1073741824). rewrite minus_IZR, mult_IZR, plus_IZR. field.
    - cbn [Fnum]. change (Zpower radix2 53) with 9007199254740992%Z. lia.
    - cbn [Fexp]. lia. }
  assert (L : rnd (IZR s + f) <= IZR s + 1 - / 1073741824); [|lra].
  replace (IZR s + 1 - / 1073741824) with (rnd (IZR s + 1 - / 1073741824)) by (apply round_generic; [auto with typeclass_instances|exact G]).
  apply rnd_le. lra.
Qed.
Section S.
Context {E : go_env}.
Lemma time_floor_iff s ns : (0 <= s < 2 ^ 32 - 1)%Z -> (0 <= ns < 1000000000)%Z ->
  (Z.of_N (time_encode (s * 1000000000 + ns)) = s <-> 1000000000 * 2 ^ Z.log2 s < (1000000000 - ns) * 2 ^ 53)%Z.
Proof.
  intros Hs Hn. change (2 ^ 32 - 1)%Z with 4294967295%Z in Hs.
  destruct (time_val s ns ltac:(change (2 ^ 32)%Z with 4294967296%Z; lia) Hn) as (H1 & f & Hf & Hf' & H2).
  assert (Hsr : 0 <= IZR s <= 4294967294) by (split; apply IZR_le; lia).
  assert (L1 : IZR s <= rnd (IZR s + f)) by (apply rnd_ge_Z; [change (2 ^ 53)%Z with 9007199254740992%Z; lia|lra]).
  assert (L2 : rnd (IZR s + f) <= IZR (s + 1)) by (apply rnd_le_Z; [change (2 ^ 53)%Z with 9007199254740992%Z; lia|rewrite plus_IZR; lra]).
  rewrite plus_IZR in L2.
  unfold time_encode. rewrite to_u32_val; [|exact H1|rewrite H2; change (IZR (2 ^ 32)) with 4294967296; lra]. rewrite H2.
  transitivity (rnd (IZR s + f) < IZR s + 1).
  { split; intros H.
    - pose proof (Zfloor_ub (rnd (IZR s + f))) as U. rewrite H in U. exact U.
    - apply Zfloor_imp. rewrite plus_IZR. split; [exact L1|exact H]. }
  assert (Hnr : 0 <= IZR ns <= 1000000000) by (split; apply IZR_le; lia).
  pose proof (rnd_err 1 (IZR ns / 1000000000) ltac:(unfold Rdiv; lra)) as E1. rewrite <- Hf' in E1. apply Rabs_le_bounds in E1. unfold Rdiv in E1.
  assert (Hmax : (ns <= 999999999)%Z) by lia. apply IZR_le in Hmax. change (2 ^ 53)%Z with 9007199254740992%Z.
  destruct (Z_lt_le_dec s 8388608) as [Hsm|Hbig].
  { split; intros _.
    - assert (0 <= Z.log2 s < 23)%Z as [G0 G].
      { split; [apply Z.log2_nonneg|]. destruct (Z.eq_dec s 0) as [->|]; [cbn; lia|]. apply Z.log2_lt_pow2; [lia|exact Hsm]. }
      assert (2 ^ Z.log2 s <= 2 ^ 22)%Z by (apply Z.pow_le_mono_r; lia). change (2 ^ 22)%Z with 4194304%Z in *. lia.
    - apply small_down; [change (2 ^ 23)%Z with 8388608%Z; lia|]. lra. }
  assert (B : forall k d, (23 <= k <= 31)%Z -> Z.log2 s = k -> (1000000000 * 2 ^ k < (d + 1) * 9007199254740992)%Z -> (d * 9007199254740992 < 1000000000 * 2 ^ k)%Z ->
     IZR d / 1000000000 + / 1000000000000 < / (2 * IZR (2 ^ (52 - k))) -> / (2 * IZR (2 ^ (52 - k))) < (IZR d + 1) / 1000000000 - / 1000000000000 ->
     (rnd (IZR s + f) < IZR s + 1 <-> (1000000000 * 2 ^ Z.log2 s < (1000000000 - ns) * 9007199254740992)%Z)).
  { intros k d Hk Hl D1 D2 R1 R2. pose proof (Z.log2_spec s ltac:(lia)) as Hsp. rewrite Hl in *. replace (Z.succ k) with (k + 1)%Z in Hsp by lia. unfold Rdiv in *.
    destruct (Z_le_gt_dec (1000000000 - ns) d) as [Hd|Hd].
    - split; [|intros; exfalso; nia]. intros Hr. exfalso. assert (IZR s + 1 <= rnd (IZR s + f)); [|lra].
      apply (sum_up k); [lia|exact Hsp|exact Hf|]. apply IZR_le in Hd. rewrite minus_IZR in Hd. lra.
    - split; intros _; [nia|]. apply (sum_down k); [lia|exact Hsp|exact Hf|]. assert (Hd' : (d + 1 <= 1000000000 - ns)%Z) by lia.
      apply IZR_le in Hd'. rewrite plus_IZR, minus_IZR in Hd'. lra. }
  assert (Hk : (23 <= Z.log2 s <= 31)%Z).
  { split; [change 23%Z with (Z.log2 8388608); apply Z.log2_le_mono, Hbig|]. assert (Z.log2 s < 32)%Z; [|lia]. apply Z.log2_lt_pow2; [lia|]. change (2 ^ 32)%Z with 4294967296%Z. lia. }
  destruct (Z.eq_dec (Z.log2 s) 23) as [Ek|?]; [apply (B 23%Z 0%Z); [lia|exact Ek|reflexivity|reflexivity| |]; change (2 ^ (52 - 23))%Z with 536870912%Z; lra|].
  destruct (Z.eq_dec (Z.log2 s) 24) as [Ek|?]; [apply (B 24%Z 1%Z); [lia|exact Ek|reflexivity|reflexivity| |]; change (2 ^ (52 - 24))%Z with 268435456%Z; lra|].
  destruct (Z.eq_dec (Z.log2 s) 25) as [Ek|?]; [apply (B 25%Z 3%Z); [lia|exact Ek|reflexivity|reflexivity| |]; change (2 ^ (52 - 25))%Z with 134217728%Z; lra|].
  destruct (Z.eq_dec (Z.log2 s) 26) as [Ek|?]; [apply (B 26%Z 7%Z); [lia|exact Ek|reflexivity|reflexivity| |]; change (2 ^ (52 - 26))%Z with 67108864%Z; lra|].
  destruct (Z.eq_dec (Z.log2 s) 27) as [Ek|?]; [apply (B 27%Z 14%Z); [lia|exact Ek|reflexivity|reflexivity| |]; change (2 ^ (52 - 27))%Z with 33554432%Z; lra|].
  destruct (Z.eq_dec (Z.log2 s) 28) as [Ek|?]; [apply (B 28%Z 29%Z); [lia|exact Ek|reflexivity|reflexivity| |]; change (2 ^ (52 - 28))%Z with 16777216%Z; lra|].
  destruct (Z.eq_dec (Z.log2 s) 29) as [Ek|?]; [apply (B 29%Z 59%Z); [lia|exact Ek|reflexivity|reflexivity| |]; change (2 ^ (52 - 29))%Z with 8388608%Z; lra|].
  destruct (Z.eq_dec (Z.log2 s) 30) as [Ek|?]; [apply (B 30%Z 119%Z); [lia|exact Ek|reflexivity|reflexivity| |]; change (2 ^ (52 - 30))%Z with 4194304%Z; lra|].
  apply (B 31%Z 238%Z); [lia|lia|reflexivity|reflexivity| |]; change (2 ^ (52 - 31))%Z with 2097152%Z; lra.
Qed.
End S.
