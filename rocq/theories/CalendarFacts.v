(** * Proofs about the calendar: the day-number arithmetic of the model follows
    the day-by-day calendar of Spec_Calendar. *)
From Coq Require Import List ZArith Lia Bool.
From Verif Require Import GoBase Float64 Storage Spec_Calendar.
Import ListNotations.
Open Scope Z_scope.

(** civil_of_days by era and day of the era. *)
Definition of_doe (doe : Z) : date :=
  let yoe := (doe - doe / 1460 + doe / 36524 - doe / 146096) / 365 in
  let doy := doe - (365 * yoe + yoe / 4 - yoe / 100) in
  let mp := (5 * doy + 2) / 153 in
  let d := doy - (153 * mp + 2) / 5 + 1 in
  let m := if mp <? 10 then mp + 3 else mp - 9 in
  let y := yoe + (if m <=? 2 then 1 else 0) in
  (y, m, d).
Definition shift (k : Z) (x : date) : date := let '(y, m, d) := x in (y + k, m, d).

Lemma civil_doe z : civil_of_days z = shift (400 * ((z + 719468) / 146097)) (of_doe ((z + 719468) mod 146097)).
Proof.
  unfold civil_of_days, of_doe, shift. cbv zeta.
  generalize ((z + 719468) / 146097). generalize ((z + 719468) mod 146097). intros a b.
  match goal with |- (?x, _, _) = (?y, _, _) => replace y with x; [reflexivity|] end. lia.
Qed.

Lemma leap_shift y k : leap (y + 400 * k) = leap y.
Proof.
  unfold leap.
  replace (y + 400 * k) with (y + k * 400) by lia.
  rewrite (Z.mod_add y k 400) by lia.
  replace (y + k * 400) with (y + (k * 100) * 4) by lia. rewrite (Z.mod_add y _ 4) by lia.
  replace (y + (k * 100) * 4) with (y + (k * 4) * 100) by lia. rewrite (Z.mod_add y _ 100) by lia. reflexivity.
Qed.

Lemma next_shift k x : next_day (shift (400 * k) x) = shift (400 * k) (next_day x).
Proof.
  destruct x as [[y m] d]. unfold shift, next_day, month_days. rewrite leap_shift.
  destruct (_ <? _); [reflexivity|]. destruct (m <? 12); [reflexivity|].
  replace (y + 400 * k + 1) with (y + 1 + 400 * k) by lia. reflexivity.
Qed.

Definition date_eqb (a b : date) : bool :=
  let '(y, m, d) := a in let '(y', m', d') := b in (y =? y') && (m =? m') && (d =? d').
Lemma date_eqb_eq a b : date_eqb a b = true -> a = b.
Proof.
  destruct a as [[y m] d], b as [[y' m'] d']. cbn [date_eqb]. rewrite !andb_true_iff, !Z.eqb_eq.
  intros [[-> ->] ->]. reflexivity.
Qed.

Fixpoint sweep (f : Z -> bool) (n : nat) (z : Z) : bool :=
  match n with O => true | S n' => if f z then sweep f n' (z + 1) else false end.
Lemma sweep_spec f n : forall z, sweep f n z = true -> forall x, z <= x < z + Z.of_nat n -> f x = true.
Proof.
  induction n as [|n IH]; intros z H x Hx; [lia|]. cbn [sweep] in H.
  destruct (f z) eqn:Hf; [|discriminate]. destruct (Z.eq_dec x z) as [->|Hne]; [exact Hf|].
  apply (IH (z + 1) H). lia.
Qed.

(** Within an era: years starting on the first of March. *)
Definition gd (d : Z) : Z := d - d / 1460 + d / 36524 - d / 146096.
Definition yo (d : Z) : Z := gd d / 365.
Definition start (y : Z) : Z := 365 * y + y / 4 - y / 100.
Definition stop_of (y : Z) : Z := if y =? 399 then 146097 else start (y + 1).
Definition md (doy : Z) : Z * Z :=
  let mp := (5 * doy + 2) / 153 in
  (if mp <? 10 then mp + 3 else mp - 9, doy - (153 * mp + 2) / 5 + 1).
Lemma of_doe_md d : of_doe d = let '(m, k) := md (d - start (yo d)) in (yo d + (if m <=? 2 then 1 else 0), m, k).
Proof. reflexivity. Qed.

Lemma gd_mono d : 0 <= d < 146096 -> gd d <= gd (d + 1).
Proof.
  intros H. unfold gd. destruct (Z.eq_dec d 146095) as [->|Hne]; [vm_compute; discriminate|].
  rewrite (Z.div_small d 146096), (Z.div_small (d + 1) 146096) by lia.
  pose proof (Z.div_le_mono d (d + 1) 36524 ltac:(lia) ltac:(lia)).
  assert ((d + 1) / 1460 <= d / 1460 + 1).
  { replace (d / 1460 + 1) with ((d + 1 * 1460) / 1460) by (apply Z.div_add; lia). apply Z.div_le_mono; lia. }
  lia.
Qed.
Lemma yo_mono d e : 0 <= d -> d <= e -> e <= 146096 -> yo d <= yo e.
Proof.
  intros H0 Hde He. unfold yo. apply Z.div_le_mono; [lia|].
  replace e with (d + Z.of_nat (Z.to_nat (e - d))) in * by lia. revert He. generalize (Z.to_nat (e - d)) as n. clear Hde.
  induction n as [|n IH]; intros He; [rewrite Z.add_0_r; lia|].
  rewrite Nat2Z.inj_succ in *. replace (d + Z.succ (Z.of_nat n)) with (d + Z.of_nat n + 1) in * by lia.
  etransitivity; [apply IH; lia|]. apply gd_mono. lia.
Qed.
Definition year_ok (y : Z) : bool :=
  (yo (start y) =? y) && (yo (stop_of y - 1) =? y) &&
  ((y =? 399) || (stop_of y - start y =? (if leap (y + 1) then 366 else 365))) && (start y <? stop_of y).
Lemma years_swept : sweep year_ok 400 0 = true.
Proof. vm_compute. reflexivity. Qed.
Lemma start_400 : stop_of 399 - start 399 = 366. Proof. reflexivity. Qed.
Lemma year_spec y : 0 <= y < 400 -> yo (start y) = y /\ yo (stop_of y - 1) = y /\
  stop_of y - start y = (if leap (y + 1) then 366 else 365) /\ start y < stop_of y.
Proof.
  intros H. pose proof (sweep_spec year_ok 400 0 years_swept y ltac:(lia)) as S. unfold year_ok in S.
  rewrite !andb_true_iff, orb_true_iff, !Z.eqb_eq, Z.ltb_lt in S. destruct S as [[[S1 S2] S3] S4].
  split; [exact S1|]. split; [exact S2|]. split; [|exact S4]. destruct S3 as [-> |S3]; [reflexivity|exact S3].
Qed.
Lemma yo_range d : 0 <= d <= 146096 -> 0 <= yo d < 400.
Proof.
  intros H. pose proof (yo_mono 0 d ltac:(lia) ltac:(lia) ltac:(lia)) as H1. pose proof (yo_mono d 146096 ltac:(lia) ltac:(lia) ltac:(lia)) as H2.
  change (yo 0) with 0 in H1. change (yo 146096) with 399 in H2. lia.
Qed.
Lemma start_pos y : 0 <= y < 400 -> 0 <= start y /\ stop_of y <= 146097.
Proof.
  intros H. unfold stop_of, start. destruct (Z.eqb_spec y 399) as [->|]; [vm_compute; split; discriminate|].
  pose proof (Z.div_mod y 4 ltac:(lia)). pose proof (Z.mod_pos_bound y 4 ltac:(lia)). pose proof (Z.div_mod y 100 ltac:(lia)). pose proof (Z.mod_pos_bound y 100 ltac:(lia)).
  pose proof (Z.div_mod (y + 1) 4 ltac:(lia)). pose proof (Z.mod_pos_bound (y + 1) 4 ltac:(lia)). pose proof (Z.div_mod (y + 1) 100 ltac:(lia)). pose proof (Z.mod_pos_bound (y + 1) 100 ltac:(lia)).
  lia.
Qed.
Lemma stop_start y : 0 <= y < 399 -> stop_of y = start (y + 1).
Proof. intros H. unfold stop_of. destruct (Z.eqb_spec y 399); [lia|reflexivity]. Qed.
Lemma yo_bounds d : 0 <= d <= 146096 -> start (yo d) <= d < stop_of (yo d).
Proof.
  intros H. pose proof (yo_range d H) as Hy. set (y := yo d) in *. split.
  - destruct (Z.lt_ge_cases d (start y)) as [Hl|Hl]; [exfalso|exact Hl].
    assert (Hy0 : 0 < y). { destruct (Z.eq_dec y 0) as [E|]; [rewrite E in Hl; change (start 0) with 0 in Hl; lia|lia]. }
    destruct (year_spec (y - 1) ltac:(lia)) as (_ & S2 & _ & _). rewrite (stop_start (y - 1)) in S2 by lia.
    replace (y - 1 + 1) with y in S2 by lia.
    destruct (start_pos y Hy) as (P1 & P2). destruct (year_spec y Hy) as (_ & _ & _ & P3).
    pose proof (yo_mono d (start y - 1) ltac:(lia) ltac:(lia) ltac:(lia)). fold y in H0. lia.
  - destruct (Z.lt_ge_cases d (stop_of y)) as [Hl|Hl]; [exact Hl|exfalso].
    assert (Hy9 : y < 399). { destruct (Z.eq_dec y 399) as [E|]; [rewrite E in Hl; change (stop_of 399) with 146097 in Hl; lia|lia]. }
    rewrite stop_start in Hl by lia. destruct (year_spec (y + 1) ltac:(lia)) as (S1 & _).
    destruct (start_pos (y + 1) ltac:(lia)) as (P1 & _).
    pose proof (yo_mono (start (y + 1)) d ltac:(lia) Hl ltac:(lia)). fold y in H0. lia.
Qed.
Lemma yo_unique d y : 0 <= y < 400 -> start y <= d < stop_of y -> yo d = y.
Proof.
  intros Hy H. destruct (year_spec y Hy) as (S1 & S2 & _ & _). destruct (start_pos y Hy) as (P1 & P2).
  pose proof (yo_mono (start y) d ltac:(lia) ltac:(lia) ltac:(lia)). pose proof (yo_mono d (stop_of y - 1) ltac:(lia) ltac:(lia) ltac:(lia)). lia.
Qed.

(** One step inside a year, for the first 365 days. *)
Definition step_ok (doy : Z) : bool :=
  let '(m, k) := md doy in let '(m', k') := md (doy + 1) in
  if m =? 2 then (m' =? 2) && (k' =? k + 1) && ((k <? 28) || ((k =? 28) && (doy =? 364)))
  else if k <? month_days 1 m then (m' =? m) && (k' =? k + 1)
  else if m <? 12 then (m' =? m + 1) && (k' =? 1) && Bool.eqb (m' <=? 2) (m <=? 2)
  else (m =? 12) && (m' =? 1) && (k' =? 1).
Lemma steps_swept : sweep step_ok 365 0 = true.
Proof. vm_compute. reflexivity. Qed.
Lemma month_days_other y m : m <> 2 -> month_days y m = month_days 1 m.
Proof. intros H. unfold month_days. destruct (Z.eqb_spec m 2); [congruence|reflexivity]. Qed.
Lemma md_step y doy : 0 <= doy <= 364 -> (doy = 364 -> leap (y + 1) = true) ->
  (let '(m, k) := md (doy + 1) in (y + (if m <=? 2 then 1 else 0), m, k)) =
  next_day (let '(m, k) := md doy in (y + (if m <=? 2 then 1 else 0), m, k)).
Proof.
  intros Hd Hl. pose proof (sweep_spec step_ok 365 0 steps_swept doy ltac:(lia)) as S. unfold step_ok in S.
  destruct (md doy) as [m k]. destruct (md (doy + 1)) as [m' k']. unfold next_day.
  destruct (Z.eqb_spec m 2) as [->|Hm].
  - rewrite !andb_true_iff, orb_true_iff, andb_true_iff, !Z.eqb_eq, Z.ltb_lt in S. destruct S as [[-> ->] S].
    change (2 <=? 2) with true. cbv iota.
    assert (k < month_days (y + 1) 2).
    { unfold month_days. change (2 =? 2) with true. cbv iota. destruct S as [S|[-> S]]; [destruct (leap (y + 1)); lia|rewrite (Hl S); lia]. }
    destruct (Z.ltb_spec k (month_days (y + 1) 2)); [reflexivity|lia].
  - rewrite (month_days_other _ m Hm). destruct (k <? month_days 1 m) eqn:Hk.
    + rewrite andb_true_iff, !Z.eqb_eq in S. destruct S as [-> ->]. reflexivity.
    + destruct (m <? 12) eqn:H12.
      * rewrite !andb_true_iff, !Z.eqb_eq in S. destruct S as [[-> ->] S]. apply Bool.eqb_prop in S. rewrite S. reflexivity.
      * rewrite !andb_true_iff, !Z.eqb_eq in S. destruct S as [[-> ->] ->]. change (1 <=? 2) with true. change (12 <=? 2) with false. cbv iota. rewrite Z.add_0_r. reflexivity.
Qed.
Lemma md_first : md 0 = (3, 1). Proof. reflexivity. Qed.
Lemma md_364 : md 364 = (2, 28). Proof. reflexivity. Qed.
Lemma md_365 : md 365 = (2, 29). Proof. reflexivity. Qed.
Lemma of_doe_succ d : 0 <= d < 146096 -> of_doe (d + 1) = next_day (of_doe d).
Proof.
  intros H. rewrite !of_doe_md. pose proof (yo_range d ltac:(lia)) as Hy. pose proof (yo_bounds d ltac:(lia)) as Hb.
  set (y := yo d) in *. destruct (year_spec y Hy) as (_ & _ & Hlen & _).
  destruct (Z.lt_ge_cases (d + 1) (stop_of y)) as [Hl|Hl].
  - rewrite (yo_unique (d + 1) y Hy) by lia. replace (d + 1 - start y) with (d - start y + 1) by lia.
    apply md_step; destruct (leap (y + 1)); lia.
  - assert (Hy9 : y < 399). { destruct (Z.eq_dec y 399) as [E|]; [rewrite E in Hl; change (stop_of 399) with 146097 in Hl; lia|lia]. }
    assert (Es : stop_of y = d + 1) by lia. rewrite (stop_start y ltac:(lia)) in Es, Hlen.
    assert (Hyo : yo (d + 1) = y + 1) by (rewrite <- Es; apply year_spec; lia).
    rewrite Hyo, <- Es, Z.sub_diag, md_first. change (3 <=? 2) with false. cbv iota.
    replace (d - start y) with (start (y + 1) - start y - 1) by lia. rewrite Hlen.
    destruct (leap (y + 1)) eqn:Hleap.
    + change (366 - 1) with 365. rewrite md_365. unfold next_day, month_days. change (2 <=? 2) with true. change (2 =? 2) with true. cbv iota. rewrite Hleap.
      change (29 <? 29) with false. change (2 <? 12) with true. cbv iota. rewrite Z.add_0_r. reflexivity.
    + change (365 - 1) with 364. rewrite md_364. unfold next_day, month_days. change (2 <=? 2) with true. change (2 =? 2) with true. cbv iota. rewrite Hleap.
      change (28 <? 28) with false. change (2 <? 12) with true. cbv iota. rewrite Z.add_0_r. reflexivity.
Qed.
Lemma era_wrap : next_day (of_doe 146096) = shift 400 (of_doe 0).
Proof. vm_compute. reflexivity. Qed.

Lemma civil_succ z : civil_of_days (z + 1) = next_day (civil_of_days z).
Proof.
  rewrite !civil_doe. rewrite next_shift.
  replace (z + 1 + 719468) with (z + 719468 + 1) by lia. generalize (z + 719468). clear z. intros z.
  pose proof (Z.mod_pos_bound z 146097 ltac:(lia)) as Hb.
  pose proof (Z.div_mod z 146097 ltac:(lia)) as Hd.
  set (q := z / 146097) in *. set (r := z mod 146097) in *.
  destruct (Z.eq_dec r 146096) as [Hr|Hr].
  - assert (Hq : (z + 1) / 146097 = q + 1) by (symmetry; apply (Z.div_unique _ _ _ 0); lia).
    assert (Hm : (z + 1) mod 146097 = 0) by (symmetry; apply (Z.mod_unique _ _ (q + 1)); lia).
    rewrite Hq, Hm, Hr, era_wrap. destruct (of_doe 0) as [[y m] d]. unfold shift.
    replace (y + 400 + 400 * q) with (y + 400 * (q + 1)) by lia. reflexivity.
  - assert (Hq : (z + 1) / 146097 = q) by (symmetry; apply (Z.div_unique _ _ _ (r + 1)); lia).
    assert (Hm : (z + 1) mod 146097 = r + 1) by (symmetry; apply (Z.mod_unique _ _ q); lia).
    rewrite Hq, Hm. apply (f_equal (shift (400 * q))).
    apply of_doe_succ. lia.
Qed.

Lemma civil_1970 n : civil_of_days (Z.of_N n) = days_after_1970 n.
Proof.
  unfold days_after_1970. induction n as [|n IH] using N.peano_ind; [reflexivity|].
  rewrite N.iter_succ, <- IH, <- civil_succ. f_equal. lia.
Qed.
Lemma civil_2010 n : civil_of_days (14610 + Z.of_N n) = days_after_2010 n.
Proof.
  unfold days_after_2010. induction n as [|n IH] using N.peano_ind; [reflexivity|].
  rewrite N.iter_succ, <- IH, <- civil_succ. f_equal. lia.
Qed.

Lemma next_real x : real_date x -> real_date (next_day x).
Proof.
  destruct x as [[y m] d]. unfold real_date, next_day. intros [Hm Hd].
  assert (P : forall y m, 1 <= month_days y m).
  { intros. unfold month_days. repeat match goal with |- context [if ?b then _ else _] => destruct b end; lia. }
  destruct (Z.ltb_spec d (month_days y m)); [lia|]. destruct (Z.ltb_spec m 12); specialize (P y (m + 1)) as P1; specialize (P (y + 1) 1) as P2; lia.
Qed.
Lemma after_real n : real_date (days_after_2010 n).
Proof.
  unfold days_after_2010. induction n as [|n IH] using N.peano_ind; [vm_compute; intuition congruence|].
  rewrite N.iter_succ. apply next_real, IH.
Qed.

(** order of dates *)
Definition date_lt (a b : date) : Prop :=
  let '(y, m, d) := a in let '(y', m', d') := b in
  y < y' \/ (y = y' /\ (m < m' \/ (m = m' /\ d < d'))).
Lemma date_lt_trans a b c : date_lt a b -> date_lt b c -> date_lt a c.
Proof. destruct a as [[? ?] ?], b as [[? ?] ?], c as [[? ?] ?]. unfold date_lt. lia. Qed.
Lemma next_lt x : date_lt x (next_day x).
Proof.
  destruct x as [[y m] d]. unfold date_lt, next_day.
  destruct (d <? month_days y m); [lia|]. destruct (Z.ltb_spec m 12); lia.
Qed.
Lemma after_lt n k : (n < k)%N -> date_lt (days_after_2010 n) (days_after_2010 k).
Proof.
  unfold days_after_2010. induction k as [|k IH] using N.peano_ind; [lia|]. intros Hl.
  rewrite N.iter_succ. destruct (N.eq_dec n k) as [->|Hne]; [apply next_lt|].
  eapply date_lt_trans; [apply IH; lia|apply next_lt].
Qed.

(** decimal notation *)
Lemma fold_dec l : forall a, fold_left (fun a c => a * 10 + (Z.of_N c - 48)) l a =
  a * 10 ^ Z.of_nat (List.length l) + fold_left (fun a c => a * 10 + (Z.of_N c - 48)) l 0.
Proof.
  induction l as [|c l IH]; intros a; cbn [fold_left List.length]; [lia|].
  rewrite IH, (IH (0 * 10 + _)). rewrite Nat2Z.inj_succ, Z.pow_succ_r by lia. ring.
Qed.
Lemma dec_digits_spec w : forall v, 0 <= v < 10 ^ Z.of_nat w -> decimal w (dec_digits w v) v.
Proof.
  induction w as [|w IH]; intros v Hv; cbn [dec_digits].
  - change (10 ^ Z.of_nat 0) with 1 in Hv. split; [reflexivity|]. split; [constructor|]. cbn. lia.
  - rewrite Nat2Z.inj_succ, Z.pow_succ_r in Hv by lia.
    destruct (IH (v / 10)) as (Hl & Hf & Hs).
    { split; [apply Z.div_pos; lia|apply Z.div_lt_upper_bound; lia]. }
    pose proof (Z.mod_pos_bound v 10 ltac:(lia)) as Hm.
    split; [|split].
    + rewrite app_length, Hl. cbn. lia.
    + apply Forall_app. split; [exact Hf|]. constructor; [lia|constructor].
    + rewrite fold_left_app, Hs. cbn [fold_left]. rewrite Z2N.id by lia. pose proof (Z.div_mod v 10). lia.
Qed.

Lemma year_range n : (n < 49711)%N -> let '(y, _, _) := days_after_2010 n in 2010 <= y <= 2146.
Proof.
  intros Hn.
  assert (L : date_lt (days_after_2010 n) (2146, 2, 8)).
  { change (2146, 2, 8) with (civil_of_days (14610 + Z.of_N 49711)). rewrite civil_2010. apply after_lt, Hn. }
  assert (G : n = 0%N \/ date_lt (2010, 1, 1) (days_after_2010 n)).
  { destruct (N.eq_dec n 0) as [->|]; [left; reflexivity|right]. change (2010, 1, 1) with (days_after_2010 0). apply after_lt. lia. }
  destruct G as [-> |G]; [vm_compute; intuition discriminate|].
  destruct (days_after_2010 n) as [[y m] d]. unfold date_lt in L, G. lia.
Qed.
Lemma month_le y m : 28 <= month_days y m <= 31.
Proof. unfold month_days. repeat match goal with |- context [if ?b then _ else _] => destruct b end; lia. Qed.

Lemma unix_split v : unix_of (time_decode v) / 86400 = 14610 + Z.of_N (v / 86400) /\
                     unix_of (time_decode v) mod 86400 = Z.of_N (v mod 86400) /\
                     unix_of (time_decode v) = Z.of_N v + 86400 * 14610.
Proof.
  unfold unix_of, time_decode, unix_2010. rewrite Z.div_mul by lia.
  rewrite N2Z.inj_div, N2Z.inj_mod. change (Z.of_N 86400) with 86400.
  replace (Z.of_N v + 1262304000) with (Z.of_N v + 14610 * 86400) by lia.
  rewrite Z.div_add, Z.mod_add by lia. lia.
Qed.

Lemma sec_bound v : 0 <= Z.of_N (v mod 86400) < 86400.
Proof. assert (H : (v mod 86400 < 86400)%N) by (apply N.mod_lt; discriminate). revert H. generalize (v mod 86400)%N. intros n H. lia. Qed.
Lemma rfc_reads v : (v < 2 ^ 32)%N ->
  let s := Z.of_N (v mod 86400) in
  reads (rfc3339 (time_decode v)) (days_after_2010 (v / 86400)) (s / 3600) (s mod 3600 / 60) (s mod 60).
Proof.
  intros Hv s. change (2 ^ 32)%N with 4294967296%N in Hv.
  destruct (unix_split v) as (Hq & Hr & _). unfold rfc3339. cbv zeta. rewrite Hq, Hr. fold s.
  pose proof (after_real (v / 86400)) as Hd. rewrite civil_2010.
  assert (Hn : (v / 86400 < 49711)%N) by (apply N.div_lt_upper_bound; lia).
  pose proof (year_range _ Hn) as Hy'.
  destruct (days_after_2010 (v / 86400)) as [[y m] d].
  destruct Hd as [Hm Hdd]. pose proof (month_le y m) as Hml.
  assert (Hs : 0 <= s < 86400) by (subst s; apply sec_bound).
  unfold reads. do 6 eexists. split; [reflexivity|].
  pose proof (Z.mod_pos_bound s 3600 ltac:(lia)) as H1. pose proof (Z.mod_pos_bound s 60 ltac:(lia)) as H2.
  assert (0 <= s / 3600 < 100) by (split; [apply Z.div_pos; lia|apply Z.div_lt_upper_bound; lia]).
  assert (0 <= s mod 3600 / 60 < 100) by (split; [apply Z.div_pos; lia|apply Z.div_lt_upper_bound; lia]).
  split; [|split; [|split; [|split; [|split]]]]; apply dec_digits_spec;
    change (10 ^ Z.of_nat 4) with 10000; change (10 ^ Z.of_nat 2) with 100; lia.
Qed.

Lemma rfc_instant v : (v < 2 ^ 32)%N -> instant_text (rfc3339 (time_decode v)) v.
Proof.
  intros Hv. eexists _, _, _. split; [exact (rfc_reads v Hv)|].
  set (s := Z.of_N (v mod 86400)). assert (Hs : 0 <= s < 86400) by (subst s; apply sec_bound).
  pose proof (Z.mod_pos_bound s 60 ltac:(lia)) as H1. pose proof (Z.mod_pos_bound s 3600 ltac:(lia)) as H2.
  pose proof (Z.div_mod s 3600 ltac:(lia)) as H3. pose proof (Z.div_mod (s mod 3600) 60 ltac:(lia)) as H4.
  assert (H5 : s mod 3600 mod 60 = s mod 60).
  { rewrite H3 at 2. replace (3600 * (s / 3600) + s mod 3600) with (s mod 3600 + (60 * (s / 3600)) * 60) by lia.
    rewrite Z.mod_add by lia. reflexivity. }
  rewrite H5 in H4.
  assert (0 <= s / 3600 < 24) by (split; [apply Z.div_pos; lia|apply Z.div_lt_upper_bound; lia]).
  assert (0 <= s mod 3600 / 60 < 60) by (split; [apply Z.div_pos; lia|apply Z.div_lt_upper_bound; lia]). lia.
Qed.

(** two texts that read as given are ordered like what they denote *)
Lemma text_lt_app a : forall b x y, List.length a = List.length b ->
  text_lt (a ++ x) (b ++ y) = text_lt a b || (if list_eq_dec N.eq_dec a b then text_lt x y else false).
Proof.
  induction a as [|c a IH]; intros [|c' b] x y Hl; try discriminate Hl.
  - cbn. reflexivity.
  - cbn [app text_lt]. injection Hl as Hl. rewrite (IH b x y Hl).
    destruct (N.ltb_spec c c'); [reflexivity|].
    destruct (N.eqb_spec c c') as [->|Hne].
    + destruct (list_eq_dec N.eq_dec a b) as [->|Hn], (list_eq_dec N.eq_dec (c' :: _) (c' :: _)) as [e|n]; try reflexivity; congruence.
    + destruct (list_eq_dec N.eq_dec (c :: a) (c' :: b)) as [e|n]; [congruence|reflexivity].
Qed.

Lemma fold_bound l : Forall (fun c => (48 <= c <= 57)%N) l ->
  0 <= fold_left (fun a c => a * 10 + (Z.of_N c - 48)) l 0 < 10 ^ Z.of_nat (List.length l).
Proof.
  induction l as [|c l IH]; intros H; cbn [fold_left List.length]; [cbn; lia|].
  inversion H as [|? ? Hc Hl]; subst. rewrite fold_dec. rewrite Nat2Z.inj_succ, Z.pow_succ_r by lia.
  specialize (IH Hl). nia.
Qed.
Lemma decimal_lt w : forall a b u v, decimal w a u -> decimal w b v -> u < v -> text_lt a b = true.
Proof.
  induction w as [|w IH]; intros a b u v (La & Fa & Sa) (Lb & Fb & Sb) Huv.
  - destruct a; [|discriminate]. destruct b; [|discriminate]. cbn in *. lia.
  - destruct a as [|c a]; [discriminate|]. destruct b as [|c' b]; [discriminate|].
    cbn [fold_left List.length] in *. rewrite fold_dec in Sa, Sb. injection La as La. injection Lb as Lb.
    inversion Fa as [|? ? Hc Fa']; inversion Fb as [|? ? Hc' Fb']; subst.
    pose proof (fold_bound a Fa') as Ba. pose proof (fold_bound b Fb') as Bb. rewrite Lb in Bb, Huv.
    cbn [text_lt]. destruct (N.ltb_spec c c'); [reflexivity|].
    destruct (N.eqb_spec c c') as [->|Hne].
    + eapply IH; [split; [reflexivity|split; [exact Fa'|reflexivity]]|split; [exact Lb|split; [exact Fb'|reflexivity]]|]. lia.
    + exfalso. assert (c' < c)%N by lia. nia.
Qed.
Lemma decimal_inj w : forall a b u, decimal w a u -> decimal w b u -> a = b.
Proof.
  induction w as [|w IH]; intros a b u (La & Fa & Sa) (Lb & Fb & Sb).
  - destruct a; [|discriminate]. destruct b; [|discriminate]. reflexivity.
  - destruct a as [|c a]; [discriminate|]. destruct b as [|c' b]; [discriminate|].
    cbn [fold_left List.length] in *. rewrite fold_dec in Sa, Sb. injection La as La. injection Lb as Lb.
    pose proof (Forall_inv Fa) as Hc; pose proof (Forall_inv_tail Fa) as Fa'; pose proof (Forall_inv Fb) as Hc'; pose proof (Forall_inv_tail Fb) as Fb'; subst w.
    pose proof (fold_bound a Fa') as Ba. pose proof (fold_bound b Fb') as Bb. rewrite Lb in Bb, Sb.
    assert (Hcc : c = c') by nia. rewrite <- Hcc in *. apply (f_equal (cons c)).
    eapply IH; (split; [|split]); [reflexivity|exact Fa'|reflexivity|exact Lb|exact Fb'|]. lia.
Qed.

Lemma field_lt w a b u v x y : decimal w a u -> decimal w b v ->
  u < v \/ (u = v /\ text_lt x y = true) -> text_lt (a ++ x) (b ++ y) = true.
Proof.
  intros Ha Hb H. rewrite text_lt_app by (destruct Ha, Hb; congruence). destruct H as [H|[<- H]].
  - rewrite (decimal_lt w a b u v Ha Hb H). reflexivity.
  - rewrite (decimal_inj w a b u Ha Hb). destruct (list_eq_dec N.eq_dec b b); [|congruence]. rewrite H. apply orb_true_r.
Qed.
Lemma lit_lt c x y : text_lt x y = true -> text_lt ([c] ++ x) ([c] ++ y) = true.
Proof. intros H. cbn. rewrite N.ltb_irrefl, N.eqb_refl. exact H. Qed.

Lemma instant_lt s t v w : instant_text s v -> instant_text t w -> (v < w)%N -> text_lt s t = true.
Proof.
  intros (h & mi & se & Hs & B1 & B2 & B3 & E1) (h' & mi' & se' & Ht & C1 & C2 & C3 & E2) Hvw.
  unfold reads in Hs, Ht.
  assert (Hd : ((v / 86400 < w / 86400) \/ (v / 86400 = w / 86400 /\ v mod 86400 < w mod 86400))%N).
  { pose proof (N.div_mod v 86400 ltac:(lia)). pose proof (N.div_mod w 86400 ltac:(lia)).
    pose proof (N.mod_lt v 86400 ltac:(lia)). pose proof (N.mod_lt w 86400 ltac:(lia)). nia. }
  assert (Ho : date_lt (days_after_2010 (v / 86400)) (days_after_2010 (w / 86400)) \/
               (days_after_2010 (v / 86400) = days_after_2010 (w / 86400) /\ (v mod 86400 < w mod 86400)%N)).
  { destruct Hd as [Hd|[Hd Hm]]; [left; apply after_lt, Hd|right; rewrite Hd; auto]. }
  destruct (days_after_2010 (v / 86400)) as [[y m] d]. destruct (days_after_2010 (w / 86400)) as [[y' m'] d'].
  destruct Hs as (a & b & c & e & f & g & -> & D1 & D2 & D3 & D4 & D5 & D6).
  destruct Ht as (a' & b' & c' & e' & f' & g' & -> & F1 & F2 & F3 & F4 & F5 & F6).
  assert (Ho' : y < y' \/ y = y' /\ (m < m' \/ m = m' /\ (d < d' \/ d = d' /\ (h < h' \/ h = h' /\ (mi < mi' \/ mi = mi' /\ se < se'))))).
  { destruct Ho as [Ho|[Ho Hm]]; [unfold date_lt in Ho; lia|]. injection Ho as -> -> ->. lia. }
  clear - D1 D2 D3 D4 D5 D6 F1 F2 F3 F4 F5 F6 Ho'.
  eapply field_lt; [exact D1|exact F1|]. destruct Ho' as [Ho'|[He Ho']]; [left; exact Ho'|right; split; [exact He|]].
  apply lit_lt. eapply field_lt; [exact D2|exact F2|]. clear He. destruct Ho' as [Ho'|[He Ho']]; [left; exact Ho'|right; split; [exact He|]].
  apply lit_lt. eapply field_lt; [exact D3|exact F3|]. clear He. destruct Ho' as [Ho'|[He Ho']]; [left; exact Ho'|right; split; [exact He|]].
  apply lit_lt. eapply field_lt; [exact D4|exact F4|]. clear He. destruct Ho' as [Ho'|[He Ho']]; [left; exact Ho'|right; split; [exact He|]].
  apply lit_lt. eapply field_lt; [exact D5|exact F5|]. clear He. destruct Ho' as [Ho'|[He Ho']]; [left; exact Ho'|right; split; [exact He|]].
  apply lit_lt. eapply field_lt; [exact D6|exact F6|]. left. exact Ho'.
Qed.

Lemma text_lt_irrefl a : text_lt a a = false.
Proof. induction a as [|c a IH]; [reflexivity|]. cbn [text_lt]. rewrite N.ltb_irrefl, N.eqb_refl. exact IH. Qed.
Lemma text_lt_asym a : forall b, text_lt a b = true -> text_lt b a = false.
Proof.
  induction a as [|c a IH]; intros [|c' b] H; try reflexivity; try discriminate H. cbn [text_lt] in *.
  destruct (N.ltb_spec c c') as [Hl|Hl].
  - destruct (N.ltb_spec c' c); [lia|]. destruct (N.eqb_spec c' c); [lia|reflexivity].
  - destruct (N.eqb_spec c c') as [->|]; [|discriminate H]. rewrite N.ltb_irrefl, N.eqb_refl. apply IH, H.
Qed.
