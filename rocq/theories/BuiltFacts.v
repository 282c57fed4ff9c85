(** * BuiltFacts: when ToBytes fails, for any package a program builds. *)
From Coq Require Import Floats.SpecFloat String List ZArith Lia Bool.
From Verif Require Import GoBase Float64 SubRecords Records Package Storage Json PkgJson
  Spec_Float Spec_Calendar Spec_PkgJson CalendarFacts JsonFacts.
Import ListNotations.
Open Scope Z_scope.

Definition year (x : date) : Z := fst (fst x).
Lemma next_year x : year x <= year (next_day x).
Proof. destruct x as [[y m] d]. unfold next_day, year. destruct (_ <? _); [cbn; lia|]. destruct (_ <? _); cbn; lia. Qed.
Lemma civil_iter n z : civil_of_days (z + Z.of_N n) = N.iter n next_day (civil_of_days z).
Proof.
  induction n as [|n IH] using N.peano_ind; [cbn; f_equal; lia|].
  rewrite N.iter_succ, <- IH, <- civil_succ. f_equal. lia.
Qed.
Lemma year_mono a b : a <= b -> year (civil_of_days a) <= year (civil_of_days b).
Proof.
  intros H. replace b with (a + Z.of_N (Z.to_N (b - a))) by lia. generalize (Z.to_N (b - a)). intros n.
  induction n as [|n IH] using N.peano_ind; [replace (a + Z.of_N 0) with a by lia; lia|].
  replace (a + Z.of_N (N.succ n)) with (a + Z.of_N n + 1) by lia. rewrite civil_succ. pose proof (next_year (civil_of_days (a + Z.of_N n))). lia.
Qed.
Lemma year_range_iff d : 0 <= year (civil_of_days d) <= 9999 <-> -719528 <= d < 2932897.
Proof.
  assert (A : year (civil_of_days (-719529)) = -1) by reflexivity. assert (B : year (civil_of_days (-719528)) = 0) by reflexivity.
  assert (C : year (civil_of_days 2932896) = 9999) by reflexivity. assert (D : year (civil_of_days 2932897) = 10000) by reflexivity.
  split.
  - intros H. split.
    + destruct (Z_le_gt_dec (-719528) d); [assumption|]. pose proof (year_mono d (-719529)). lia.
    + destruct (Z_lt_ge_dec d 2932897); [assumption|]. pose proof (year_mono 2932897 d). lia.
  - intros H. pose proof (year_mono (-719528) d). pose proof (year_mono d 2932896). lia.
Qed.
Lemma calendar_0_2010 : N.iter 734138 next_day (0, 1, 1) = (2010, 1, 1).
Proof. change (0, 1, 1) with (civil_of_days (-719528)). rewrite <- civil_iter. reflexivity. Qed.
Lemma calendar_2010_10000 : N.iter 2918287 next_day (2010, 1, 1) = (10000, 1, 1).
Proof. change (2010, 1, 1) with (civil_of_days 14610). rewrite <- civil_iter. reflexivity. Qed.

Lemma json_time_none t : json_time t = None <-> ~ in_calendar t.
Proof.
  unfold json_time. destruct (civil_of_days (unix_of t / 86400)) as [[y m] d] eqn:Hc.
  assert (Hy : year (civil_of_days (unix_of t / 86400)) = y) by (rewrite Hc; reflexivity).
  pose proof (year_range_iff (unix_of t / 86400)) as R. rewrite Hy in R.
  assert (K : -719528 <= unix_of t / 86400 < 2932897 <-> in_calendar t).
  { unfold in_calendar, unix_of, unix_2010. Z.to_euclidean_division_equations. lia. }
  destruct (0 <=? y) eqn:E1, (y <=? 9999) eqn:E2; cbn [andb]; apply Z.leb_le in E1 || apply Z.leb_gt in E1;
    apply Z.leb_le in E2 || apply Z.leb_gt in E2; (split; [intros H; try discriminate H; intros G; apply K in G; lia|intros H; try reflexivity]); exfalso; apply H, K, R; lia.
Qed.

Lemma all_some_none_iff {A} (l : list (option A)) : all_some l = None <-> In None l.
Proof.
  induction l as [|[x|] l IH]; cbn [all_some In].
  - split; [discriminate|intros []].
  - destruct (all_some l).
    + split; [discriminate|]. intros [H|H]; [discriminate|]. apply IH in H. discriminate.
    + split; [intros _; right; apply IH; reflexivity|reflexivity].
  - split; [left; reflexivity|reflexivity].
Qed.
Lemma json_float_none ft x : json_float ft x = None <-> ~ finite x.
Proof. unfold finite. destruct x; cbn; split; intros H; try discriminate H; try reflexivity; try discriminate; exfalso; apply H; reflexivity. Qed.

Section Built.
Context {E : go_env}.
Variable ft : f64 -> gostr.
Variable pj : pb_msg -> option gostr.
Definition unwritable (d : srdata) : Prop :=
  (exists m, d = SRPlus m /\ pj m = None) \/
  (exists e, d = SRPos e /\ (~ finite (Latitude e) \/ ~ finite (Longitude e) \/ ~ in_calendar (NavigationTime e))).
Lemma json_sr_none d : json_sr ft pj d = None <-> unwritable d.
Proof.
  unfold unwritable. destruct d;
    try (cbn [json_sr]; split; [discriminate|intros [(m' & H & _)|(e' & H & _)]; discriminate H]).
  - cbn [json_sr]. unfold json_pos. pose proof (json_float_none ft (Latitude e)) as F1. pose proof (json_float_none ft (Longitude e)) as F2.
    pose proof (json_time_none (NavigationTime e)) as F3. split.
    + intros H. right. exists e. split; [reflexivity|]. destruct (json_time _); [|right; right; apply F3; reflexivity].
      destruct (json_float ft (Latitude e)); [|left; apply F1; reflexivity].
      destruct (json_float ft (Longitude e)); [discriminate H|right; left; apply F2; reflexivity].
    + intros [(m' & H & _)|(e' & H & D)]; [discriminate H|]. injection H as <-. destruct D as [D|[D|D]].
      * apply F1 in D. rewrite D. destruct (json_time _); reflexivity.
      * apply F2 in D. rewrite D. destruct (json_time _), (json_float ft (Latitude e)); reflexivity.
      * apply F3 in D. rewrite D. reflexivity.
  - cbn [json_sr]. split; [intros H; left; eauto|]. intros [(m' & H & D)|(e' & H & _)]; [|discriminate H]. injection H as <-. exact D.
Qed.
Lemma json_rd_none rd : json_rd ft pj rd = None <-> unwritable (SRD rd).
Proof. unfold json_rd. rewrite <- json_sr_none. destruct (json_sr ft pj (SRD rd)); [split; discriminate|tauto]. Qed.
Lemma json_sdr_none b s : json_sdr ft pj b s = None <-> exists rd, In rd (RD s) /\ unwritable (SRD rd).
Proof.
  unfold json_sdr. assert (K : all_some (map (json_rd ft pj) (RD s)) = None <-> exists rd, In rd (RD s) /\ unwritable (SRD rd)).
  { rewrite all_some_none_iff, in_map_iff. split; intros (rd & H1 & H2).
    - exists rd. split; [exact H2|]. apply json_rd_none. exact H1.
    - exists rd. split; [|exact H1]. apply json_rd_none. exact H2. }
  rewrite <- K. destruct (all_some _); [split; discriminate|tauto].
Qed.
Lemma json_sds_none l : json_sds ft pj l = None <-> exists s rd, In s l /\ In rd (RD s) /\ unwritable (SRD rd).
Proof.
  unfold json_sds. assert (K : all_some (json_sdrs ft pj l) = None <-> exists s rd, In s l /\ In rd (RD s) /\ unwritable (SRD rd)).
  { rewrite all_some_none_iff. induction l as [|s l IH]; cbn [json_sdrs In]; [split; [intros []|intros (s & rd & [] & _)]|].
    rewrite IH, json_sdr_none. split.
    - intros [(rd & H)|(s' & rd & H1 & H2)]; [exists s, rd; tauto|exists s', rd; tauto].
    - intros (s' & rd & [<-|H1] & H2); [left; exists rd; tauto|right; exists s', rd; tauto]. }
  rewrite <- K. destruct (all_some _); [split; discriminate|tauto].
Qed.
Lemma built_none p : pkg_to_bytes ft pj p = None <-> exists s rd, In s (records p) /\ In rd (RD s) /\ unwritable (SRD rd).
Proof.
  unfold pkg_to_bytes, records. destruct (pSFRD p) as [[l|r]|]; cbn [json_frame].
  - rewrite <- json_sds_none. destruct (json_sds ft pj l); [split; discriminate|tauto].
  - destruct (SDRS r) as [l|]; [rewrite <- json_sds_none; destruct (json_sds ft pj l); [split; discriminate|tauto]|].
    split; [discriminate|]. intros (s & rd & [] & _).
  - split; [discriminate|]. intros (s & rd & [] & _).
Qed.
End Built.
