(** * CoverFacts: which bytes the two checksums protect. *)
From Coq Require Import List Lia Bool ZifyBool ZifyN ZifyNat.
From Verif Require Import GoBase Float64 Records Package Crc Spec_Crc Spec_Pkg Spec_Cover BaseFacts CrcFacts DecFacts PkgFacts.
Local Open Scope N_scope.
Local Open Scope list_scope.

Lemma burst_of_window w a b k : length a = length b -> msg_poly a <> msg_poly b ->
  (forall i, N.testbit (N.lxor (msg_poly a) (msg_poly b)) i = true -> k <= i < k + w) -> burst w a b.
Proof.
  intros Hl Hn Hw. split; [exact Hl|]. set (D := N.lxor _ _) in *.
  assert (HD : D = N.shiftl (N.shiftr D k) k).
  { apply N.bits_inj. intros i. destruct (N.lt_ge_cases i k) as [H|H].
    - rewrite N.shiftl_spec_low by exact H. destruct (N.testbit D i) eqn:Hb; [|reflexivity]. apply Hw in Hb. lia.
    - rewrite N.shiftl_spec_high' by exact H. rewrite N.shiftr_spec'. f_equal. lia. }
  exists (N.shiftr D k), k. split; [|exact HD].
  assert (H0 : N.shiftr D k <> 0).
  { intros H. rewrite H, N.shiftl_0_l in HD. unfold D in HD. apply N.lxor_eq in HD. contradiction. }
  split; [lia|]. apply N.log2_lt_pow2; [lia|].
  pose proof (N.bit_log2 _ H0) as Hb. rewrite N.shiftr_spec' in Hb. apply Hw in Hb. lia.
Qed.
Lemma window_of_burst w a b : burst w a b -> exists k, forall i,
  N.testbit (N.lxor (msg_poly a) (msg_poly b)) i = true -> k <= i < k + w.
Proof.
  intros [_ (e & k & He & ->)]. exists k. intros i Hi. destruct (N.lt_ge_cases i k) as [H|H].
  - rewrite N.shiftl_spec_low in Hi by exact H. discriminate.
  - rewrite N.shiftl_spec_high' in Hi by exact H. split; [exact H|].
    destruct (N.lt_ge_cases (i - k) w) as [H2|H2]; [lia|].
    rewrite N.bits_above_log2 in Hi; [discriminate|]. apply N.lt_le_trans with w; [|exact H2]. apply N.log2_lt_pow2; lia.
Qed.
Lemma msg_poly_inj a : forall b, bytes_ok a = true -> bytes_ok b = true -> length a = length b -> msg_poly a = msg_poly b -> a = b.
Proof.
  induction a as [|x a IH] using rev_ind; intros b Ha Hb Hl H.
  - destruct b; [reflexivity|discriminate].
  - destruct b as [|y b _] using rev_ind; [rewrite app_length in Hl; cbn in Hl; lia|].
    rewrite !app_length in Hl. cbn [length] in Hl. rewrite bytes_ok_app, andb_true_iff in Ha, Hb.
    destruct Ha as [Ha Hx], Hb as [Hb Hy]. cbn [bytes_ok forallb] in Hx, Hy. rewrite andb_true_r in Hx, Hy.
    apply byte_lt in Hx, Hy. rewrite !msg_poly_snoc in H.
    assert (x = y /\ msg_poly a = msg_poly b) as [-> Hm] by (change (2 ^ 8) with 256 in *; lia).
    rewrite (IH b Ha Hb) by (exact Hm || lia). reflexivity.
Qed.
(** the damage done by a burst to any part is a burst *)
Lemma burst_part w a m c a' m' c' : bytes_ok (m ++ c) = true -> bytes_ok (m' ++ c') = true ->
  length m = length m' -> length c = length c' -> m <> m' ->
  burst w (a ++ m ++ c) (a' ++ m' ++ c') -> burst w m m'.
Proof.
  intros Hb Hb' Hm Hc Hn Hbu. pose proof Hb as Hb0. pose proof Hb' as Hb0'.
  rewrite bytes_ok_app, andb_true_iff in Hb, Hb'. destruct Hb as [B1 B2], Hb' as [B1' B2'].
  destruct (window_of_burst _ _ _ Hbu) as [k Hk].
  apply (burst_of_window w m m' (k - 8 * N.of_nat (length c)) Hm).
  - intros H. apply Hn, msg_poly_inj; assumption.
  - intros i Hi. set (s := 8 * N.of_nat (length c)) in *.
    assert (Hlt : i < 8 * N.of_nat (length m)).
    { destruct (N.lt_ge_cases i (8 * N.of_nat (length m))) as [H|H]; [exact H|].
      rewrite N.lxor_spec in Hi. assert (forall x, x < 2 ^ (8 * N.of_nat (length m)) -> N.testbit x i = false) as Z.
      { intros x Hx. destruct (N.eq_dec x 0) as [->|H0]; [apply N.bits_0|]. apply N.bits_above_log2.
        apply N.lt_le_trans with (8 * N.of_nat (length m)); [apply N.log2_lt_pow2; lia|exact H]. }
      rewrite (Z _ (msg_poly_lt _ B1)), (Z (msg_poly m')) in Hi by (rewrite Hm; apply msg_poly_lt; exact B1'). discriminate. }
    enough (G : N.testbit (N.lxor (msg_poly (a ++ m ++ c)) (msg_poly (a' ++ m' ++ c'))) (i + s) = true) by (apply Hk in G; lia).
    rewrite (msg_poly_app a (m ++ c) Hb0), (msg_poly_app a' (m' ++ c') Hb0'), (msg_poly_app m c B2), (msg_poly_app m' c' B2').
    assert (Hz : forall x, bytes_ok x = true -> length x = length c -> N.testbit (msg_poly x) (i + s) = false).
    { intros x Hx Hlx. pose proof (msg_poly_lt _ Hx) as L. rewrite Hlx in L. fold s in L.
      destruct (N.eq_dec (msg_poly x) 0) as [->|H0]; [apply N.bits_0|]. apply N.bits_above_log2.
      apply N.lt_le_trans with s; [apply N.log2_lt_pow2; lia|lia]. }
    rewrite !N.lxor_spec, (Hz c B2 eq_refl), (Hz c' B2' (eq_sym Hc)), !xorb_false_r.
    rewrite <- Hc. fold s. rewrite !(N.shiftl_spec_high' _ s) by lia. replace (i + s - s) with i by lia.
    rewrite !app_length, <- Hm, <- Hc. rewrite !N.shiftl_spec_low by (unfold s; lia). rewrite !xorb_false_l.
    rewrite <- N.lxor_spec. exact Hi.
Qed.

Lemma nth_ext0 (a b : bytes) : length a = length b -> (forall i, nth i a 0 = nth i b 0) -> a = b.
Proof. intros Hl H. apply (nth_ext a b 0 0 Hl). intros n _. apply H. Qed.
Lemma nth_firstn_ (l : bytes) n i : (i < n)%nat -> nth i (firstn n l) 0 = nth i l 0.
Proof. revert n i. induction l as [|x l IH]; intros [|n] [|i] H; try reflexivity; try lia. cbn. apply IH. lia. Qed.
Lemma nth_skipn_ (l : bytes) n i : nth i (skipn n l) 0 = nth (n + i) l 0.
Proof. revert n. induction l as [|x l IH]; intros [|n]; try reflexivity; [destruct i; reflexivity|]. cbn. apply IH. Qed.
Lemma area_length m i n : i + n <= blen m -> length (area m i n) = N.to_nat n.
Proof. intros H. unfold area, blen in *. rewrite firstn_length, skipn_length. lia. Qed.
Lemma area_nth m i n j : (j < N.to_nat n)%nat -> nth j (area m i n) 0 = nth (N.to_nat i + j) m 0.
Proof. intros H. unfold area. rewrite nth_firstn_ by exact H. apply nth_skipn_. Qed.
Lemma area_split m i n : i + n <= blen m ->
  m = firstn (N.to_nat i) m ++ area m i n ++ skipn (N.to_nat (i + n)) m.
Proof.
  intros H. unfold area. rewrite <- (firstn_skipn (N.to_nat i) m) at 1. f_equal.
  rewrite <- (firstn_skipn (N.to_nat n) (skipn (N.to_nat i) m)) at 1. f_equal. rewrite skipn_skipn_. f_equal. lia.
Qed.
(** damage by a burst: the area is damaged by a burst, or unchanged *)
Lemma area_burst w m m' i n : bytes_ok m = true -> bytes_ok m' = true -> burst w m m' -> i + n <= blen m ->
  area m i n = area m' i n \/ burst w (area m i n) (area m' i n).
Proof.
  intros Hb Hb' Hbu Hn. assert (Hl : length m = length m') by apply Hbu.
  assert (Hn' : i + n <= blen m') by (unfold blen in *; lia).
  destruct (list_eq_dec N.eq_dec (area m i n) (area m' i n)) as [He|He]; [left; exact He|right].
  rewrite (area_split m i n Hn), (area_split m' i n Hn') in Hbu.
  rewrite (area_split m i n Hn), bytes_ok_app, andb_true_iff in Hb. rewrite (area_split m' i n Hn'), bytes_ok_app, andb_true_iff in Hb'.
  apply (burst_part _ _ _ _ _ _ _ (proj2 Hb) (proj2 Hb')) in Hbu; [exact Hbu| | |exact He].
  - rewrite !area_length by assumption. reflexivity.
  - rewrite !skipn_length. lia.
Qed.
Lemma area_ok m i n : bytes_ok m = true -> i + n <= blen m -> bytes_ok (area m i n) = true.
Proof. intros Hb Hn. rewrite (area_split m i n Hn), !bytes_ok_app, !andb_true_iff in Hb. tauto. Qed.

Section Cover.
Context {E : go_env}.

Lemma unnoticed p q b b' spare p' e w :
  bytes_ok (b ++ spare) = true -> bytes_ok b' = true ->
  pkg_decode p (mkSlice b spare) = (p', DRet 0 e) ->
  burst w b b' -> same_control b b' ->
  w <= 8 \/ w <= 16 /\ (forall i, in_header_area (decl_hl b) i -> byte_at b' i = byte_at b i) ->
  ((exists q', pkg_decode q (mkSlice b' spare) = (q', DRet 0 false)) <->
   (forall i, protected (decl_hl b) (decl_fdl b) i -> byte_at b' i = byte_at b i) /\
   exists f, frame_decode (byte_at b 9) (frame_of b') = Ok f).
Proof.
  intros Hbs Hb' Hd Hbu (Hr & Hhl & Hfdl & Hpt & Hhcs & Hsf) Hw.
  pose proof Hbs as Hb. rewrite bytes_ok_app, andb_true_iff in Hb. destruct Hb as [Hb Hs].
  assert (Hbs' : bytes_ok (b' ++ spare) = true) by (rewrite bytes_ok_app, Hb', Hs; reflexivity).
  apply accept_iff in Hd; [|exact Hb]. destruct Hd as (_ & f & (A1 & A2 & A3 & A4 & A5 & A6 & A7 & A8) & _).
  assert (Hl : length b = length b') by apply Hbu.
  assert (Hbm : burst w (b ++ spare) (b' ++ spare)) by (apply (burst_context w [] b b' spare); assumption).
  assert (Hfp : frame_pos b' = frame_pos b) by (unfold frame_pos, hcs_pos; rewrite Hr; reflexivity).
  assert (Hhp : hcs_pos b' = hcs_pos b) by (unfold hcs_pos; rewrite Hr; reflexivity).
  assert (Hbl : blen (b' ++ spare) = blen (b ++ spare)) by (unfold blen; rewrite !app_length; lia).
  assert (Hu : u8 (decl_hl b + 255) = (decl_hl b + 255) mod 256) by reflexivity.
  assert (Hcov : forall i, (forall j, (j < length b)%nat -> j = i -> byte_at b' j = byte_at b j) -> nth i (b' ++ spare) 0 = nth i (b ++ spare) 0).
  { intros i Hi. destruct (Nat.lt_ge_cases i (length b)) as [H|H].
    - rewrite !app_nth1 by lia. apply (Hi i H eq_refl).
    - rewrite !app_nth2 by lia. rewrite Hl. reflexivity. }
  assert (Harea : forall i n, (i + n <= blen (b ++ spare)) ->
    ((forall j, (N.to_nat i <= j < N.to_nat (i + n))%nat -> byte_at b' j = byte_at b j) <-> area (b' ++ spare) i n = area (b ++ spare) i n)).
  { intros i n Hn. split.
    - intros H. apply (nth_ext _ _ 0 0); [rewrite !area_length by lia; reflexivity|].
      intros j Hj. rewrite area_length in Hj by lia. rewrite !area_nth by exact Hj. apply Hcov. intros k _ ->. apply H. lia.
    - intros H j Hj. assert (G : nth (j - N.to_nat i) (area (b' ++ spare) i n) 0 = nth (j - N.to_nat i) (area (b ++ spare) i n) 0) by (rewrite H; reflexivity).
      rewrite !area_nth in G by lia. replace (N.to_nat i + (j - N.to_nat i))%nat with j in G by lia.
      unfold byte_at. destruct (Nat.lt_ge_cases j (length b)) as [Hj2|Hj2]; [rewrite !app_nth1 in G by lia; exact G|].
      rewrite !nth_overflow by lia. reflexivity. }
  split.
  - intros (q' & Hq). apply accept_iff in Hq; [|exact Hb']. destruct Hq as (_ & f' & (B1 & B2 & B3 & B4 & B5 & B6 & B7 & B8) & _).
    rewrite Hhl, Hhp, Hhcs, Hpt, ?Hfdl in *. rewrite Hsf in B8. rewrite A3 in B3. rewrite A8 in B8.
    assert (Hn1 : 0 + u8 (decl_hl b + 255) <= blen (b ++ spare)) by lia.
    split; [|exists f'; exact B5]. intros i [Hi|Hi].
    + destruct Hw as [Hw|[_ Hw]]; [|exact (Hw i Hi)].
      destruct (area_burst w (b ++ spare) (b' ++ spare) 0 (u8 (decl_hl b + 255)) Hbs Hbs' Hbm Hn1) as [He|He].
      * apply (proj2 (Harea 0 (u8 (decl_hl b + 255)) Hn1)); [symmetry; exact He|]. unfold in_header_area in Hi. rewrite Hu. lia.
      * exfalso. apply (burst_weaken w 8) in He; [|exact Hw]. revert B3. apply crc8_burst; [apply area_ok; assumption|apply area_ok; [assumption|lia]|exact He].
    + destruct (area_burst w (b ++ spare) (b' ++ spare) (decl_hl b) (decl_fdl b) Hbs Hbs' Hbm A7) as [He|He].
      * apply (proj2 (Harea (decl_hl b) (decl_fdl b) A7)); [symmetry; exact He|]. unfold in_frame_area in Hi. lia.
      * exfalso. apply (burst_weaken w 16) in He; [|lia]. revert B8. apply crc16_burst; [apply area_ok; assumption|apply area_ok; [assumption|lia]|exact He].
  - intros [Hp (f' & Hf)]. assert (Hn1 : 0 + u8 (decl_hl b + 255) <= blen (b ++ spare)) by lia.
    exists (final_of q b' f'). apply accept_iff; [exact Hb'|]. split; [reflexivity|]. exists f'. split; [|reflexivity].
    unfold accepted. cbv zeta. rewrite Hhl, Hhp, Hhcs, Hpt, Hfdl, Hsf, Hfp, Hbl, <- Hl.
    rewrite (proj1 (Harea 0 _ Hn1)), (proj1 (Harea _ _ A7)).
    + repeat split; assumption.
    + intros j Hj. apply Hp. right. unfold in_frame_area. lia.
    + intros j Hj. apply Hp. left. unfold in_header_area. rewrite <- Hu. lia.
Qed.
End Cover.
