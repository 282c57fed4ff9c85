(** * BurstFacts: bursts that touch the message, its checksum, or both. *)
From Coq Require Import Lia.
From Verif Require Import GoBase Crc Float64 SubRecords Records Package
  Spec_Bits Spec_Wf Spec_Rec Spec_Crc Spec_Pkg BaseFacts CrcFacts SubFacts RecFacts DecFacts
  PkgFacts PkgFacts2 TruncFacts Spec_Damage.

Lemma msg_poly_inj a b : length a = length b -> bytes_ok a = true -> bytes_ok b = true ->
  msg_poly a = msg_poly b -> a = b.
Proof.
  revert b. induction a as [|x a IH] using rev_ind; intros b Hl Ha Hb H.
  - destruct b; [reflexivity | discriminate Hl].
  - destruct b as [|y b _] using rev_ind; [rewrite app_length in Hl; cbn in Hl; lia|].
    rewrite !app_length in Hl. cbn [length] in Hl. rewrite !bytes_ok_app in Ha, Hb.
    apply andb_prop in Ha, Hb. destruct Ha as [Ha Hx]. destruct Hb as [Hb Hy].
    cbn [bytes_ok forallb] in Hx, Hy. rewrite andb_true_r in Hx, Hy.
    apply byte_lt in Hx, Hy. change (2 ^ 8) with 256 in *.
    rewrite !msg_poly_snoc in H.
    assert (x = y /\ msg_poly a = msg_poly b) as [-> Hm] by lia.
    f_equal. apply IH; [lia | assumption..].
Qed.

Lemma shiftr_lt_0 a n : a < 2 ^ n -> N.shiftr a n = 0.
Proof. intro H. rewrite N.shiftr_div_pow2. apply N.div_small. exact H. Qed.

Section Split.
Variables (a s a' s' : bytes).
Hypotheses (Ha : bytes_ok a = true) (Ha' : bytes_ok a' = true)
  (Hs : bytes_ok s = true) (Hs' : bytes_ok s' = true) (Hl : length a = length a').

Let n := 8 * N.of_nat (length s).

Lemma split_poly : length s = length s' ->
  N.lxor (msg_poly (a ++ s)) (msg_poly (a' ++ s')) =
  N.lxor (N.shiftl (N.lxor (msg_poly a) (msg_poly a')) n) (N.lxor (msg_poly s) (msg_poly s')).
Proof.
  intro Hls. rewrite !msg_poly_app by assumption. rewrite <- Hls. fold n.
  rewrite N.shiftl_lxor. rewrite lxor_swap. reflexivity.
Qed.

Lemma burst_lens w : burst w (a ++ s) (a' ++ s') -> length s = length s'.
Proof. intros [H _]. rewrite !app_length in H. lia. Qed.

Lemma burst_head w : burst w (a ++ s) (a' ++ s') -> a = a' \/ burst w a a'.
Proof.
  intros Hb. pose proof (burst_lens w Hb) as Hls. destruct Hb as [_ (e & k & He & HX)].
  rewrite split_poly in HX by exact Hls.
  assert (N.lxor (msg_poly a) (msg_poly a') = N.shiftr (N.shiftl e k) n) as HD.
  { rewrite <- HX. rewrite N.shiftr_lxor. rewrite N.shiftr_shiftl_l by lia.
    rewrite N.sub_diag, N.shiftl_0_r. rewrite (shiftr_lt_0 (N.lxor _ _)).
    - rewrite N.lxor_0_r. reflexivity.
    - apply lxor_lt_pow2.
      + apply msg_poly_lt. exact Hs.
      + unfold n. rewrite Hls. apply msg_poly_lt. exact Hs'. }
  destruct (N.eq_dec (N.lxor (msg_poly a) (msg_poly a')) 0) as [H0|H0].
  - left. apply N.lxor_eq in H0. apply msg_poly_inj; assumption.
  - right. split; [exact Hl|]. destruct (N.le_gt_cases n k) as [Hk|Hk].
    + exists e, (k - n). split; [exact He|]. rewrite HD. apply N.shiftr_shiftl_l. exact Hk.
    + exists (N.shiftr e (n - k)), 0. rewrite N.shiftl_0_r.
      rewrite N.shiftr_shiftl_r in HD by lia. split; [|exact HD]. split.
      * rewrite <- HD. lia.
      * rewrite N.shiftr_div_pow2. eapply N.le_lt_trans; [|apply He].
        apply N.div_le_upper_bound; [apply N.pow_nonzero; lia|].
        assert (2 ^ (n - k) <> 0) by (apply N.pow_nonzero; lia). nia.
Qed.
End Split.

Lemma burst_tail w a s s' : bytes_ok a = true -> bytes_ok s = true -> bytes_ok s' = true ->
  burst w (a ++ s) (a ++ s') -> burst w s s'.
Proof.
  intros Ha Hs Hs' Hb. pose proof (burst_lens a s a s' eq_refl w Hb) as Hls.
  destruct Hb as [_ (e & k & He & HX)].
  rewrite split_poly in HX by assumption.
  rewrite N.lxor_nilpotent, N.shiftl_0_l, N.lxor_0_l in HX.
  split; [exact Hls|]. exists e, k. split; assumption.
Qed.

(** a nonzero burst narrower than the polynomial is no multiple of it *)
Lemma lxor_cong_0 g a b : pcong g a b -> pcong g (N.lxor a b) 0.
Proof. intros [q Hq]. exists q. rewrite N.lxor_0_r. exact Hq. Qed.

Lemma crc8_codeword pre pre' c c' : length pre = length pre' ->
  bytes_ok pre = true -> bytes_ok pre' = true -> c = crc8 pre -> c' = crc8 pre' ->
  ~ burst 8 (pre ++ [c]) (pre' ++ [c']).
Proof.
  intros Hl Hp Hp' -> -> [_ (e & k & He & HX)].
  destruct (crc8_cong _ Hp) as [Hc1 Hg1]. destruct (crc8_cong _ Hp') as [Hc2 Hg2].
  assert (forall x : N, x < 2 ^ 8 -> bytes_ok [x] = true) as Hone.
  { intros x Hx. cbn [bytes_ok forallb]. rewrite andb_true_r. unfold byte_ok.
    apply N.ltb_lt. exact Hx. }
  rewrite !msg_poly_app in HX by (apply Hone; assumption).
  cbn [length] in HX. change (8 * N.of_nat 1) with 8 in HX.
  assert (forall x : N, msg_poly [x] = x) as Hm1 by (intro x; unfold msg_poly; cbn [fold_left]; lia).
  rewrite !Hm1 in HX.
  refine (burst_not_cong 8 poly8 _ _ e k 0 _ eq_refl He HX _).
  - split; vm_compute; [discriminate | reflexivity].
  - rewrite !N.shiftl_0_r.
    assert (forall d c, pcong poly8 c (crc_dividend 8 0xFF d) ->
      pcong poly8 (N.lxor (N.shiftl (msg_poly d) 8) c) (N.shiftl 0xFF (8 * N.of_nat (length d)))) as Hres.
    { intros d x Hx. unfold crc_dividend in Hx.
      eapply pcong_trans; [apply pcong_lxor; [apply pcong_refl | exact Hx]|].
      rewrite (N.lxor_comm (N.shiftl 255 _)). rewrite <- N.lxor_assoc, N.lxor_nilpotent, N.lxor_0_l.
      apply pcong_refl. }
    eapply pcong_trans; [exact (Hres _ _ Hg1)|]. rewrite Hl. apply pcong_sym. exact (Hres _ _ Hg2).
Qed.

(** ** The body checksum, which is sent low byte first *)

(** the change of the checksum under a change [d] < 2^16 at the end of the body *)
Definition crc_change (d : N) : N := Nat.iter 16 crc16_shift d.
(** the order of the two bytes on the wire *)
Definition swap16 (v : N) : N := 256 * (v mod 256) + v / 256.
(** the change [d] of the body and the change of the checksum it causes do not
    fit a window of 12 bits that begins inside the checksum *)
Definition straddle_ok (d : N) : bool :=
  let x := 65536 * d + swap16 (crc_change d) in
  forallb (fun k => negb (x mod 2 ^ k =? 0) || (4096 <=? x / 2 ^ k)) (map N.of_nat (seq 0 16)).

Lemma straddle_sweep : forallb straddle_ok (map N.of_nat (seq 1 2047)) = true.
Proof. vm_compute. reflexivity. Qed.

Lemma crc16_change body body' : bytes_ok body = true -> bytes_ok body' = true -> length body = length body' ->
  N.lxor (msg_poly body) (msg_poly body') < 2 ^ 16 ->
  N.lxor (crc16 body) (crc16 body') = crc_change (N.lxor (msg_poly body) (msg_poly body')).
Proof.
  intros Hb Hb' Hl Hd. set (d := N.lxor (msg_poly body) (msg_poly body')) in *.
  destruct (crc16_cong _ Hb) as [Hc1 Hg1]. destruct (crc16_cong _ Hb') as [Hc2 Hg2].
  destruct (iter_shift_cong 16 poly16 crc16_shift crc16_shift_cong 16 d Hd) as [Hi Hg3].
  replace (N.of_nat 16) with 16 in Hg3 by reflexivity. unfold crc_change.
  apply (pcong_small 16 poly16); [split; vm_compute; [discriminate|reflexivity] | apply lxor_lt_pow2; assumption | exact Hi |].
  eapply pcong_trans; [apply pcong_lxor; [exact Hg1 | exact Hg2]|].
  unfold crc_dividend. rewrite <- Hl. rewrite lxor_swap, N.lxor_nilpotent, N.lxor_0_l.
  rewrite <- N.shiftl_lxor. fold d. apply pcong_sym. exact Hg3.
Qed.

Lemma swap16_lxor a b : a < 2 ^ 16 -> b < 2 ^ 16 -> swap16 (N.lxor a b) = N.lxor (swap16 a) (swap16 b).
Proof.
  intros Ha Hb. change (2 ^ 16) with 65536 in *. unfold swap16.
  assert (forall v, v < 65536 -> 256 * (v mod 256) + v / 256 = N.lxor (N.shiftl (v mod 2 ^ 8) 8) (N.shiftr v 8)) as Hs.
  { intros v Hv. rewrite N.shiftr_div_pow2. change (2 ^ 8) with 256.
    rewrite shiftl8_add; [reflexivity|]. change (2 ^ 8) with 256. apply N.div_lt_upper_bound; lia. }
  assert (N.lxor a b < 65536) as Hab by (change 65536 with (2 ^ 16); apply lxor_lt_pow2; assumption).
  rewrite !Hs by assumption. rewrite <- !N.land_ones.
  rewrite N.shiftr_lxor.
  replace (N.land (N.lxor a b) (N.ones 8)) with (N.lxor (N.land a (N.ones 8)) (N.land b (N.ones 8))).
  - rewrite N.shiftl_lxor. apply lxor_swap.
  - apply N.bits_inj. intro i. rewrite N.land_spec, !N.lxor_spec, !N.land_spec.
    destruct (N.testbit a i), (N.testbit b i), (N.testbit (N.ones 8) i); reflexivity.
Qed.

Lemma msg_two x y : msg_poly [x; y] = 256 * x + y.
Proof. unfold msg_poly. cbn [fold_left]. lia. Qed.

Lemma swap_word x y : x < 256 -> y < 256 -> swap16 (x + 256 * y) = 256 * x + y.
Proof.
  intros Hx Hy. unfold swap16. rewrite (N.mul_comm 256 y).
  rewrite N.mod_add, N.mod_small by lia. rewrite N.div_add, (N.div_small x) by lia. lia.
Qed.

Lemma swap_lt v : v < 2 ^ 16 -> swap16 v < 2 ^ 16.
Proof.
  intro H. change (2 ^ 16) with 65536 in *. unfold swap16.
  pose proof (N.mod_lt v 256 ltac:(lia)). assert (v / 256 < 256) by (apply N.div_lt_upper_bound; lia). lia.
Qed.

Lemma crc16_tail12 body body' x y x' y' :
  bytes_ok body = true -> bytes_ok body' = true -> bytes_ok [x; y] = true -> bytes_ok [x'; y'] = true ->
  length body = length body' -> x + 256 * y = crc16 body -> x' + 256 * y' = crc16 body' ->
  ~ burst 12 (body ++ [x; y]) (body' ++ [x'; y']).
Proof.
  intros Hb Hb' Hx Hx' Hl Hc Hc' Hburst.
  destruct (burst_head body [x; y] body' [x'; y'] Hb Hb' Hx Hx' Hl 12 Hburst) as [Heq|Hbb].
  - (* the body is intact, so is its checksum *)
    subst body'. rewrite <- Hc in Hc'.
    apply (burst_tail 12) in Hburst; try assumption. destruct Hburst as [_ (e & k & He & HX)].
    rewrite !msg_two in HX.
    cbn [bytes_ok forallb] in Hx, Hx'. unfold byte_ok in Hx, Hx'.
    apply andb_prop in Hx, Hx'. destruct Hx as [Hx Hy]. destruct Hx' as [Hx' Hy'].
    rewrite andb_true_r in Hy, Hy'. apply N.ltb_lt in Hx, Hy, Hx', Hy'.
    assert (x' = x /\ y' = y) as [-> ->] by lia.
    rewrite N.lxor_nilpotent in HX. symmetry in HX. apply N.shiftl_eq_0_iff in HX. lia.
  - assert (crc16 body <> crc16 body') as Hne
      by (apply crc16_burst; [assumption..|]; apply (burst_weaken 12); [lia|exact Hbb]).
    destruct Hburst as [_ (e & k & He & HX)].
    pose proof (crc16_lt _ Hb) as Hcl. pose proof (crc16_lt _ Hb') as Hcl'.
    rewrite split_poly in HX by (assumption || reflexivity).
    cbn [length] in HX. change (8 * N.of_nat 2) with 16 in HX.
    rewrite !msg_two in HX.
    cbn [bytes_ok forallb] in Hx, Hx'. unfold byte_ok in Hx, Hx'.
    apply andb_prop in Hx, Hx'. destruct Hx as [Hx Hy]. destruct Hx' as [Hx' Hy'].
    rewrite andb_true_r in Hy, Hy'. apply N.ltb_lt in Hx, Hy, Hx', Hy'.
    rewrite <- (swap_word x y), <- (swap_word x' y') in HX by assumption.
    rewrite Hc, Hc' in HX. rewrite <- swap16_lxor in HX by assumption.
    set (d := N.lxor (msg_poly body) (msg_poly body')) in *.
    set (v := N.lxor (crc16 body) (crc16 body')) in *.
    assert (v <> 0) as Hv0 by (intro H0; apply N.lxor_eq in H0; contradiction).
    assert (v < 2 ^ 16) as Hv by (apply lxor_lt_pow2; assumption).
    pose proof (swap_lt _ Hv) as Hsv.
    assert (swap16 v <> 0) as Hs0.
    { unfold swap16. intro H0. apply Hv0. rewrite (N.div_mod v 256) by lia. lia. }
    rewrite <- add_disjoint_lxor in HX by exact Hsv. rewrite N.shiftl_mul_pow2 in HX.
    (* the burst begins inside the checksum *)
    assert (k < 16) as Hk.
    { destruct (N.lt_ge_cases k 16) as [|Hk]; [assumption|]. exfalso.
      rewrite N.shiftl_mul_pow2 in HX. replace k with ((k - 16) + 16) in HX by lia.
      rewrite N.pow_add_r in HX. change (2 ^ 16) with 65536 in *.
      assert (swap16 v = (e * 2 ^ (k - 16) - d) * 65536) by (rewrite N.mul_sub_distr_r; lia). nia. }
    rewrite N.shiftl_mul_pow2 in HX.
    assert (d < 2 ^ 11) as Hd.
    { change (2 ^ 12) with 4096 in He. change (2 ^ 16) with 65536 in *. change (2 ^ 11) with 2048.
      assert (2 ^ k <= 2 ^ 15) as Hp by (apply N.pow_le_mono_r; lia). change (2 ^ 15) with 32768 in Hp. nia. }
    assert (d <> 0) as Hd0.
    { intro H0. apply N.lxor_eq in H0. apply msg_poly_inj in H0; [|assumption..]. subst body'. apply Hne. reflexivity. }
    assert (v = crc_change d) as Hvd.
    { apply crc16_change; [assumption..|]. fold d. change (2 ^ 11) with 2048 in Hd. change (2 ^ 16) with 65536. lia. }
    pose proof straddle_sweep as Hsw. rewrite forallb_forall in Hsw.
    assert (straddle_ok d = true) as Hok.
    { apply Hsw. rewrite <- (N2Nat.id d). apply in_map. apply in_seq. change (2 ^ 11) with 2048 in Hd. lia. }
    unfold straddle_ok in Hok. rewrite <- Hvd in Hok. rewrite forallb_forall in Hok.
    specialize (Hok k).
    assert (In k (map N.of_nat (seq 0 16))) as Hin.
    { rewrite <- (N2Nat.id k). apply in_map. apply in_seq. lia. }
    specialize (Hok Hin). change (2 ^ 16) with 65536 in HX.
    rewrite (N.mul_comm 65536 d) in Hok. rewrite HX in Hok.
    rewrite N.mod_mul in Hok by (apply N.pow_nonzero; lia).
    rewrite N.div_mul in Hok by (apply N.pow_nonzero; lia).
    change (2 ^ 12) with 4096 in He.
    cbn [N.eqb negb orb] in Hok. apply N.leb_le in Hok. lia.
Qed.

(** ** Packets *)
Section Packets.
Context {E : go_env}.

Lemma whole_split b : whole b -> exists pre c body x y,
  b = (pre ++ [c]) ++ body ++ [x; y] /\ length pre = hcs_pos b /\ length body = N.to_nat (decl_fdl b).
Proof.
  intros [_ Hl]. pose proof (hcs_pos_ge b) as Hg. unfold frame_pos in Hl.
  destruct (split_len b (hcs_pos b) (S (N.to_nat (decl_fdl b) + 2))) as (pre & r & Hb & Hp & Hr); [lia|].
  destruct r as [|c r]; [discriminate Hr|]. cbn [length] in Hr.
  destruct (split_len r (N.to_nat (decl_fdl b)) 2) as (body & s & Hr' & Hbody & Hs); [lia|].
  destruct s as [|x [|y [|z s]]]; try discriminate Hs.
  exists pre, c, body, x, y. split; [|split; assumption].
  rewrite Hb, Hr'. rewrite <- app_assoc. reflexivity.
Qed.

Lemma not_accepted_refused p b spare : bytes_ok b = true ->
  1 <= decl_hl b <= std_hl b -> decl_hl b + decl_fdl b < 2 ^ 16 ->
  (forall p' e, pkg_decode p (mkSlice b spare) <> (p', DRet 0 e)) -> refused p b spare.
Proof.
  intros Hok Hhl Hsum Hn. destruct (pkg_decode p (mkSlice b spare)) as [p' out] eqn:Hd.
  pose proof (decode_out p b spare Hok) as Ho. rewrite Hd in Ho. cbn [snd] in Ho.
  pose proof (no_panic p b spare Hok Hhl Hsum) as Hnp. rewrite Hd in Hnp. cbn [snd] in Hnp.
  pose proof (decode_no_fuel p b spare Hok) as Hnf. rewrite Hd in Hnf. cbn [snd] in Hnf.
  destruct out as [code e| |]; [|congruence|congruence].
  exists p', code. 
  assert (code <> 0) as Hc by (intros ->; eapply Hn; reflexivity).
  split; [|exact Hc]. destruct e; [exact Hd|]. exfalso.
  clear - Ho Hc. unfold outcome in Ho. cbv zeta in Ho.
  repeat match type of Ho with context [if ?c then _ else _] => destruct c; try discriminate Ho end.
  all: destruct (frame_decode (byte_at b 9) (frame_read b)); cbn [ares] in Ho; try discriminate Ho.
  all: repeat match type of Ho with context [if ?c then _ else _] => destruct c; try discriminate Ho end.
  all: injection Ho as ->; apply Hc; reflexivity.
Qed.

(** a header whose checksum does not fit is refused with 137 *)
Lemma header_refused p b spare : bytes_ok b = true -> decl_hl b = std_hl b -> (hcs_pos b < length b)%nat ->
  byte_at b (hcs_pos b) <> crc8 (firstn (hcs_pos b) b) ->
  snd (pkg_decode p (mkSlice b spare)) = DRet 137 true.
Proof.
  intros Hok Hhl Hlen Hne. rewrite decode_out by exact Hok. unfold outcome. cbv zeta.
  rewrite (proj2 (Nat.leb_gt _ _)) by exact Hlen.
  assert (u8 (decl_hl b + 255) = N.of_nat (hcs_pos b)) as Hu.
  { rewrite Hhl. unfold std_hl, frame_pos, hcs_pos. destruct (routed b); reflexivity. }
  rewrite Hu. rewrite (proj2 (N.ltb_ge _ _)) by (unfold blen; rewrite app_length; lia).
  rewrite area_0, Nat2N.id. rewrite firstn_app. replace (hcs_pos b - length b)%nat with 0%nat by lia.
  cbn [firstn]. rewrite app_nil_r.
  destruct (N.eqb_spec (byte_at b (hcs_pos b)) (crc8 (firstn (hcs_pos b) b))); [contradiction|]. reflexivity.
Qed.

Lemma refused_137 p b spare : snd (pkg_decode p (mkSlice b spare)) = DRet 137 true -> refused p b spare.
Proof.
  destruct (pkg_decode p (mkSlice b spare)) as [p' out] eqn:H. cbn [snd]. intros ->.
  exists p', 137. split; [exact H | discriminate].
Qed.

(** accepted whole packets, in parts *)
Lemma whole_accepted p b spare p' e pre c body x y : bytes_ok b = true -> whole b ->
  b = (pre ++ [c]) ++ body ++ [x; y] -> length pre = hcs_pos b -> length body = N.to_nat (decl_fdl b) ->
  pkg_decode p (mkSlice b spare) = (p', DRet 0 e) ->
  std_packet (pre ++ [c]) body [x; y] /\ c = crc8 pre /\ x + 256 * y = crc16 body /\
  blen (pre ++ [c]) + blen body < 2 ^ 16.
Proof.
  intros Hok [Hhl _] Hb Hp Hbody Hd.
  assert (10 <= length (pre ++ [c]))%nat as H10
    by (rewrite app_length; cbn [length]; pose proof (hcs_pos_ge b); lia).
  assert (std_packet (pre ++ [c]) body [x; y]) as Hstd.
  { unfold std_packet. rewrite Hb in Hp, Hbody, Hhl.
    rewrite hcs_pos_app in Hp by exact H10. rewrite decl_fdl_app in Hbody by exact H10.
    unfold std_hl in Hhl. rewrite decl_hl_app, frame_pos_app in Hhl by exact H10.
    unfold frame_pos in *. rewrite app_length. cbn [length]. split; [lia|]. split.
    - rewrite Hhl. unfold blen. rewrite app_length. cbn [length]. lia.
    - unfold blen. rewrite Hbody. rewrite N2Nat.id. reflexivity. }
  apply accept_iff in Hd; [|exact Hok]. destruct Hd as (_ & f & Ha & _). rewrite Hb in Ha.
  apply std_accept in Ha; [|exact Hstd]. destruct Ha as (_ & H2 & H3 & _ & _ & H6).
  split; [exact Hstd|]. split; [|split; [exact H6 | exact H2]].
  assert (hcs_pos (pre ++ [c]) = length pre) as Hh.
  { rewrite Hp, Hb. symmetry. apply (hcs_pos_app (pre ++ [c])). exact H10. }
  rewrite Hh in H3. unfold byte_at in H3. rewrite app_nth2, Nat.sub_diag in H3 by lia. cbn [nth] in H3.
  rewrite firstn_app, Nat.sub_diag, firstn_all in H3. cbn [firstn] in H3. rewrite app_nil_r in H3. exact H3.
Qed.

Lemma same_len_split (b b' pre : bytes) (c : N) (body : bytes) (x y : N) : b = (pre ++ [c]) ++ body ++ [x; y] -> length b' = length b ->
  exists pre' c' body' x' y', b' = (pre' ++ [c']) ++ body' ++ [x'; y'] /\
    length pre' = length pre /\ length body' = length body.
Proof.
  intros Hb Hl. rewrite Hb in Hl. rewrite !app_length in Hl. cbn [length] in Hl.
  destruct (split_len b' (length pre) (S (length body + 2))) as (pre' & r & Hb' & Hp & Hr); [lia|].
  destruct r as [|c' r]; [discriminate Hr|]. cbn [length] in Hr.
  destruct (split_len r (length body) 2) as (body' & s & Hr' & Hbody & Hs); [lia|].
  destruct s as [|x' [|y' [|z s]]]; try discriminate Hs.
  exists pre', c', body', x', y'. split; [|split; assumption].
  rewrite Hb', Hr'. rewrite <- app_assoc. reflexivity.
Qed.

(** damage to the body or its checksum *)
Lemma tail_refused p q b spare p' e hdr body x y body' x' y' :
  bytes_ok b = true -> bytes_ok (body' ++ [x'; y']) = true ->
  b = hdr ++ body ++ [x; y] -> std_packet hdr body [x; y] ->
  x + 256 * y = crc16 body -> blen hdr + blen body < 2 ^ 16 ->
  pkg_decode p (mkSlice b spare) = (p', DRet 0 e) -> length body' = length body ->
  burst 12 (body ++ [x; y]) (body' ++ [x'; y']) ->
  refused q (hdr ++ body' ++ [x'; y']) spare.
Proof.
  intros Hok Hok' Hb Hstd Hcrc Hsum Hd Hl Hburst. pose proof (std_len _ _ _ Hstd) as HL.
  rewrite Hb in Hok. rewrite !bytes_ok_app in Hok.
  apply andb_prop in Hok. destruct Hok as [Hh Hok]. apply andb_prop in Hok. destruct Hok as [Hbody Hxy].
  assert (bytes_ok (hdr ++ body' ++ [x'; y']) = true) as Hok2
    by (rewrite bytes_ok_app, Hh; exact Hok').
  rewrite bytes_ok_app in Hok'. apply andb_prop in Hok'. destruct Hok' as [Hbody' Hxy'].
  assert (std_packet hdr body' [x'; y']) as Hstd'.
  { destruct Hstd as (A1 & A2 & A3). repeat split; try assumption. rewrite A3. unfold blen. rewrite Hl. reflexivity. }
  apply not_accepted_refused; [exact Hok2 | | |].
  - unfold std_hl. rewrite decl_hl_app, frame_pos_app by lia.
    destruct Hstd as (A1 & A2 & _). rewrite A2. unfold blen. lia.
  - rewrite decl_hl_app, decl_fdl_app by lia. destruct Hstd as (A1 & A2 & A3). rewrite A2, A3. exact Hsum.
  - intros q' e' Hq. apply accept_iff in Hq; [|exact Hok2]. destruct Hq as (_ & g & Ha & _).
    apply std_accept in Ha; [|exact Hstd']. destruct Ha as (_ & _ & _ & _ & _ & Ha).
    exact (crc16_tail12 body body' x y x' y' Hbody Hbody' Hxy Hxy' (eq_sym Hl) Hcrc Ha Hburst).
Qed.

Lemma short_burst_refused p q b b' spare p' e : bytes_ok b = true -> bytes_ok b' = true -> whole b ->
  pkg_decode p (mkSlice b spare) = (p', DRet 0 e) -> damaged 8 b b' -> refused q b' spare.
Proof.
  intros Hok Hok' Hw Hd (Hburst & Hhl & Hrt).
  destruct (whole_split b Hw) as (pre & c & body & x & y & Hb & Hp & Hbody).
  destruct (whole_accepted p b spare p' e pre c body x y Hok Hw Hb Hp Hbody Hd) as (Hstd & Hc & Hcrc & Hsum).
  destruct (same_len_split b b' pre c body x y Hb (eq_sym (proj1 Hburst))) as (pre' & c' & body' & x' & y' & Hb' & Hp' & Hbody').
  assert (hcs_pos b' = hcs_pos b) as Hh by (unfold hcs_pos; rewrite Hrt; reflexivity).
  pose proof Hok as Hok1. pose proof Hok' as Hok1'. rewrite Hb in Hok1. rewrite Hb' in Hok1'.
  rewrite bytes_ok_app in Hok1, Hok1'. apply andb_prop in Hok1, Hok1'.
  destruct Hok1 as [Hh1 Ht1]. destruct Hok1' as [Hh2 Ht2].
  pose proof Hburst as Hbu. rewrite Hb, Hb' in Hbu.
  destruct (burst_head (pre ++ [c]) (body ++ [x; y]) (pre' ++ [c']) (body' ++ [x'; y']) Hh1 Hh2 Ht1 Ht2
             ltac:(rewrite !app_length; cbn [length]; lia) 8 Hbu) as [Heq|Hhd].
  - rewrite Heq in Hbu. rewrite Hb'. rewrite <- Heq.
    apply (burst_tail 8) in Hbu; try assumption.
    eapply (tail_refused p q b spare p' e (pre ++ [c]) body x y body' x' y'); try assumption.
    apply (burst_weaken 8); [lia | exact Hbu].
  - apply refused_137. apply header_refused; [exact Hok' | | |].
    + rewrite Hhl. destruct Hw as [Hw _]. rewrite Hw. unfold std_hl, frame_pos. rewrite Hh. reflexivity.
    + rewrite Hb'. rewrite <- Hb'. rewrite Hh, <- Hp. rewrite <- (proj1 Hburst), Hb, !app_length. cbn [length]. lia.
    + rewrite Hh, <- Hp, <- Hp'. rewrite Hb'. rewrite <- !app_assoc. cbn [app].
      unfold byte_at. rewrite app_nth2, Nat.sub_diag by lia. cbn [nth].
      rewrite firstn_app, Nat.sub_diag, firstn_all. cbn [firstn]. rewrite app_nil_r.
      rewrite bytes_ok_app in Hh1, Hh2. apply andb_prop in Hh1, Hh2.
      intro Hc'. exact (crc8_codeword pre pre' c c' (eq_sym Hp') (proj1 Hh1) (proj1 Hh2) Hc Hc' Hhd).
Qed.

(** the same for up to 12 bits that spare the header *)
Lemma tail_burst_refused p q b b' spare p' e : bytes_ok b = true -> bytes_ok b' = true -> whole b ->
  pkg_decode p (mkSlice b spare) = (p', DRet 0 e) -> burst 12 b b' ->
  firstn (frame_pos b) b' = firstn (frame_pos b) b -> refused q b' spare.
Proof.
  intros Hok Hok' Hw Hd Hburst Hsame.
  destruct (whole_split b Hw) as (pre & c & body & x & y & Hb & Hp & Hbody).
  destruct (whole_accepted p b spare p' e pre c body x y Hok Hw Hb Hp Hbody Hd) as (Hstd & Hc & Hcrc & Hsum).
  destruct (same_len_split b b' pre c body x y Hb (eq_sym (proj1 Hburst))) as (pre' & c' & body' & x' & y' & Hb' & Hp' & Hbody').
  assert (pre' ++ [c'] = pre ++ [c]) as Heq.
  { unfold frame_pos in Hsame. rewrite <- Hp in Hsame.
    rewrite Hb, Hb' in Hsame.
    assert (forall (l r : bytes) n, length l = n -> firstn n (l ++ r) = l) as Hf.
    { intros l r n <-. rewrite firstn_app, Nat.sub_diag, firstn_all. apply app_nil_r. }
    rewrite !Hf in Hsame by (rewrite app_length; cbn [length]; lia). exact Hsame. }
  pose proof Hok as Hok1. pose proof Hok' as Hok1'. rewrite Hb in Hok1. rewrite Hb' in Hok1'.
  rewrite bytes_ok_app in Hok1, Hok1'. apply andb_prop in Hok1, Hok1'.
  destruct Hok1 as [Hh1 Ht1]. destruct Hok1' as [Hh2 Ht2].
  rewrite Hb' in Hburst |- *. rewrite Hb in Hburst. rewrite Heq in *.
  apply (burst_tail 12) in Hburst; try assumption.
  eapply (tail_refused p q b spare p' e (pre ++ [c]) body x y body' x' y'); try assumption.
Qed.

End Packets.
