(** * AllocFacts2: packets that reach the bound. *)
From Verif Require Import GoBase Crc Float64 SubRecords Records Package Storage Server.
From Verif Require Import Spec_Bits Spec_Wf Spec_Rec Spec_Pkg Spec_Server Spec_Stream BaseFacts SubFacts RecFacts DecFacts CrcFacts PkgFacts PkgFacts2 PkgFacts3 Alloc AllocFacts.
From Coq Require Import Lia ZifyBool ZifyN ZifyNat.

Section AllocFacts2.
Context {E : go_env}.

(** A record of declared length 65535 whose only subrecord is a confirmation of
    declared length 65532 which holds such a record, and so on. *)
Fixpoint hog (n : nat) : bytes :=
  match n with
  | O => []
  | S n' => 255 :: 255 :: 0 :: 0 :: 0 :: 0 :: 0 :: 0 :: 252 :: 255 :: 0 :: 0 :: 0 :: hog n'
  end.
Lemma hog_len n : length (hog n) = (13 * n)%nat.
Proof. induction n as [|n IH]; [reflexivity|]. cbn [hog length]. lia. Qed.
Lemma hog_ok n : bytes_ok (hog n) = true.
Proof. induction n as [|n IH]; [reflexivity|]. exact IH. Qed.

Lemma copy_padded m x k : (length x <= m)%nat -> copy_into (zeros m) (x ++ zeros k) = x ++ zeros (m - length x).
Proof.
  intros H. unfold copy_into. rewrite length_zeros, firstn_app, firstn_all2 by lia.
  rewrite firstn_zeros, skipn_zeros, app_length, length_zeros, <- app_assoc, zeros_app. f_equal. f_equal. lia.
Qed.

Lemma rec_head_hog rest : rec_head (255 :: 255 :: 0 :: 0 :: 0 :: 0 :: 0 :: rest) = Ok (65535, rest).
Proof. reflexivity. Qed.

Lemma rds_step dec subm fuel r :
  subm 0 (firstn (N.to_nat 65532) r) <= rds_held_loop dec subm (S fuel) (0 :: 252 :: 255 :: r).
Proof.
  cbn [rds_held_loop read_byte bind buffer_read]. unfold buffer_read. cbn [zeros repeat].
  change (copy_into [0; 0] (252 :: 255 :: r)) with ([252; 255] ++ skipn (length r) []).
  rewrite skipn_nil, app_nil_r. cbn [bind length skipn]. change (le_dec [252; 255]) with 65532.
  unfold buffer_next. apply N.le_max_l.
Qed.

Lemma hog_held n : forall d k fuel, (n <= d)%nat -> 13 * N.of_nat n <= 65542 -> (1 <= fuel)%nat ->
  65535 * N.of_nat n <= sds_held_loop (fun rb => rds_loop (sub_decode d) (length rb) rb)
    (fun rb => rds_held_loop (sub_decode d) (sub_held d) (length rb) rb) fuel (hog n ++ zeros k).
Proof.
  induction n as [|n IH]; intros d k fuel Hd Hn Hf; [apply N.le_0_l|].
  destruct fuel as [|fuel]; [lia|].
  cbn [hog app sds_held_loop].
  eapply N.le_trans; [|apply N.le_max_l]. unfold sdr_held. rewrite rec_head_hog.
  set (rdsm := fun rb => rds_held_loop (sub_decode d) (sub_held d) (length rb) rb).
  replace (0 :: 252 :: 255 :: 0 :: 0 :: 0 :: hog n ++ zeros k) with ((0 :: 252 :: 255 :: 0 :: 0 :: 0 :: hog n) ++ zeros k) by reflexivity.
  rewrite copy_padded by (cbn [length]; rewrite hog_len; lia).
  set (m := Nat.sub (N.to_nat 65535) (length (0 :: 252 :: 255 :: 0 :: 0 :: 0 :: hog n))).
  assert (Hm : N.of_nat m + 13 * N.of_nat n = 65529) by (subst m; cbn [length]; rewrite hog_len; lia).
  cbn [app].
  assert (H : 65535 * N.of_nat n <= rdsm (0 :: 252 :: 255 :: 0 :: 0 :: 0 :: hog n ++ zeros m)).
  { subst rdsm. cbv beta. cbn [length].
    eapply N.le_trans; [|apply rds_step].
    rewrite firstn_all2 by (cbn [length]; rewrite app_length, hog_len, length_zeros; lia).
    destruct d as [|d]; [lia|]. cbn [sub_held]. change (0 =? 0) with true. cbv iota.
    change (buffer_read (zeros 2) (0 :: 0 :: 0 :: hog n ++ zeros m)) with
      (Ok ([0; 0], 0 :: hog n ++ zeros m)).
    cbn [bind read_byte].
    destruct n as [|n]; [apply N.le_0_l|].
    apply IH; [lia|lia|]. rewrite app_length, hog_len. lia. }
  unfold rdsm in H. cbv beta in H. cbn [length] in H |- *. set (X := rds_held_loop _ _ _ _) in *. clearbody X. lia.
Qed.

Lemma hog_sds n k : 13 * N.of_nat n <= 65542 -> 65535 * N.of_nat n <= sds_held (hog n ++ zeros k).
Proof.
  intros H. destruct n as [|n]; [apply N.le_0_l|]. unfold sds_held. 
  apply (hog_held (S n) (depth_for (hog (S n) ++ zeros k)) k); [|exact H|]; unfold depth_for; rewrite app_length, hog_len; lia.
Qed.

(** A packet around it: a standard header and two (wrong) checksum bytes. *)
Definition hog_hdr (n : nat) : bytes := [1; 0; 0; 11; 0] ++ le_enc 2 (13 * N.of_nat n) ++ [0; 0; 1].
Definition hog_packet (n : nat) : bytes := hog_hdr n ++ [crc8 (hog_hdr n)] ++ hog n ++ [0; 0].

Lemma hog_hdr_len n : length (hog_hdr n) = 10%nat.
Proof. reflexivity. Qed.
Lemma hog_hdr_ok n : bytes_ok (hog_hdr n) = true.
Proof. unfold hog_hdr. rewrite !bytes_ok_app, le_enc_ok. reflexivity. Qed.
Lemma hog_packet_len n : length (hog_packet n) = (13 + 13 * n)%nat.
Proof. unfold hog_packet. rewrite !app_length, hog_hdr_len, hog_len. cbn [length]. lia. Qed.
Lemma hog_packet_ok n : bytes_ok (hog_packet n) = true.
Proof.
  unfold hog_packet. rewrite !bytes_ok_app, hog_hdr_ok, hog_ok, bytes_ok_single; [reflexivity|].
  apply crc8_lt, hog_hdr_ok.
Qed.
Lemma hog_fdl n : 13 * N.of_nat n < 65536 -> decl_fdl (hog_packet n) = 13 * N.of_nat n.
Proof.
  intros H. unfold decl_fdl, hog_packet, hog_hdr, word_at. rewrite le_enc2. cbn [app nth]. apply word2. lia.
Qed.

Lemma hog_unit n : 1 <= N.of_nat n <= 5040 -> a_unit (hog_packet n).
Proof.
  intros Hn. split; [apply hog_packet_ok|]. split; [rewrite hog_packet_len; lia|]. split; [reflexivity|].
  unfold unit_len, wire_len. rewrite ?hog_fdl by lia.
  assert (Hb : blen (hog_packet n) = 13 + 13 * N.of_nat n) by (unfold blen; rewrite hog_packet_len; lia).
  rewrite Hb. clear Hb.
  match goal with |- context [?x mod 65536] => assert (Hx : x = 3 + 13 * N.of_nat n + 1 * 65536) end.
  { pose proof (hog_fdl n ltac:(lia)) as Hf. unfold decl_fdl in Hf. rewrite ?Hf.
    change (decl_hl (hog_packet n)) with 11. destruct (N.ltb_spec 0 (13 * N.of_nat n)); lia. }
  rewrite Hx, N.mod_add, N.mod_small by lia. lia.
Qed.

Lemma hog_packet_held n spare : N.of_nat n <= 5040 ->
  65535 * N.of_nat n + 13 * N.of_nat n <= pkg_held (mkSlice (hog_packet n) spare).
Proof.
  intros Hn. unfold pkg_held. cbn [sl_data].
  change (hcs_pos (hog_packet n)) with 10%nat. change (frame_pos (hog_packet n)) with 11%nat.
  change (decl_hl (hog_packet n)) with 11. change (u8 (11 + 255)) with 10.
  change (byte_at (hog_packet n) 9) with 1. change (1 =? PtAppdataPacket) with true. cbv iota.
  rewrite hog_packet_len.
  destruct (Nat.leb_spec (13 + 13 * n) 10) as [Hc|_]; [lia|].
  assert (Hr : reslice (mkSlice (hog_packet n) spare) 0 10 = Ok (hog_hdr n)).
  { unfold reslice, sl_cap. cbn [sl_data sl_spare].
    assert (Hcap : 10 <= blen (hog_packet n ++ spare)) by (unfold blen; rewrite app_length, hog_packet_len; lia).
    unfold blen in Hcap.
    rewrite (proj2 (N.leb_le 0 10)) by lia.
    match goal with |- context [10 <=? ?c] => rewrite (proj2 (N.leb_le 10 c)) by (rewrite ?app_length in *; unfold blen; lia) end.
    reflexivity. }
  rewrite Hr. change (byte_at (hog_packet n) 10) with (crc8 (hog_hdr n)). rewrite N.eqb_refl.
  rewrite hog_fdl by lia.
  change (skipn 11 (hog_packet n)) with (hog n ++ zeros 2).
  assert (Hrd : reader_read (zeros (N.to_nat (13 * N.of_nat n))) (hog n ++ zeros 2) = Ok (hog n, zeros 2)).
  { unfold reader_read. destruct (hog n ++ zeros 2) as [|y r] eqn:Er.
    { apply (f_equal (@length N)) in Er. rewrite app_length in Er. cbn in Er. lia. }
    rewrite <- Er. rewrite copy_padded by (rewrite hog_len; lia).
    replace (N.to_nat (13 * N.of_nat n)) with (length (hog n)) by (rewrite hog_len; lia).
    rewrite Nat.sub_diag, length_zeros. cbn [zeros repeat]. rewrite app_nil_r.
    rewrite skipn_app, skipn_all, Nat.sub_diag. reflexivity. }
  rewrite Hrd. pose proof (hog_sds n 0 ltac:(lia)) as H. cbn [zeros repeat] in H. rewrite app_nil_r in H. lia.
Qed.

(** ** The bound for packets *)
Lemma pkg_held_bound data spare : bytes_ok data = true ->
  pkg_held (mkSlice data spare) <= 65535 + cap (Nat.min (length data - 11) (N.to_nat 65535)).
Proof.
  intros Hb. unfold pkg_held. cbn [sl_data].
  destruct (Nat.leb_spec (length data) (hcs_pos data)) as [_|Hl]; [apply N.le_0_l|].
  destruct (reslice _ _ _) as [h| | |]; try apply N.le_0_l.
  destruct (_ =? crc8 h); [|apply N.le_0_l].
  pose proof (word_at_bound data 5 Hb) as Hw. fold (decl_fdl data) in Hw. change (2 ^ 16) with 65536 in Hw.
  pose proof (hcs_pos_ge data) as Hge.
  destruct (reader_read _ _) as [[fb r]| | |] eqn:Hr; try lia.
  apply reader_skip in Hr. destruct Hr as [_ Hfb].
  assert (Hok : bytes_ok fb = true) by (rewrite Hfb; apply bytes_ok_copy, bytes_ok_skipn', Hb).
  assert (Hp : padded (Nat.min (length data - 11) (N.to_nat 65535)) fb).
  { destruct (Nat.le_gt_cases (length data - 11) (N.to_nat 65535)) as [Hc|Hc].
    - rewrite Nat.min_l by lia. rewrite Hfb. apply padded_copy.
      apply padded_mono with (length (skipn (frame_pos data) data)); [rewrite skipn_length; unfold frame_pos; lia|apply padded_self].
    - rewrite Nat.min_r by lia. apply padded_mono with (length fb); [|apply padded_self].
      rewrite Hfb, length_copy, length_zeros. lia. }
  destruct (_ =? PtAppdataPacket); [pose proof (sds_held_cap fb _ Hok Hp); lia|].
  destruct (_ =? PtResponsePacket); [pose proof (ptr_held_cap fb _ Hok Hp); lia|lia].
Qed.

Lemma cap_times n : 13 * cap n <= 65535 * (N.of_nat n + 12).
Proof.
  unfold cap, levels. pose proof (Nat.mul_div_le (n + 12) 13 ltac:(lia)) as H.
  set (q := ((n + 12) / 13)%nat) in *. lia.
Qed.

End AllocFacts2.
