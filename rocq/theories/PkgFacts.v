(** * PkgFacts: the outcome of Package.Decode, characterised on the bytes. *)
From Coq Require Import Lia ZifyBool ZifyNat ZifyN.
From Verif Require Import Spec_Go GoBase Spec_Bits BaseFacts Crc Float64 SubRecords Records Package
  Spec_Wf Spec_Rec Spec_Pkg SubFacts RecFacts DecFacts DecWf DecWf2 CrcFacts.
Local Arguments N.add : simpl never.
Local Arguments N.mul : simpl never.

Section PkgFacts.
Context {E : go_env}.

(** The package after the fields before HCS have been read. *)
Definition hdr_of (p : package) (b : bytes) : package :=
  let fb := fmt_b 8 (byte_at b 2) in
  {| pPRV := byte_at b 0; pSKID := byte_at b 1;
     pPRF := substr 0 2 fb; pRTE := fbit 2 fb; pENA := substr 3 5 fb; pCMP := fbit 5 fb; pPR := skipn 6 fb;
     pHL := byte_at b 3; pHE := byte_at b 4; pFDL := word_at b 5; pPID := word_at b 7; pPT := byte_at b 9;
     pPRA := if routed b then word_at b 10 else pPRA p;
     pRCA := if routed b then word_at b 12 else pRCA p;
     pTTL := if routed b then byte_at b 14 else pTTL p;
     pHCS := pHCS p; pSFRD := pSFRD p; pSFRCS := pSFRCS p |}.

Lemma rte_routed b : byte_at b 2 < 256 -> is1 (fbit 2 (fmt_b 8 (byte_at b 2))) = routed b.
Proof.
  unfold routed. generalize (byte_at b 2). intros v Hv.
  apply eqb_prop. revert v Hv. apply byte_sweep. vm_compute. reflexivity.
Qed.

Lemma flag_strings v : v < 256 ->
  substr 0 2 (fmt_b 8 v) = bit_str (N.testbit v 7) ++ bit_str (N.testbit v 6) /\
  fbit 2 (fmt_b 8 v) = bit_str (N.testbit v 5) /\
  substr 3 5 (fmt_b 8 v) = bit_str (N.testbit v 4) ++ bit_str (N.testbit v 3) /\
  fbit 5 (fmt_b 8 v) = bit_str (N.testbit v 2) /\
  skipn 6 (fmt_b 8 v) = bit_str (N.testbit v 1) ++ bit_str (N.testbit v 0).
Proof.
  intros Hv.
  assert ((str_eqb (substr 0 2 (fmt_b 8 v)) (bit_str (N.testbit v 7) ++ bit_str (N.testbit v 6)) &&
     str_eqb (fbit 2 (fmt_b 8 v)) (bit_str (N.testbit v 5)) &&
     str_eqb (substr 3 5 (fmt_b 8 v)) (bit_str (N.testbit v 4) ++ bit_str (N.testbit v 3)) &&
     str_eqb (fbit 5 (fmt_b 8 v)) (bit_str (N.testbit v 2)) &&
     str_eqb (skipn 6 (fmt_b 8 v)) (bit_str (N.testbit v 1) ++ bit_str (N.testbit v 0)))%bool = true) as H.
  { revert v Hv. apply byte_sweep. vm_compute. reflexivity. }
  rewrite !andb_true_iff, !str_eqb_spec in H. tauto.
Qed.

Lemma le_dec2 a b : le_dec [a; b] = a + 256 * b.
Proof. cbn [le_dec]. lia. Qed.

Lemma rr2 buf a b r : length buf = 2%nat -> reader_read buf (a :: b :: r) = Ok ([a; b], r).
Proof.
  intros H. destruct buf as [|x [|y [|]]]; try discriminate.
  unfold reader_read, copy_into. cbn. destruct r; reflexivity.
Qed.

Ltac setnf := cbv beta iota zeta delta [set_PT set_PID set_FDL set_HE set_HL set_flags set_PR set_CMP set_ENA set_RTE
    set_PRF set_SKID set_PRV set_PRA set_RCA set_TTL set_HCS set_SFRD set_SFRCS
    pPRV pSKID pPRF pRTE pENA pCMP pPR pHL pHE pFDL pPID pPT pPRA pRCA pTTL pHCS pSFRD pSFRCS].

(** Enough bytes for the header: decoding reaches the checksum test. *)
Lemma decode_header p data spare : bytes_ok data = true -> (hcs_pos data <= length data)%nat ->
  pkg_decode p (mkSlice data spare) =
  decode_hcs (mkSlice data spare) (hdr_of p data) (skipn (hcs_pos data) data).
Proof.
  intros Hb Hl. pose proof (rte_routed data (bytes_ok_nth data 2 Hb)) as Hr.
  set (c := mkSlice data spare). destruct p.
  assert (10 <= length data)%nat as H10 by (unfold hcs_pos in Hl; destruct (routed data); lia).
  destruct data as [|b0 [|b1 [|b2 [|b3 [|b4 [|b5 [|b6 [|b7 [|b8 [|b9 r]]]]]]]]]]; cbn [length] in H10; try lia.
  unfold pkg_decode. cbn [sl_data c]. cbv zeta. cbn [byteP read_byte stepP].
  rewrite rr2 by reflexivity. cbn [stepP]. rewrite rr2 by reflexivity. cbn [stepP byteP].
  setnf.
  unfold byte_at in Hr. cbn [nth] in Hr. rewrite Hr.
  unfold hcs_pos in Hl |- *. unfold hdr_of, byte_at, word_at. cbn [nth]. rewrite !le_dec2.
  destruct (routed _) eqn:Hrt.
  - cbn [length] in Hl. destruct r as [|c0 [|c1 [|c2 [|c3 [|c4 r]]]]]; cbn [length] in Hl; try lia.
    rewrite rr2 by reflexivity. cbn [stepP]. rewrite rr2 by reflexivity. cbn [stepP byteP].
    rewrite !le_dec2. reflexivity.
  - reflexivity.
Qed.

Lemma rr_short buf a : length buf = 2%nat -> exists x, reader_read buf [a] = Ok (x, []) /\ length x = 2%nat.
Proof.
  intros H. destruct buf as [|x [|y [|]]]; try discriminate. unfold reader_read, copy_into. cbn. eauto.
Qed.

(** Not enough bytes for the header: EGTS_PC_INC_HEADERFORM. *)
Lemma decode_short p data spare : bytes_ok data = true -> (length data <= hcs_pos data)%nat ->
  snd (pkg_decode p (mkSlice data spare)) = DRet pcIncHeaderform true.
Proof.
  intros Hb Hl. pose proof (rte_routed data (bytes_ok_nth data 2 Hb)) as Hr.
  destruct (Nat.le_gt_cases (hcs_pos data) (length data)) as [Hge|Hlt].
  { rewrite decode_header by assumption. rewrite skipn_all2 by exact Hl. reflexivity. }
  clear Hl. destruct p. unfold pkg_decode. cbn [sl_data]. cbv zeta.
  destruct data as [|b0 [|b1 [|b2 [|b3 [|b4 [|b5 [|b6 [|b7 [|b8 [|b9 r]]]]]]]]]]; try reflexivity.
  cbn [byteP read_byte stepP].
  rewrite rr2 by reflexivity. cbn [stepP]. rewrite rr2 by reflexivity. cbn [stepP byteP].
  setnf.
  unfold byte_at in Hr. cbn [nth] in Hr. rewrite Hr. unfold hcs_pos in Hlt. destruct (routed _) eqn:Hrt.
  - cbn [length] in Hlt. destruct r as [|c0 [|c1 [|c2 [|c3 [|c4 r]]]]]; cbn [length] in Hlt; try lia; try reflexivity.
  - cbn [length] in Hlt. lia.
Qed.

(** ** The outcome as a function of the bytes *)
Definition ares {A} (r : res A) (ok : A -> dec_out) (code : N) : dec_out :=
  match r with Ok a => ok a | Err => DRet code true | Panic => DPanic | Fuel => DFuel end.

(** The frame as read: zero padded when the data ends early. *)
Definition frame_read (b : bytes) : bytes := copy_into (zeros (N.to_nat (decl_fdl b))) (skipn (frame_pos b) b).

Definition outcome (data spare : bytes) : dec_out :=
  let m := data ++ spare in
  let hl := decl_hl data in let fdl := decl_fdl data in let pt := byte_at data 9 in
  if (length data <=? hcs_pos data)%nat then DRet pcIncHeaderform true
  else if blen m <? u8 (hl + 255) then DPanic
  else if negb (byte_at data (hcs_pos data) =? crc8 (area m 0 (u8 (hl + 255)))) then DRet pcHeaderCrcError true
  else if (length data <=? frame_pos data)%nat then DRet pcIncDataform true
  else if negb ((pt =? 1) || (pt =? 0)) then DRet pcUnsType true
  else ares (frame_decode pt (frame_read data)) (fun _ =>
    if (length data <=? frame_pos data + N.to_nat fdl)%nat then DRet pcDecryptError true
    else if (2 ^ 16 <=? hl + fdl) || (blen m <? hl + fdl) then DPanic
    else if sfrcs_of data =? crc16 (area m hl fdl) then DRet pcOk false
    else DRet pcHeaderCrcError true) pcDecryptError.

Lemma word_at_bound b i : bytes_ok b = true -> word_at b i < 2 ^ 16.
Proof.
  intros H. unfold word_at. pose proof (bytes_ok_nth b i H). pose proof (bytes_ok_nth b (S i) H).
  change (2 ^ 16) with 65536. lia.
Qed.

Lemma skipn_cons_nth {A} i (l : list A) d : (i < length l)%nat -> skipn i l = nth i l d :: skipn (S i) l.
Proof.
  revert l; induction i as [|i IH]; intros [|x l] H; cbn in *; try lia; [reflexivity|]. apply IH. lia.
Qed.

Lemma copy2_word l i : (i < length l)%nat -> le_dec (copy_into (zeros 2) (skipn i l)) = word_at l i.
Proof.
  intros H. rewrite (skipn_cons_nth i l 0 H). unfold word_at.
  destruct (Nat.lt_ge_cases (S i) (length l)) as [H2|H2].
  - rewrite (skipn_cons_nth (S i) l 0 H2). unfold copy_into. cbn [zeros repeat length firstn skipn app].
    cbn. rewrite skipn_nil. cbn [app le_dec]. lia.
  - rewrite skipn_all2 by lia. rewrite (nth_overflow l 0 H2). cbn. lia.
Qed.

Lemma rmap_returns' {A B} (f : A -> B) x : returns x -> returns (rmap f x).
Proof. destruct x; cbn; auto. Qed.
Lemma frame_decode_returns pt b : returns (frame_decode pt b).
Proof. unfold frame_decode. destruct (pt =? _); apply rmap_returns'; [apply sds_decode_returns|apply ptr_decode_returns]. Qed.

(** The final package of a successful decode. *)
Definition final_of (p : package) (data : bytes) (f : frame) : package :=
  set_SFRCS (sfrcs_of data) (set_SFRD (Some f) (set_HCS (byte_at data (hcs_pos data)) (hdr_of p data))).

(** The receiver after each kind of outcome, once the header is complete. *)
Definition hcs_of (p : package) (data : bytes) : package :=
  set_HCS (byte_at data (hcs_pos data)) (hdr_of p data).

Definition decode_fun (p : package) (data spare : bytes) : package * dec_out :=
  let m := data ++ spare in
  let hl := decl_hl data in let fdl := decl_fdl data in let pt := byte_at data 9 in
  if blen m <? u8 (hl + 255) then (hcs_of p data, DPanic)
  else if negb (byte_at data (hcs_pos data) =? crc8 (area m 0 (u8 (hl + 255))))
  then (hcs_of p data, DRet pcHeaderCrcError true)
  else if (length data <=? frame_pos data)%nat then (hcs_of p data, DRet pcIncDataform true)
  else if negb ((pt =? 1) || (pt =? 0)) then (hcs_of p data, DRet pcUnsType true)
  else match frame_decode pt (frame_read data) with
  | Ok f =>
    if (length data <=? frame_pos data + N.to_nat fdl)%nat
    then (set_SFRD (Some f) (hcs_of p data), DRet pcDecryptError true)
    else if (2 ^ 16 <=? hl + fdl) || (blen m <? hl + fdl) then (final_of p data f, DPanic)
    else if sfrcs_of data =? crc16 (area m hl fdl) then (final_of p data f, DRet pcOk false)
    else (final_of p data f, DRet pcHeaderCrcError true)
  | Err => (set_SFRD (Some (frame_empty pt)) (hcs_of p data), DRet pcDecryptError true)
  | Panic => (p, DPanic)
  | Fuel => (p, DFuel)
  end.

Lemma decode_long p data spare : bytes_ok data = true -> (hcs_pos data < length data)%nat ->
  pkg_decode p (mkSlice data spare) = decode_fun p data spare.
Proof.
  intros Hb Hs. unfold decode_fun. cbv zeta.
  rewrite decode_header by (assumption || lia).
  rewrite (skipn_cons_nth _ data 0 Hs). fold (frame_pos data).
  unfold decode_hcs. cbn [byteP]. change (nth (hcs_pos data) data 0) with (byte_at data (hcs_pos data)).
  fold (hcs_of p data). change (pHL (hcs_of p data)) with (decl_hl data).
  change (pHCS (hcs_of p data)) with (byte_at data (hcs_pos data)).
  unfold reslice at 1. unfold sl_cap. cbn [sl_data sl_spare].
  rewrite <- blen_app. rewrite (proj2 (N.leb_le 0 _)) by lia. cbn [andb].
  replace (blen (data ++ spare) <? u8 (decl_hl data + 255))
    with (negb (u8 (decl_hl data + 255) <=? blen (data ++ spare))) by lia.
  destruct (u8 (decl_hl data + 255) <=? blen (data ++ spare)); cbn [negb stepP]; [|reflexivity].
  rewrite N.sub_0_r. fold (area (data ++ spare) 0 (u8 (decl_hl data + 255))).
  destruct (byte_at data (hcs_pos data) =? crc8 _); cbn [negb]; [|reflexivity].
  unfold decode_body. change (pFDL (hcs_of p data)) with (decl_fdl data).
  change (pPT (hcs_of p data)) with (byte_at data 9).
  destruct (Nat.leb_spec (length data) (frame_pos data)) as [Hf|Hf].
  { rewrite skipn_all2 by exact Hf. reflexivity. }
  assert (reader_read (zeros (N.to_nat (decl_fdl data))) (skipn (frame_pos data) data) =
    Ok (frame_read data, skipn (frame_pos data + N.to_nat (decl_fdl data)) data)) as ->.
  { unfold frame_read. unfold reader_read. rewrite length_zeros, skipn_skipn_.
    rewrite (skipn_cons_nth _ data 0 Hf) at 1. reflexivity. }
  cbn [stepP]. unfold PtAppdataPacket, PtResponsePacket.
  destruct (negb _); [reflexivity|].
  cbv zeta.
  change (pPT (set_SFRD (Some (frame_empty (byte_at data 9))) (hcs_of p data))) with (byte_at data 9).
  pose proof (frame_decode_returns (byte_at data 9) (frame_read data)) as Hret.
  destruct (frame_decode (byte_at data 9) (frame_read data)) as [f| | |] eqn:Hfd; cbn [stepP];
    try contradiction; [|reflexivity].
  destruct (Nat.leb_spec (length data) (frame_pos data + N.to_nat (decl_fdl data))) as [Hc|Hc].
  { rewrite skipn_all2 by exact Hc. reflexivity. }
  assert (reader_read (zeros 2) (skipn (frame_pos data + N.to_nat (decl_fdl data)) data) =
    Ok (copy_into (zeros 2) (skipn (frame_pos data + N.to_nat (decl_fdl data)) data),
        skipn (frame_pos data + N.to_nat (decl_fdl data) + 2) data)) as ->.
  { unfold reader_read. rewrite length_zeros, skipn_skipn_.
    rewrite (skipn_cons_nth _ data 0 Hc) at 1. reflexivity. }
  cbn [stepP fst]. rewrite copy2_word by exact Hc. fold (sfrcs_of data).
  change (set_SFRCS (sfrcs_of data) (set_SFRD (Some f) (set_SFRD (Some (frame_empty (byte_at data 9))) (hcs_of p data))))
    with (final_of p data f).
  change (pHL (final_of p data f)) with (decl_hl data).
  change (pFDL (final_of p data f)) with (decl_fdl data).
  change (pSFRCS (final_of p data f)) with (sfrcs_of data).
  assert (decl_hl data < 256) as Hhl by (apply bytes_ok_nth; exact Hb).
  assert (decl_fdl data < 2 ^ 16) as Hfdl by (apply word_at_bound; exact Hb).
  unfold reslice, sl_cap. cbn [sl_data sl_spare]. rewrite <- blen_app.
  change (2 ^ 16) with 65536 in *.
  destruct (N.leb_spec 65536 (decl_hl data + decl_fdl data)) as [Hw|Hw]; cbn [orb].
  - replace (decl_hl data <=? u16 (decl_hl data + decl_fdl data)) with false.
    2: { symmetry. apply N.leb_gt. unfold u16.
         replace (decl_hl data + decl_fdl data) with (decl_hl data + decl_fdl data - 65536 + 1 * 65536) by lia.
         rewrite N.mod_add by lia. rewrite N.mod_small by lia. lia. }
    reflexivity.
  - assert (u16 (decl_hl data + decl_fdl data) = decl_hl data + decl_fdl data) as ->
      by (apply N.mod_small; lia).
    rewrite (proj2 (N.leb_le (decl_hl data) (decl_hl data + decl_fdl data))) by lia. cbn [andb].
    replace (blen (data ++ spare) <? decl_hl data + decl_fdl data)
      with (negb (decl_hl data + decl_fdl data <=? blen (data ++ spare))) by lia.
    destruct (decl_hl data + decl_fdl data <=? blen (data ++ spare)); cbn [negb stepP]; [|reflexivity].
    replace (decl_hl data + decl_fdl data - decl_hl data) with (decl_fdl data) by lia.
    fold (area (data ++ spare) (decl_hl data) (decl_fdl data)).
    destruct (sfrcs_of data =? crc16 _); reflexivity.
Qed.

Lemma frame_read_of data : (frame_pos data + N.to_nat (decl_fdl data) <= length data)%nat ->
  frame_read data = frame_of data.
Proof.
  intros H. unfold frame_read, frame_of, copy_into. rewrite length_zeros.
  rewrite (skipn_all2 (zeros _)); [apply app_nil_r|]. rewrite length_zeros, skipn_length. lia.
Qed.

Lemma decode_out p data spare : bytes_ok data = true ->
  snd (pkg_decode p (mkSlice data spare)) = outcome data spare.
Proof.
  intros Hb. unfold outcome. cbv zeta.
  destruct (Nat.leb_spec (length data) (hcs_pos data)) as [Hs|Hs]; [apply decode_short; assumption|].
  rewrite decode_long by assumption. unfold decode_fun. cbv zeta.
  repeat match goal with |- context [if ?c then _ else _] => destruct c; [reflexivity|] end.
  pose proof (frame_decode_returns (byte_at data 9) (frame_read data)) as Hret.
  destruct (frame_decode _ _); cbn [ares]; try reflexivity.
  repeat match goal with |- context [if ?c then _ else _] => destruct c; try reflexivity end.
Qed.

(** Everything that holds of an accepted packet, and conversely. *)
Definition accepted (data spare : bytes) (f : frame) : Prop :=
  let m := data ++ spare in
  (frame_pos data + N.to_nat (decl_fdl data) < length data)%nat /\
  u8 (decl_hl data + 255) <= blen m /\
  byte_at data (hcs_pos data) = crc8 (area m 0 (u8 (decl_hl data + 255))) /\
  (byte_at data 9 = 0 \/ byte_at data 9 = 1) /\
  frame_decode (byte_at data 9) (frame_of data) = Ok f /\
  decl_hl data + decl_fdl data < 2 ^ 16 /\
  decl_hl data + decl_fdl data <= blen m /\
  sfrcs_of data = crc16 (area m (decl_hl data) (decl_fdl data)).

Lemma accept_iff p data spare p' e : bytes_ok data = true ->
  (pkg_decode p (mkSlice data spare) = (p', DRet 0 e) <->
   e = false /\ exists f, accepted data spare f /\ p' = final_of p data f).
Proof.
  intros Hb. unfold accepted.
  destruct (Nat.leb_spec (length data) (hcs_pos data)) as [Hs|Hs].
  { pose proof (decode_short p data spare Hb Hs) as Hsh. split.
    - intros H. rewrite H in Hsh. discriminate Hsh.
    - intros (-> & f & Ha & _). unfold frame_pos in Ha. lia. }
  rewrite decode_long by assumption. unfold decode_fun. cbv zeta. split.
  - intros H.
    destruct (N.ltb_spec (blen (data ++ spare)) (u8 (decl_hl data + 255))) as [|H1]; [discriminate|].
    destruct (negb _) eqn:H2 in H; [discriminate|].
    destruct (Nat.leb_spec (length data) (frame_pos data)) as [|H3]; [discriminate|].
    destruct (negb ((byte_at data 9 =? 1) || (byte_at data 9 =? 0))) eqn:H4; [discriminate|].
    destruct (frame_decode _ _) as [f| | |] eqn:Hf; try discriminate.
    destruct (Nat.leb_spec (length data) (frame_pos data + N.to_nat (decl_fdl data))) as [|H5]; [discriminate|].
    destruct (_ || _) eqn:H6 in H; [discriminate|].
    destruct (sfrcs_of data =? _) eqn:H7; [|discriminate].
    injection H as <- <-. split; [reflexivity|]. exists f.
    rewrite frame_read_of in Hf by lia.
    apply negb_false_iff, N.eqb_eq in H2. apply orb_false_iff in H6. destruct H6 as [H6 H8].
    apply N.leb_gt in H6. apply N.ltb_ge in H8. apply N.eqb_eq in H7.
    repeat split; try assumption. lia.
  - intros (-> & f & (H1 & H2 & H3 & H4 & H5 & H6 & H7 & H8) & ->).
    rewrite (proj2 (N.ltb_ge _ _) H2).
    rewrite (proj2 (N.eqb_eq _ _) H3). cbn [negb].
    rewrite (proj2 (Nat.leb_gt _ _)) by lia.
    replace (negb ((byte_at data 9 =? 1) || (byte_at data 9 =? 0))) with false by lia.
    rewrite frame_read_of by lia. rewrite H5.
    rewrite (proj2 (Nat.leb_gt _ _)) by lia.
    rewrite (proj2 (N.leb_gt _ _) H6), (proj2 (N.ltb_ge _ _) H7). cbn [orb].
    rewrite (proj2 (N.eqb_eq _ _) H8). reflexivity.
Qed.
End PkgFacts.
