(** * GluePkg: refutations and final forms for Prop_Package. *)
From Coq Require Import Lia ZifyBool ZifyNat ZifyN.
From Verif Require Import GoBase Crc Float64 SubRecords Records Package
  Spec_Bits Spec_Wf Spec_Rec Spec_Crc Spec_Pkg Spec_Go BaseFacts CrcFacts SubFacts RecFacts DecFacts
  PkgFacts PkgFacts2 PkgFacts3 Vectors.

Section GluePkg.
Context {E : go_env}.

(** ** C34 *)
Lemma reencode_refuted : exists p p1 b',
  bytes_ok vec_msg = true /\
  pkg_decode pkg0 (mkSlice vec_msg []) = (p, DRet 0 false) /\ pkg_encode p = (p1, Ok b') /\ b' <> vec_msg.
Proof.
  do 3 eexists. split; [vm_compute; reflexivity|]. split; [vm_compute; reflexivity|].
  split; [vm_compute; reflexivity|]. vm_compute. discriminate.
Qed.

(** ** C36 *)
Definition big_rec (d : gostr) : sdr :=
  {| RL := 0; RN := 1; SSOD := s0; RSOD := s0; GRP := s0; RPP := [ch0; ch0]; TMFE := s0; EVFE := s0; OBFE := s0;
     OID := 0; EVID := 0; TM := 0; SST := 1; RST := 1;
     RD := [{| SRT := 5; SRL := 0; SRD := SRDisp {| DT := 0; DID := 0; DSCR := d |} |}] |}.
Definition big_pkg (d : gostr) : package :=
  {| pPRV := 1; pSKID := 0; pPRF := [ch0; ch0]; pRTE := s0; pENA := [ch0; ch0]; pCMP := s0; pPR := [ch0; ch0];
     pHL := 0; pHE := 0; pFDL := 0; pPID := 7; pPT := 1; pPRA := 0; pRCA := 0; pTTL := 0; pHCS := 0;
     pSFRD := Some (FSds [big_rec d]); pSFRCS := 0 |}.
Lemma big_frame d : exists h, frame_encode (pSFRD (big_pkg d)) = Ok (h ++ d) /\ length h = 15%nat.
Proof.
  cbn [big_pkg pSFRD frame_encode sds_encode]. unfold sdr_encode. cbn [big_rec RD rds_encode].
  unfold rd_encode. cbn [SRT SRL SRD sr_length sr_encode]. unfold disp_encode. cbn [DT DID DSCR].
  change (5 =? 0) with false. change (0 =? 0) with true. cbv iota. cbn [bind length_of].
  change (parse8 _) with (@Ok N 0). cbn [bind opt_w is1 str_eqb].
  set (n1 := u16 (blen ([0] ++ le_enc 4 0 ++ d))).
  set (n2 := if RL _ =? 0 then _ else _).
  exists (le_enc 2 n2 ++ le_enc 2 1 ++ [0] ++ [1] ++ [1] ++ [5] ++ le_enc 2 n1 ++ [0] ++ le_enc 4 0).
  split; [|reflexivity]. f_equal. rewrite !app_nil_r. repeat rewrite <- app_assoc. reflexivity.
Qed.
Lemma big_encode d : exists hdr body p1,
  frame_encode (pSFRD (big_pkg d)) = Ok body /\ blen body = 15 + blen d /\
  length hdr = 11%nat /\ word_at hdr 5 = (15 + blen d) mod 65536 /\ pFDL p1 = (15 + blen d) mod 65536 /\
  pkg_encode (big_pkg d) =
    (p1, Ok (hdr ++ if (15 + blen d) mod 65536 =? 0 then [] else body ++ le_enc 2 (crc16 body))).
Proof.
  destruct (big_frame d) as (h & F & Hh).
  destruct (pkg_encode (big_pkg d)) as [p1 r] eqn:Ee.
  assert (Hr : exists b, r = Ok b).
  { unfold pkg_encode in Ee. change (parse8 _) with (@Ok N 0) in Ee. cbv zeta iota in Ee.
    change (pSFRD (set_HL _ (big_pkg d))) with (pSFRD (big_pkg d)) in Ee. rewrite F in Ee.
    injection Ee as _ <-. eexists. reflexivity. }
  destruct Hr as [b ->]. destruct (encode_layout _ _ _ Ee) as (hdr & body & L1 & L2 & L3 & L4 & L5 & L6 & L7).
  rewrite F in L1. apply Ok_inj in L1. subst body.
  assert (Hb : blen (h ++ d) = 15 + blen d) by (rewrite blen_app; unfold blen at 1; rewrite Hh; reflexivity).
  exists hdr, (h ++ d), p1. split; [exact F|]. split; [exact Hb|]. split; [exact L2|].
  rewrite Hb in *. split; [exact L4|]. split; [exact L5|]. rewrite L7. reflexivity.
Qed.
Definition letters (n : N) : gostr := repeat 65 (N.to_nat n).
Lemma blen_letters n : blen (letters n) = n.
Proof. unfold blen, letters. rewrite repeat_length. lia. Qed.

Lemma fdl_refuted : exists p p1 hdr body,
  frame_encode (pSFRD p) = Ok body /\ blen body = 65546 /\ length hdr = 11%nat /\
  pkg_encode p = (p1, Ok (hdr ++ body ++ le_enc 2 (crc16 body))) /\ word_at hdr 5 = 10 /\ pFDL p1 = 10.
Proof.
  destruct (big_encode (letters 65531)) as (hdr & body & p1 & H1 & H2 & H3 & H4 & H5 & H6).
  rewrite !blen_letters in *. change (15 + 65531) with 65546 in *. change (65546 mod 65536) with 10 in *.
  change (10 =? 0) with false in H6. exists (big_pkg (letters 65531)), p1, hdr, body. auto 8.
Qed.
Lemma body_dropped : exists p p1 hdr body,
  frame_encode (pSFRD p) = Ok body /\ blen body = 65536 /\ length hdr = 11%nat /\
  pkg_encode p = (p1, Ok hdr) /\ word_at hdr 5 = 0.
Proof.
  destruct (big_encode (letters 65521)) as (hdr & body & p1 & H1 & H2 & H3 & H4 & H5 & H6).
  rewrite !blen_letters in *. change (15 + 65521) with 65536 in *. change (65536 mod 65536) with 0 in *.
  change (0 =? 0) with true in H6. rewrite app_nil_r in H6. exists (big_pkg (letters 65521)), p1, hdr, body. auto 8.
Qed.
Lemma fdl_partial p p1 b : pkg_encode p = (p1, Ok b) ->
  exists hdr body, frame_encode (pSFRD p) = Ok body /\
    length hdr = (if is1 (pRTE p) then 16%nat else 11%nat) /\
    last hdr 0 = crc8 (removelast hdr) /\
    (blen body < 2 ^ 16 ->
     word_at hdr 5 = blen body /\ pFDL p1 = blen body /\
     b = hdr ++ (if blen body =? 0 then [] else body ++ le_enc 2 (crc16 body))).
Proof.
  intros H. destruct (encode_layout _ _ _ H) as (hdr & body & L1 & L2 & L3 & L4 & L5 & L6 & L7).
  exists hdr, body. split; [exact L1|]. split; [exact L2|]. split; [exact L6|].
  intros Hb. rewrite u16_small in * by exact Hb. auto.
Qed.
Lemma encode_lengths p p1 b : pkg_encode p = (p1, Ok b) ->
  pkg_encode p1 = (p1, Ok b) /\ byte_at b 3 = pHL p1 /\ word_at b 5 = pFDL p1.
Proof.
  intros H. split; [apply (encode_repeat _ _ _ H)|].
  destruct (encode_layout _ _ _ H) as (hdr & body & L1 & L2 & L3 & L4 & L5 & L6 & L7).
  assert (L : (11 <= length hdr)%nat) by (destruct (is1 (pRTE p)); lia).
  rewrite L7, byte_at_app, word_at_app by lia. split; [exact L3|]. rewrite L4, L5. reflexivity.
Qed.
End GluePkg.
