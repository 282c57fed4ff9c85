(** * LayoutFacts3: subrecords, records, frames and packets written by the
    encoders have the layout of Spec_Layout; packets with that layout are
    accepted. *)
From Coq Require Import Lia.
From Verif Require Import GoBase Crc Float64 SubRecords Records Package Spec_Bits Spec_Wf Spec_Rec Spec_Pkg Spec_Crc Spec_Layout
  BaseFacts CrcFacts SubFacts RecFacts DecFacts PkgFacts PkgFacts2 PkgFacts3 EncOk LayoutFacts LayoutFacts2 Prop_Crc.

Section LayoutFacts3.
Context {E : go_env}.

(** Every byte string of the right length is a position. *)
Definition pos_of (b : bytes) : pos_data :=
  {| NavigationTime := (Z.of_N (num_at b 0 4) * 1000000000)%Z;
     Latitude := coord_decode 90 (num_at b 4 4); Longitude := coord_decode 180 (num_at b 8 4);
     ALTE := flag_at b 12 7; LOHS := flag_at b 12 6; LAHS := flag_at b 12 5; MV := flag_at b 12 4;
     BB := flag_at b 12 3; CS := flag_at b 12 2; FIX := flag_at b 12 1; VLD := flag_at b 12 0;
     DirectionHighestBit := num_at b 13 2 / 2 ^ 15; AltitudeSign := (num_at b 13 2 / 2 ^ 14) mod 2;
     Speed := (num_at b 13 2 mod 2 ^ 14) / 10;
     Direction := N.lor (nth 15 b 0) (128 * (num_at b 13 2 / 2 ^ 15));
     Odometer := num_at b 16 3; DigitalInputs := nth 19 b 0; Source := nth 20 b 0;
     Altitude := if N.testbit (nth 12 b 0) 7 then num_at b 21 3 else 0 |}.
Lemma pos_of_layout b : length b = (if N.testbit (nth 12 b 0) 7 then 24%nat else 21%nat) -> pos_layout b (pos_of b).
Proof.
  intros H. unfold pos_layout, pos_fields. split; [exact H|].
  cbn [NavigationTime Latitude Longitude ALTE LOHS LAHS MV BB CS FIX VLD DirectionHighestBit AltitudeSign Speed Direction
    Odometer DigitalInputs Source Altitude pos_of].
  split; [|reflexivity]. repeat (split; [reflexivity|]). reflexivity.
Qed.

Lemma pos_encode_layout e b : wf_pos e = true -> pos_encode e = Ok b -> pos_layout b (quant_pos e).
Proof.
  intros Hw He. destruct (pos_roundtrip e Hw) as (b' & He' & Hd & HL).
  assert (b' = b) by congruence. subst b'.
  assert (Hb : bytes_ok b = true) by (apply (sr_encode_ok (SRPos e)); [apply (wf_go_sr (SRPos e)); exact Hw|exact He]).
  assert (Ht : N.testbit (nth 12 b 0) 7 = is1 (ALTE e)).
  { pose proof He as He2. unfold pos_encode in He2. unfold wf_pos in Hw. rewrite !andb_true_iff in Hw.
    destruct Hw as [[[[[[[[[[[[[[[Hlo Hla] Hmv] Hbb] Hcs] Hfix] Hvld] Hdh] Has] Hsp] Hdir] Hcon] Hod] Hdi] Hso] Halt].
    destruct (bits_app8 (ALTE e) (LOHS e) (LAHS e) (MV e) (BB e) (CS e) (FIX e) (VLD e))
      as (v & Hpar & Hv & F0 & _); try assumption; try (eapply opt_num_flag; eassumption).
    rewrite Hpar in He2. cbn [bind] in He2. apply Ok_inj in He2.
    assert (Hn : nth 12 b 0 = v) by (rewrite <- He2; cbn [le_enc app nth]; reflexivity).
    rewrite Hn, <- F0. change (N.testbit v 7) with (N.testbit v (7 - N.of_nat 0)).
    rewrite <- (is1_bit_str (N.testbit v (7 - N.of_nat 0))), <- (fbit_bit 0 v Hv) by lia. reflexivity. }
  assert (HP : pos_layout b (pos_of b)) by (apply pos_of_layout; rewrite Ht; exact HL).
  pose proof (pos_layout_decode b (pos_of b) Hb HP) as Hd2. rewrite Hd in Hd2. apply Ok_inj in Hd2. rewrite Hd2. exact HP.
Qed.

Lemma wf_counters_full e : wf_counters e = true -> full_counters e = true /\ o2 (CFE e) = s0.
Proof.
  unfold wf_counters. rewrite andb_true_iff. intros [H1 H2]. split; [exact H1|].
  pose proof (all8_split _ _ _ H1) as (_ & A2 & _). apply opt_num_flag in A2. apply bits1_char in A2.
  destruct A2 as (c & Hc & Hb). rewrite Hc in *. unfold bit_char in Hb. apply orb_prop in Hb.
  destruct Hb as [Hb|Hb]; apply N.eqb_eq in Hb; subst c; [reflexivity|discriminate H2].
Qed.

Lemma sr_encode_means d b t : wf_sr d -> sr_encode d = Ok b ->
  (t = type_of d \/ (t = 20 /\ match d with SRState _ => True | _ => False end)) ->
  means t b (quant_sr d).
Proof.
  intros Hw He Ht. destruct d; cbn [wf_sr sr_encode quant_sr means type_of] in *; try contradiction.
  all: try (destruct Ht as [Ht|(_ & [])]; subst t; split; [reflexivity|]).
  - apply pos_encode_layout; assumption.
  - apply term_encode_layout; assumption.
  - unfold srresp_encode in He. apply Ok_inj in He. subst b. destruct Hw as [Hw1 Hw2].
    split; [reflexivity|]. split; [|reflexivity]. symmetry. apply (le_num 2 crn [] [rst]); [reflexivity|exact Hw1].
  - unfold result_encode in He. apply Ok_inj in He. subst b. split; [discriminate|reflexivity].
  - apply ext_encode_layout; assumption.
  - apply ad_encode_layout; assumption.
  - pose proof (state_encode_layout e b Hw He) as HS. split; [|exact HS].
    destruct Ht as [->|[-> _]]; [left; reflexivity|right; split; [reflexivity|]].
    destruct (state_roundtrip _ Hw) as (b' & Hb & _ & Hl). assert (b' = b) by congruence. subst b'. exact Hl.
  - apply liquid_encode_layout; assumption.
  - apply abs_cntr_encode_layout; assumption.
  - apply auth_encode_layout; assumption.
  - destruct (wf_counters_full e Hw) as [H1 H2]. split; [apply counters_encode_layout; assumption|exact H2].
  - destruct Hw as (b' & Hm & _ & Hu). unfold plus_encode in He. rewrite Hm in He. apply Ok_inj in He. subst b'. exact Hu.
  - apply abs_an_encode_layout; assumption.
  - apply disp_encode_layout; assumption.
Qed.

Lemma le2_split n : n < 2 ^ 16 -> le_enc 2 n = [n mod 256; n / 256].
Proof.
  intros H. rewrite le_enc2. f_equal. f_equal. apply N.mod_small. change (2 ^ 16) with 65536 in H.
  apply N.div_lt_upper_bound; lia.
Qed.

Lemma rds_encode_subs l : Forall wf_rd l ->
  exists b l', rds_encode l = Ok b /\ Forall2 filled_rd l l' /\ subs_of b l'.
Proof.
  induction l as [|rd l IH]; intros H.
  - exists [], []. split; [reflexivity|]. split; constructor.
  - inversion H as [|? ? Hrd Hl]; subst. destruct (IH Hl) as (b' & l' & Hb' & Hf' & Hd').
    destruct (rd_encode_wf rd Hrd) as (b & Hb & Hlen & He).
    exists (([SRT (fill_rd rd (blen b))] ++ le_enc 2 (blen b) ++ b) ++ b'), (fill_rd rd (blen b) :: l').
    split; [|split].
    + cbn [rds_encode]. rewrite He. cbn [bind]. rewrite Hb'. reflexivity.
    + constructor; [|exact Hf']. split; [reflexivity|]. split; [reflexivity|].
      exists b. split; [exact Hb|reflexivity].
    + rewrite <- !app_assoc, le2_split by exact Hlen. unfold fill_rd. cbn [SRT]. constructor; [reflexivity|exact Hlen| |exact Hd'].
      apply sr_encode_means; [exact (proj1 Hrd)|exact Hb|].
      destruct (SRT rd =? 0) eqn:H0; [left; reflexivity|].
      destruct Hrd as (_ & [Ht|[[Ht _]|[Ht Hs]]] & _).
      * left; exact Ht.
      * rewrite Ht in H0; discriminate.
      * right. split; assumption.
Qed.

Lemma sdr_encode_layout s : wf_sdr s ->
  exists h body s', sdr_encode s = Ok (h ++ body) /\ filled_sdr s s' /\
    header_layout h s' /\ RL s' = blen body /\ subs_of body (RD s').
Proof.
  intros (Hrn & Hsst & Hrst & F0 & F1 & F2 & F3 & Htm & Hev & Hob & Hrds & rb & Hrb & Hrl & HRL).
  destruct (rds_encode_subs (RD s) Hrds) as (rb' & l' & Hrb' & Hf & Hd).
  assert (rb' = rb) by congruence. subst rb'.
  destruct (sdr_flags (SSOD s) (RSOD s) (GRP s) (RPP s) (TMFE s) (EVFE s) (OBFE s))
    as (v & Hpar & Hv & G0 & G1 & G2 & G3 & G5 & G6 & G7); try assumption;
    try (eapply opt_num_flag; eassumption).
  unfold sdr_encode. rewrite Hrb. cbn [bind]. rewrite Hpar. cbn [bind].
  assert ((if RL s =? 0 then u16 (blen rb) else RL s) = blen rb) as ->.
  { destruct (RL s =? 0) eqn:H0; [apply u16_small; exact Hrl|].
    destruct HRL as [HRL|HRL]; [rewrite HRL in H0; discriminate|exact HRL]. }
  set (flds := [Num (OBFE s) 4 (OID s); Num (EVFE s) 4 (EVID s); Num (TMFE s) 4 (TM s); Num s1 1 (SST s); Num s1 1 (RST s)]).
  set (h := (le_enc 2 (blen rb) ++ le_enc 2 (RN s) ++ [v]) ++ concat (map field_bytes flds) ++ []).
  exists h, rb, {| RL := blen rb; RN := RN s; SSOD := SSOD s; RSOD := RSOD s; GRP := GRP s;
     RPP := RPP s; TMFE := TMFE s; EVFE := EVFE s; OBFE := OBFE s; OID := OID s; EVID := EVID s;
     TM := TM s; SST := SST s; RST := RST s; RD := l' |}.
  assert (Hok : Forall field_ok flds).
  { unfold flds. repeat (constructor; [try assumption|]); [| |constructor]; cbn [field_ok]; unfold opt_num;
      change (is1 s1) with true; cbv iota; apply andb_true_intro; (split; [reflexivity|apply N.ltb_lt; assumption]). }
  split.
  { f_equal. unfold h, flds. cbn [map concat field_bytes].
    assert (HS : forall x, x < 256 -> opt_w s1 (le_enc 1 x) = [x])
      by (intros x Hx; unfold opt_w; change (is1 s1) with true; cbn [le_enc]; rewrite N.mod_small by exact Hx; reflexivity).
    rewrite !HS by assumption. rewrite !app_nil_r, <- !app_assoc. reflexivity. }
  split. { unfold filled_sdr. cbn [RL RN SSOD RSOD GRP RPP TMFE EVFE OBFE OID EVID TM SST RST RD].
    repeat (split; [first [reflexivity|assumption]|]). exists rb. split; [exact Hrb|reflexivity]. }
  split; [|split; [reflexivity|exact Hd]].
  unfold header_layout. cbn [RL RN SSOD RSOD GRP RPP TMFE EVFE OBFE OID EVID TM SST RST RD].
  assert (Hn : nth 4 h 0 = v) by reflexivity.
  unfold flag_at. rewrite Hn.
  assert (B : forall i, (i < 8)%nat -> fbit i (fmt_b 8 v) = bit_str (N.testbit v (7 - N.of_nat i))) by (intros i Hi; apply fbit_bit; assumption).
  split. { symmetry. unfold h. rewrite <- app_assoc. apply (le_num 2 (blen rb) []); [reflexivity|exact Hrl]. }
  split. { symmetry. unfold h. rewrite <- !app_assoc. apply (le_num 2 (RN s)); [reflexivity|exact Hrn]. }
  split. { rewrite <- G0. apply (B 0%nat). lia. }
  split. { rewrite <- G1. apply (B 1%nat). lia. }
  split. { rewrite <- G2. apply (B 2%nat). lia. }
  split. { rewrite <- G3. apply rpp_bits. exact Hv. }
  split. { rewrite <- G5. apply (B 5%nat). lia. }
  split. { rewrite <- G6. apply (B 6%nat). lia. }
  split. { rewrite <- G7. apply (B 7%nat). lia. }
  split. { apply (fields_of_enc h (le_enc 2 (blen rb) ++ le_enc 2 (RN s) ++ [v]) flds []); [reflexivity|reflexivity|exact Hok]. }
  unfold h. rewrite app_nil_r. unfold flds. cbn [map concat field_bytes field_size]. unfold opt_w. change (is1 s1) with true. cbv iota.
  rewrite !app_length, !length_le_enc. cbn [length].
  destruct (is1 (OBFE s)), (is1 (EVFE s)), (is1 (TMFE s)); rewrite ?length_le_enc; cbn [length]; lia.
Qed.

Lemma sds_encode_records l : Forall wf_sdr l ->
  exists b l', sds_encode l = Ok b /\ Forall2 filled_sdr l l' /\ records_of b l' /\ (l <> [] -> b <> []).
Proof.
  induction l as [|s l IH]; intros H.
  - exists [], []. split; [reflexivity|]. split; [constructor|]. split; [constructor|congruence].
  - inversion H as [|? ? Hs Hl]; subst. destruct (IH Hl) as (b' & l' & Hb' & Hf' & Hr' & _).
    destruct (sdr_encode_layout s Hs) as (h & body & s' & He & Hf & Hh & HL & Hsub).
    exists ((h ++ body) ++ b'), (s' :: l'). split; [|split; [|split]].
    + cbn [sds_encode]. rewrite He. cbn [bind]. rewrite Hb'. reflexivity.
    + constructor; assumption.
    + rewrite <- app_assoc. constructor; assumption.
    + intros _ Hn. pose proof (header_len h s' Hh). apply (f_equal (@length N)) in Hn. rewrite !app_length in Hn. cbn in Hn. lia.
Qed.

Lemma frame_encode_means f : wf_frame f ->
  exists b f', frame_encode (Some f) = Ok b /\ filled_frame f f' /\ frame_means (frame_type f) b f'.
Proof.
  destruct f as [l|p]; cbn [wf_frame frame_encode frame_type].
  - intros H. destruct (sds_encode_records l H) as (b & l' & Hb & Hf & Hr & _). exists b, (FSds l').
    split; [exact Hb|]. split; [exact Hf|]. split; [reflexivity|exact Hr].
  - intros (Hrp & Hpr & Hs). unfold ptr_encode. destruct (SDRS p) as [l|] eqn:HS.
    + destruct Hs as [Hne Hl]. destruct (sds_encode_records l Hl) as (b & l' & Hb & Hf & Hr & Hnn).
      rewrite Hb. cbn [bind]. eexists. exists (FResp {| RPID := RPID p; PR := PR p; SDRS := Some l' |}).
      split; [reflexivity|]. split; [unfold filled_frame, filled_ptr; cbn [RPID PR SDRS]; rewrite HS; auto|].
      split; [reflexivity|]. rewrite le2_split by exact Hrp.
      exists (RPID p mod 256), (RPID p / 256), (PR p), b. cbn [RPID PR SDRS]. split; [reflexivity|].
      split; [pose proof (N.div_mod (RPID p) 256); lia|]. split; [reflexivity|]. split; [apply Hnn; exact Hne|exact Hr].
    + cbn [bind]. eexists. exists (FResp {| RPID := RPID p; PR := PR p; SDRS := None |}).
      split; [reflexivity|]. split; [unfold filled_frame, filled_ptr; cbn [RPID PR SDRS]; rewrite HS; auto|].
      split; [reflexivity|]. rewrite le2_split by exact Hrp.
      exists (RPID p mod 256), (RPID p / 256), (PR p), []. cbn [RPID PR SDRS]. split; [reflexivity|].
      split; [pose proof (N.div_mod (RPID p) 256); lia|]. split; reflexivity.
Qed.

(** ** Packets *)
Lemma header_agrees_eq b p q : header_agrees b p -> header_agrees b q ->
  (routed b = false -> pPRA p = pPRA q /\ pRCA p = pRCA q /\ pTTL p = pTTL q) -> pSFRD p = pSFRD q -> p = q.
Proof.
  intros (A1 & A2 & A3 & A4 & A5 & A6 & A7 & A8 & A9 & A10 & A11 & A12 & AR & A13 & A14)
         (B1 & B2 & B3 & B4 & B5 & B6 & B7 & B8 & B9 & B10 & B11 & B12 & BR & B13 & B14) HR HS.
  assert (HP : pPRA p = pPRA q /\ pRCA p = pRCA q /\ pTTL p = pTTL q).
  { destruct (routed b) eqn:R; [|exact (HR eq_refl)].
    destruct (AR eq_refl) as (C1 & C2 & C3), (BR eq_refl) as (D1 & D2 & D3). repeat split; congruence. }
  destruct HP as (P1 & P2 & P3).
  destruct p as [a1 a2 a3 a4 a5 a6 a7 a8 a9 a10 a11 a12 a13 a14 a15 a16 a17 a18], q as [c1 c2 c3 c4 c5 c6 c7 c8 c9 c10 c11 c12 c13 c14 c15 c16 c17 c18]; cbn [pPRV pSKID pPRF pRTE pENA pCMP pPR pHL pHE pFDL pPID pPT pPRA pRCA pTTL pHCS pSFRD pSFRCS] in *.
  clear AR BR HR. rewrite A1, A2, A3, A4, A5, A6, A7, A8, A9, A10, A11, A12, A13, A14, P1, P2, P3, HS.
  rewrite B1, B2, B3, B4, B5, B6, B7, B8, B9, B10, B11, B12, B13, B14. reflexivity.
Qed.

Lemma packet_accepted b p suffix spare : bytes_ok b = true -> bytes_ok suffix = true -> is_packet b p ->
  pkg_decode pkg0 (mkSlice (b ++ suffix) spare) = (p, DRet 0 false).
Proof.
  intros Hb Hs (HL & Hlen & Hsz & Hag & HR & H8 & H16 & f & Hf & Hm).
  assert (Hbf : bytes_ok (frame_of b) = true) by (unfold frame_of; apply bytes_ok_firstn, bytes_ok_skipn; exact Hb).
  apply C01_peers_agree8 in H8; [|apply bytes_ok_firstn; exact Hb].
  apply C01_peers_agree16 in H16; [|exact Hbf].
  assert (HPT : pPT p = byte_at b 9) by apply Hag. rewrite HPT in Hm.
  assert (H01 : byte_at b 9 = 0 \/ byte_at b 9 = 1) by (destruct f; cbn [frame_means] in Hm; destruct Hm as [-> _]; auto).
  apply (frame_means_decode _ _ _ Hbf) in Hm.
  assert (Hfp : frame_pos b = S (hcs_pos b)) by reflexivity.
  assert (Hc : hcs_pos b = 15%nat \/ hcs_pos b = 10%nat) by (unfold hcs_pos; destruct (routed b); auto).
  assert (HN : decl_hl b = N.of_nat (hcs_pos b) + 1) by (rewrite HL; unfold std_hl; rewrite Hfp; lia).
  assert (Hpos : decl_hl b + decl_fdl b + 2 = blen b) by (rewrite HL; unfold std_hl, blen; rewrite Hlen; lia).
  assert (Hcomp : complete b) by (unfold complete; lia).
  rewrite (suffix_ignored pkg0 b suffix [] spare Hb Hs Hcomp) by (rewrite HL; unfold std_hl; rewrite Hfp; lia).
  assert (Hacc : accepted b [] f).
  { unfold accepted. cbv zeta. rewrite app_nil_r. change (2 ^ 16 + 2) with 65538 in *. change (2 ^ 16) with 65536 in *.
    assert (Hu : u8 (decl_hl b + 255) = N.of_nat (hcs_pos b)).
    { rewrite HN. destruct Hc as [-> | ->]; reflexivity. }
    split; [lia|]. rewrite Hu. split; [unfold blen; lia|].
    split; [unfold area; rewrite Nat2N.id; exact H8|].
    split; [exact H01|].
    split; [exact Hm|]. split; [lia|]. split; [lia|].
    rewrite H16. f_equal. unfold frame_of, area. f_equal. f_equal. rewrite HL. unfold std_hl. lia. }
  pose proof (proj2 (accept_iff pkg0 b [] (final_of pkg0 b f) false Hb) (conj eq_refl (ex_intro _ f (conj Hacc eq_refl)))) as Hd.
  rewrite Hd. f_equal.
  pose proof (final_agrees pkg0 b f Hb) as Hag2.
  apply (header_agrees_eq b); [exact Hag2|exact Hag| |symmetry; exact Hf].
  intros Hr. destruct (HR Hr) as (-> & -> & ->). unfold final_of, hdr_of, set_SFRCS, set_SFRD, set_HCS.
  cbn [pPRA pRCA pTTL]. rewrite Hr. repeat split.
Qed.

Lemma encode_is_packet p : wf_pkg p ->
  exists p1 b p' hdr body, pkg_encode p = (p1, Ok b) /\ bytes_ok b = true /\ is_packet b p' /\ filled_pkg p p' hdr body.
Proof.
  intros Hw. destruct (pkg_roundtrip p Hw) as (p1 & hdr & body & b & He & Hfe & Hb & Hok & Hlen & Hdec).
  destruct (Hdec [] [] eq_refl) as (p' & Hd & Hfill). rewrite app_nil_r in Hd.
  exists p1, b, p', hdr, body. split; [exact He|]. split; [exact Hok|]. split; [|exact Hfill].
  destruct Hw as (_ & _ & _ & _ & _ & _ & _ & _ & _ & _ & Hrt & f & Hf & Hwf & Hpt & body' & Hfe' & Hne & Hlim).
  rewrite Hf in Hfe. rewrite Hfe in Hfe'. apply Ok_inj in Hfe'. subst body'.
  apply accept_iff in Hd; [|exact Hok]. destruct Hd as (_ & f2 & Hacc & Hp').
  pose proof (final_agrees pkg0 b f2 Hok) as Hag. rewrite <- Hp' in Hag.
  destruct Hfill as (_ & _ & _ & G4 & _ & _ & _ & G8 & _ & G10 & _ & G12 & G13 & G14 & G15 & G16 & G17 & g & g' & Hg & Hg' & Hgf).
  assert (HR : is1 (pRTE p) = routed b).
  { rewrite <- G4. destruct Hag as (_ & _ & _ & -> & _). fold (routed b). apply is1_bit_str. }
  assert (Hcp : hcs_pos b = length hdr) by (rewrite Hlen, HR; reflexivity).
  assert (Hfp : frame_pos b = S (length hdr)) by (unfold frame_pos; rewrite Hcp; reflexivity).
  assert (HHL : decl_hl b = blen hdr + 1) by (rewrite <- G8; symmetry; apply Hag).
  assert (HFD : decl_fdl b = blen body) by (rewrite <- G10; symmetry; apply Hag).
  assert (HLb : length b = (S (length hdr) + length body + 2)%nat) by (rewrite Hb, !app_length, length_le_enc; cbn [length]; lia).
  assert (Hfr : frame_of b = body).
  { unfold frame_of. rewrite HFD, Hfp. unfold blen. rewrite Nat2N.id.
    rewrite Hb, app_assoc. rewrite skipn_exact by (rewrite app_length; cbn [length]; lia). apply firstn_exact. reflexivity. }
  assert (Hbok : bytes_ok body = true) by (rewrite <- Hfr; unfold frame_of; apply bytes_ok_firstn, bytes_ok_skipn; exact Hok).
  assert (Hhd : firstn (hcs_pos b) b = hdr) by (rewrite Hcp, Hb; apply firstn_exact; reflexivity).
  assert (Hhok : bytes_ok hdr = true) by (rewrite <- Hhd; apply bytes_ok_firstn; exact Hok).
  unfold is_packet. split; [rewrite HHL; unfold std_hl, blen; rewrite Hfp; lia|].
  split; [rewrite HLb, Hfp, HFD; unfold blen; rewrite Nat2N.id; reflexivity|].
  split. { unfold blen in *. rewrite HLb. change (2 ^ 16 + 2) with 65538. change (2 ^ 16) with 65536 in *. rewrite HR in *. rewrite Hlen. destruct (routed b); lia. }
  split; [exact Hag|].
  split. { intros Hr. rewrite Hr in HR. rewrite HR in Hrt. rewrite G13, G14, G15. exact Hrt. }
  split. { rewrite Hhd. replace (byte_at b (hcs_pos b)) with (crc8 hdr) by (rewrite <- G16; apply Hag). apply C01_crc8_is_polynomial_remainder. exact Hhok. }
  split. { rewrite Hfr. replace (sfrcs_of b) with (crc16 body) by (rewrite <- G17; apply Hag). apply C01_crc16_is_polynomial_remainder. exact Hbok. }
  exists g'. split; [exact Hg'|].
  destruct (frame_encode_means f Hwf) as (body2 & f3 & Hb2 & Hf3 & Hm). rewrite Hfe in Hb2. apply Ok_inj in Hb2. subst body2.
  rewrite Hfr. replace (pPT p') with (frame_type f) by (rewrite G12; symmetry; exact Hpt).
  pose proof (frame_means_decode _ _ _ Hbok Hm) as Hd3.
  assert (Hacc5 : frame_decode (byte_at b 9) (frame_of b) = Ok f2) by apply Hacc.
  replace (byte_at b 9) with (frame_type f) in Hacc5.
  2:{ rewrite <- Hpt, <- G12. apply Hag. }
  rewrite Hfr, Hd3 in Hacc5. apply Ok_inj in Hacc5. subst f3.
  replace g' with f2; [exact Hm|]. rewrite Hp' in Hg'. unfold final_of in Hg'. cbn [pSFRD set_SFRCS set_SFRD] in Hg'. congruence.
Qed.
End LayoutFacts3.
