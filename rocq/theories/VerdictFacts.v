(** * VerdictFacts: the decision table of Decode. *)
From Verif Require Import GoBase Crc Float64 SubRecords Records Package.
From Verif Require Import Spec_Bits Spec_Wf Spec_Rec Spec_Pkg Spec_Verdict BaseFacts CrcFacts SubFacts RecFacts PkgFacts PkgFacts2 PkgFacts3.
From Coq Require Import Lia ZifyBool ZifyN ZifyNat.

Section VerdictFacts.
Context {E : go_env}.

Lemma hdr_area_u8 data : decl_hl data < 256 -> u8 (decl_hl data + 255) = hdr_area_len data.
Proof.
  intros H. unfold hdr_area_len, u8. destruct (N.eqb_spec (decl_hl data) 0) as [->|Hn]; [reflexivity|].
  change (2 ^ 8) with 256.
  replace (decl_hl data + 255) with (decl_hl data - 1 + 1 * 256) by lia.
  rewrite N.mod_add by lia. apply N.mod_small. lia.
Qed.

Lemma decl_hl_lt data : bytes_ok data = true -> decl_hl data < 256.
Proof. intros H. unfold decl_hl, byte_at. exact (bytes_ok_nth _ _ H). Qed.

Lemma verdict_outcome data spare : bytes_ok data = true -> verdict data spare (outcome data spare).
Proof.
  intros Hb. unfold outcome. rewrite (hdr_area_u8 data (decl_hl_lt data Hb)).
  destruct (Nat.leb_spec (length data) (hcs_pos data)) as [H1|H1].
  { apply v_header_short. unfold header_present. lia. }
  assert (Hp : header_present data) by exact H1.
  destruct (N.ltb_spec (blen (data ++ spare)) (hdr_area_len data)) as [H2|H2].
  { apply v_header_panic; assumption. }
  destruct (N.eqb_spec (byte_at data (hcs_pos data)) (crc8 (area (data ++ spare) 0 (hdr_area_len data)))) as [H3|H3]; cbn [negb].
  2:{ apply v_header_sum; assumption. }
  assert (Hv : header_valid data spare) by (repeat split; assumption).
  destruct (Nat.leb_spec (length data) (frame_pos data)) as [H4|H4].
  { apply v_no_body; [exact Hv|]. unfold header_present, frame_pos in *. lia. }
  destruct (N.eqb_spec (byte_at data 9) 1) as [H5|H5]; destruct (N.eqb_spec (byte_at data 9) 0) as [H6|H6]; cbn [orb negb];
    try (apply v_type; [exact Hv|exact H4|unfold known_type; tauto]).
  all: assert (Hk : known_type data) by (unfold known_type; tauto).
  all: pose proof (frame_decode_returns (byte_at data 9) (frame_read data)) as Hr;
    destruct (Nat.leb_spec (length data) (frame_pos data + N.to_nat (decl_fdl data))) as [H7|H7];
    [ assert (Hn : ~ (frame_present data /\ frame_valid data)) by (unfold frame_present; lia);
      destruct (frame_decode (byte_at data 9) (frame_read data)); cbn [ares]; try (destruct Hr; fail);
      apply v_body; assumption | ].
  all: assert (Hfp : frame_present data) by exact H7;
    rewrite frame_read_of in * by lia;
    destruct (frame_decode (byte_at data 9) (frame_of data)) eqn:Hf; cbn [ares];
    [| | destruct Hr ..];
    try (apply v_body; try assumption; intros [_ [f Hf']]; congruence).
  all: assert (Hfv : frame_valid data) by (eexists; exact Hf).
  all: destruct (N.leb_spec (2 ^ 16) (decl_hl data + decl_fdl data)) as [H8|H8]; cbn [orb];
    [apply v_sum_panic; try assumption; unfold sum_area_inside; lia|];
    destruct (N.ltb_spec (blen (data ++ spare)) (decl_hl data + decl_fdl data)) as [H9|H9];
    [apply v_sum_panic; try assumption; unfold sum_area_inside; lia|];
    assert (Hs : sum_area_inside data spare) by (split; assumption);
    destruct (N.eqb_spec (sfrcs_of data) (crc16 (area (data ++ spare) (decl_hl data) (decl_fdl data)))) as [Hc|Hc];
    [apply v_ok|apply v_body_sum]; assumption.
Qed.

Lemma verdict_fun data spare o1 o2 : verdict data spare o1 -> verdict data spare o2 -> o1 = o2.
Proof.
  intros H1 H2.
  inversion H1; inversion H2; subst; try reflexivity; exfalso;
    unfold header_valid, header_present, frame_present, frame_pos, known_type in *;
    repeat match goal with H : _ /\ _ |- _ => destruct H end;
    try contradiction; try lia; tauto.
Qed.

Lemma verdict_iff p data spare o : bytes_ok data = true ->
  (snd (pkg_decode p (mkSlice data spare)) = o <-> verdict data spare o).
Proof.
  intros Hb. rewrite decode_out by exact Hb. split.
  - intros <-. apply verdict_outcome, Hb.
  - intros H. eapply verdict_fun; [apply verdict_outcome, Hb|exact H].
Qed.

Lemma encoded_std p p1 b body : header_typed p ->
  pkg_encode p = (p1, Ok b) -> frame_encode (pSFRD p) = Ok body -> bytes_ok body = true ->
  body <> [] -> blen body < 2 ^ 16 ->
  exists H, b = H ++ body ++ le_enc 2 (crc16 body) /\ std_packet H body (le_enc 2 (crc16 body)) /\
    bytes_ok b = true /\ byte_at H 9 = pPT p /\ blen H = (if is1 (pRTE p) then 16 else 11).
Proof.
  intros (Hprv & Hsk & H1 & H2 & H3 & H4 & H5 & Hhe & Hpid & Hpt & Hpra & Hrca & Httl & Hhl) Henc Hfe Hbok Hne Hbl.
  destruct (pkg_flags _ _ _ _ _ H1 H2 H3 H4 H5) as (fl & Hp & Hfl & F1 & F2 & F3 & F4 & F5).
  apply pkg_encode_ok in Henc. destruct Henc as (fl' & body' & Hp' & Hfe' & _ & Hb).
  rewrite Hp in Hp'. apply Ok_inj in Hp'. subst fl'. rewrite Hfe in Hfe'. apply Ok_inj in Hfe'. subst body'.
  set (L := if is1 (pRTE p) then 16 else 11) in *.
  assert (eff_hl p = L) as HhL.
  { unfold eff_hl. subst L. destruct Hhl as [->| ->]; [reflexivity|]. destruct (is1 (pRTE p)); reflexivity. }
  assert (L = 16 \/ L = 11) as HL by (subst L; destruct (is1 (pRTE p)); auto).
  assert (u16 (blen body) = blen body) as Hu by (apply u16_small; lia).
  assert (0 < blen body) as Hpos by (unfold blen; destruct body; [congruence|cbn [length]; lia]).
  rewrite HhL, Hu in Hb. rewrite (proj2 (N.ltb_lt _ _) Hpos) in Hb.
  set (hdr := enc_hdr p fl L (blen body)) in *.
  assert (Hrt' : is1 (pRTE p) = true -> pPRA p < 2 ^ 16 /\ pRCA p < 2 ^ 16) by (intros _; split; assumption).
  assert (bytes_ok hdr = true) as Hhok.
  { subst hdr. unfold enc_hdr. rewrite !bytes_ok_app, !le_enc_ok, !bytes_ok_single by lia.
    cbn [andb]. destruct (is1 (pRTE p)) eqn:Hr; [|reflexivity].
    rewrite !bytes_ok_app, !le_enc_ok, bytes_ok_single; [reflexivity|]. exact Httl. }
  assert (crc8 hdr < 256) as Hc8 by (apply crc8_lt; exact Hhok).
  assert (Hlen : length hdr = (if is1 (pRTE p) then 15%nat else 10%nat)).
  { apply (enc_hdr_fields p fl L (blen body) [] Hfl F2 Hbl Hpid Hrt'). }
  exists (hdr ++ [crc8 hdr]).
  set (H := hdr ++ [crc8 hdr]).
  pose proof (enc_hdr_fields p fl L (blen body) [crc8 hdr] Hfl F2 Hbl Hpid Hrt') as Hf. cbv zeta in Hf.
  fold hdr in Hf. fold H in Hf.
  destruct Hf as (Hr & _ & A0 & A1 & A2 & A3 & A4 & A5 & A7 & A9 & Ar).
  assert (HcsH : hcs_pos H = length hdr) by (unfold hcs_pos; rewrite Hr, Hlen; reflexivity).
  assert (length H = S (length hdr)) as HlH by (subst H; rewrite app_length; cbn [length]; lia).
  split. { rewrite Hb. subst H. rewrite <- !app_assoc. reflexivity. }
  assert (HbH : blen H = L).
  { unfold blen. rewrite HlH, Hlen. subst L. destruct (is1 (pRTE p)); reflexivity. }
  split. { split; [unfold frame_pos; lia|]. split; [unfold decl_hl; rewrite A3; symmetry; exact HbH|]. unfold decl_fdl. exact A5. }
  split. { rewrite Hb. rewrite !bytes_ok_app, Hhok, Hbok, le_enc_ok, bytes_ok_single by exact Hc8. reflexivity. }
  split; [exact A9|exact HbH].
Qed.

Lemma encoded_empty p p1 b : header_typed p ->
  pkg_encode p = (p1, Ok b) -> frame_encode (pSFRD p) = Ok [] ->
  bytes_ok b = true /\ length b = frame_pos b /\ decl_hl b = std_hl b /\
  byte_at b (hcs_pos b) = crc8 (firstn (hcs_pos b) b).
Proof.
  intros (Hprv & Hsk & H1 & H2 & H3 & H4 & H5 & Hhe & Hpid & Hpt & Hpra & Hrca & Httl & Hhl) Henc Hfe.
  destruct (pkg_flags _ _ _ _ _ H1 H2 H3 H4 H5) as (fl & Hp & Hfl & F1 & F2 & F3 & F4 & F5).
  apply pkg_encode_ok in Henc. destruct Henc as (fl' & body' & Hp' & Hfe' & _ & Hb).
  rewrite Hp in Hp'. apply Ok_inj in Hp'. subst fl'. rewrite Hfe in Hfe'. apply Ok_inj in Hfe'. subst body'.
  set (L := if is1 (pRTE p) then 16 else 11) in *.
  assert (eff_hl p = L) as HhL.
  { unfold eff_hl. subst L. destruct Hhl as [->| ->]; [reflexivity|]. destruct (is1 (pRTE p)); reflexivity. }
  rewrite HhL in Hb. change (u16 (blen [])) with 0 in Hb. change (0 <? 0) with false in Hb. cbv iota in Hb.
  rewrite app_nil_r in Hb.
  set (hdr := enc_hdr p fl L 0) in *.
  assert (L = 16 \/ L = 11) as HL by (subst L; destruct (is1 (pRTE p)); auto).
  assert (Hrt' : is1 (pRTE p) = true -> pPRA p < 2 ^ 16 /\ pRCA p < 2 ^ 16) by (intros _; split; assumption).
  assert (bytes_ok hdr = true) as Hhok.
  { subst hdr. unfold enc_hdr. rewrite !bytes_ok_app, !le_enc_ok, !bytes_ok_single by lia.
    cbn [andb]. destruct (is1 (pRTE p)) eqn:Hr; [|reflexivity].
    rewrite !bytes_ok_app, !le_enc_ok, bytes_ok_single; [reflexivity|]. exact Httl. }
  assert (crc8 hdr < 256) as Hc8 by (apply crc8_lt; exact Hhok).
  assert (H0 : 0 < 2 ^ 16) by reflexivity.
  assert (Hlen : length hdr = (if is1 (pRTE p) then 15%nat else 10%nat)).
  { apply (enc_hdr_fields p fl L 0 [] Hfl F2 H0 Hpid Hrt'). }
  pose proof (enc_hdr_fields p fl L 0 [crc8 hdr] Hfl F2 H0 Hpid Hrt') as Hf. cbv zeta in Hf.
  fold hdr in Hf. rewrite <- Hb in Hf.
  destruct Hf as (Hr & _ & A0 & A1 & A2 & A3 & A4 & A5 & A7 & A9 & Ar).
  assert (HcsH : hcs_pos b = length hdr) by (unfold hcs_pos; rewrite Hr, Hlen; reflexivity).
  split. { rewrite Hb. rewrite !bytes_ok_app, Hhok, bytes_ok_single by exact Hc8. reflexivity. }
  split. { unfold frame_pos. rewrite HcsH, Hb, app_length. cbn [length]. lia. }
  split. { unfold decl_hl, std_hl, frame_pos. rewrite A3, HcsH, Hlen. subst L. destruct (is1 (pRTE p)); reflexivity. }
  rewrite HcsH, Hb. unfold byte_at. rewrite app_nth2, Nat.sub_diag by lia. rewrite firstn_exact by reflexivity. reflexivity.
Qed.

Lemma encoded_accept_iff p p1 b body q spare : header_typed p ->
  pkg_encode p = (p1, Ok b) -> frame_encode (pSFRD p) = Ok body -> bytes_ok body = true ->
  blen body < 2 ^ 16 ->
  ((exists p', pkg_decode q (mkSlice b spare) = (p', DRet 0 false)) <->
   body <> [] /\ blen body + (if is1 (pRTE p) then 16 else 11) < 2 ^ 16 /\ (pPT p = 0 \/ pPT p = 1) /\
   exists f, frame_decode (pPT p) body = Ok f).
Proof.
  intros Hty Henc Hfe Hbok Hbl.
  destruct body as [|x body'] eqn:Eb.
  { destruct (encoded_empty p p1 b Hty Henc Hfe) as (Hb & Hlen & _). split; [|intros [[] _]; reflexivity].
    intros [p' Hd]. exfalso. apply accept_iff in Hd; [|exact Hb]. destruct Hd as (_ & f & Hacc & _).
    destruct Hacc as (Hf & _). lia. }
  rewrite <- Eb in *. assert (Hne : body <> []) by (rewrite Eb; discriminate). clear Eb.
  destruct (encoded_std p p1 b body Hty Henc Hfe Hbok Hne Hbl) as (H & Hb & Hstd & Hbb & H9 & HL).
  split.
  - intros [p' Hd]. apply accept_iff in Hd; [|exact Hbb]. destruct Hd as (_ & f & Hacc & _).
    rewrite Hb in Hacc. apply std_accept in Hacc; [|exact Hstd]. rewrite H9, HL in Hacc.
    destruct Hacc as (_ & Hl & _ & Hpt & Hfd & _). split; [exact Hne|]. split; [lia|]. split; [exact Hpt|].
    exists f. exact Hfd.
  - intros (_ & Hlim & Hpt & f & Hfd).
    destruct Hty as (Hprv & Hsk & H1 & H2 & H3 & H4 & H5 & Hhe & Hpid & _ & Hpra & Hrca & Httl & Hhl).
    destruct (encoded_accepted p p1 b body f Hprv Hsk H1 H2 H3 H4 H5 Hhe Hpid Hpt Hhl
      (fun _ => conj Hpra (conj Hrca Httl)) Henc Hfe Hne Hbok Hlim Hfd) as (hdr & _ & _ & _ & Hall).
    destruct (Hall q [] spare eq_refl) as (p' & Hd & _). rewrite app_nil_r in Hd. exists p'. exact Hd.
Qed.

Lemma encoded_empty_code p p1 b q spare : header_typed p ->
  pkg_encode p = (p1, Ok b) -> frame_encode (pSFRD p) = Ok [] ->
  snd (pkg_decode q (mkSlice b spare)) = DRet 132 true.
Proof.
  intros Hty Henc Hfe. destruct (encoded_empty p p1 b Hty Henc Hfe) as (Hb & Hlen & Hhl & Hc).
  apply verdict_iff; [exact Hb|]. apply v_no_body; [|exact Hlen].
  assert (Hs : std_hl b = N.of_nat (frame_pos b)) by reflexivity.
  assert (Hh : hdr_area_len b = N.of_nat (hcs_pos b)).
  { unfold hdr_area_len. rewrite Hhl, Hs. unfold frame_pos. destruct (N.eqb_spec (N.of_nat (S (hcs_pos b))) 0); lia. }
  unfold header_valid, header_present. rewrite Hh. split; [unfold frame_pos in Hlen; lia|]. split.
  - unfold blen. rewrite app_length. unfold frame_pos in Hlen. lia.
  - rewrite area_0, Nat2N.id, firstn_app.
    replace (hcs_pos b - length b)%nat with 0%nat by (unfold frame_pos in Hlen; lia).
    cbn [firstn]. rewrite app_nil_r. exact Hc.
Qed.

End VerdictFacts.
