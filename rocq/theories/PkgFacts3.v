(** * PkgFacts3: package encoding: round trip, repeatability, lengths. *)
From Coq Require Import Lia ZifyBool ZifyNat ZifyN.
From Verif Require Import Spec_Go GoBase Spec_Bits BaseFacts Crc Float64 SubRecords Records Package
  Spec_Crc Spec_Wf Spec_Rec Spec_Pkg SubFacts RecFacts DecFacts DecWf DecWf2 CrcFacts PkgFacts PkgFacts2 Spec_Go EncOk.
Local Arguments N.add : simpl never.
Local Arguments N.mul : simpl never.

Section PkgFacts3.
Context {E : go_env}.

Lemma pkg_flags a b c d e :
  bits_ok 2 a = true -> bits_ok 1 b = true -> bits_ok 2 c = true -> bits_ok 1 d = true -> bits_ok 2 e = true ->
  exists v, parse8 (a ++ b ++ c ++ d ++ e) = Ok v /\ v < 256 /\
    substr 0 2 (fmt_b 8 v) = a /\ fbit 2 (fmt_b 8 v) = b /\ substr 3 5 (fmt_b 8 v) = c /\
    fbit 5 (fmt_b 8 v) = d /\ skipn 6 (fmt_b 8 v) = e.
Proof.
  intros Ha Hb Hc Hd He.
  destruct (parse8_bits (a ++ b ++ c ++ d ++ e)) as (v & Hp & Hv & Hf).
  { change 8%nat with (2 + (1 + (2 + (1 + 2))))%nat. repeat apply bits_ok_app; assumption. }
  apply bits2_char in Ha, Hc, He. apply bits1_char in Hb, Hd.
  destruct Ha as (a1 & a2 & -> & _). destruct Hb as (b1 & -> & _). destruct Hc as (c1 & c2 & -> & _).
  destruct Hd as (d1 & -> & _). destruct He as (e1 & e2 & -> & _).
  exists v. rewrite Hf. repeat split; assumption.
Qed.

(** The header bytes before the checksum, as Encode writes them. *)
Definition enc_hdr (p : package) (flags hl fdl : N) : bytes :=
  [pPRV p] ++ [pSKID p] ++ [flags] ++ [hl] ++ [pHE p] ++ le_enc 2 fdl ++ le_enc 2 (pPID p) ++ [pPT p]
  ++ (if is1 (pRTE p) then le_enc 2 (pPRA p) ++ le_enc 2 (pRCA p) ++ [pTTL p] else []).

Definition eff_hl (p : package) : N := if pHL p =? 0 then if is1 (pRTE p) then 16 else 11 else pHL p.

Lemma pkg_encode_ok p p1 b : pkg_encode p = (p1, Ok b) <->
  exists flags body, parse8 (pPRF p ++ pRTE p ++ pENA p ++ pCMP p ++ pPR p) = Ok flags /\
    frame_encode (pSFRD p) = Ok body /\
    p1 = set_FDL (u16 (blen body)) (set_HL (eff_hl p) p) /\
    b = enc_hdr p flags (eff_hl p) (u16 (blen body)) ++ [crc8 (enc_hdr p flags (eff_hl p) (u16 (blen body)))] ++
        (if 0 <? u16 (blen body) then body ++ le_enc 2 (crc16 body) else []).
Proof.
  unfold pkg_encode. fold (eff_hl p). cbv zeta. destruct (parse8 _) as [fl| | |]; 
    [| split; [discriminate|intros (?&?&?&_); discriminate] .. ].
  cbn [pSFRD set_HL]. destruct (frame_encode (pSFRD p)) as [body| | |];
    [| split; [discriminate|intros (?&?&_&?&_); discriminate] .. ].
  split.
  - intros H. injection H as <- <-. exists fl, body. repeat split.
    rewrite <- app_assoc. reflexivity.
  - intros (fl' & body' & Hf & Hb & -> & ->). apply Ok_inj in Hf, Hb. subst.
    unfold enc_hdr. rewrite <- app_assoc. reflexivity.
Qed.

Lemma word2 v : v < 2 ^ 16 -> v mod 256 + 256 * (v / 256 mod 256) = v.
Proof.
  intros H. change (2 ^ 16) with 65536 in H. rewrite (N.mod_small (v / 256)) by (apply N.div_lt_upper_bound; lia).
  pose proof (N.div_mod v 256). lia.
Qed.

Lemma le_enc2 v : le_enc 2 v = [v mod 256; v / 256 mod 256].
Proof. reflexivity. Qed.

(** Reading back the fields of an encoded header. *)
Lemma enc_hdr_fields p flags hl fdl rest :
  flags < 256 -> fbit 2 (fmt_b 8 flags) = pRTE p -> fdl < 2 ^ 16 -> pPID p < 2 ^ 16 ->
  (is1 (pRTE p) = true -> pPRA p < 2 ^ 16 /\ pRCA p < 2 ^ 16) ->
  let h := enc_hdr p flags hl fdl ++ rest in
  routed h = is1 (pRTE p) /\ length (enc_hdr p flags hl fdl) = (if is1 (pRTE p) then 15%nat else 10%nat) /\
  byte_at h 0 = pPRV p /\ byte_at h 1 = pSKID p /\ byte_at h 2 = flags /\ byte_at h 3 = hl /\ byte_at h 4 = pHE p /\
  word_at h 5 = fdl /\ word_at h 7 = pPID p /\ byte_at h 9 = pPT p /\
  (is1 (pRTE p) = true -> word_at h 10 = pPRA p /\ word_at h 12 = pRCA p /\ byte_at h 14 = pTTL p).
Proof.
  intros Hfl Hrte Hfdl Hpid Hrt h.
  assert (byte_at h 2 = flags) as H2 by reflexivity.
  assert (routed h = is1 (pRTE p)) as Hr.
  { rewrite <- rte_routed; [|rewrite H2; exact Hfl]. rewrite H2, Hrte. reflexivity. }
  split; [exact Hr|]. split.
  { unfold enc_hdr. destruct (is1 (pRTE p)); reflexivity. }
  repeat (split; [reflexivity|]).
  subst h. unfold enc_hdr, word_at, byte_at. rewrite !le_enc2. cbn [app nth].
  split; [apply word2; exact Hfdl|]. split; [apply word2; exact Hpid|]. split; [reflexivity|].
  intros H1. rewrite H1. destruct (Hrt H1) as [Ha Hb]. cbn [app nth].
  split; [apply word2; exact Ha|]. split; [apply word2; exact Hb|reflexivity].
Qed.

Lemma bytes_ok_single v : v < 256 -> bytes_ok [v] = true.
Proof. intros H. rewrite bytes_ok_cons, (proj2 (byte_ok_lt v) H). reflexivity. Qed.

(** ** Any bytes that Encode produces for a frame that fits are accepted, as far
    as the packet level is concerned: the frame decoder decides. *)
Lemma encoded_accepted p p1 b body f' :
  pPRV p < 256 -> pSKID p < 256 -> bits_ok 2 (pPRF p) = true -> bits_ok 1 (pRTE p) = true ->
  bits_ok 2 (pENA p) = true -> bits_ok 1 (pCMP p) = true -> bits_ok 2 (pPR p) = true ->
  pHE p < 256 -> pPID p < 2 ^ 16 -> (pPT p = 0 \/ pPT p = 1) ->
  (pHL p = 0 \/ pHL p = (if is1 (pRTE p) then 16 else 11)) ->
  (is1 (pRTE p) = true -> pPRA p < 2 ^ 16 /\ pRCA p < 2 ^ 16 /\ pTTL p < 256) ->
  pkg_encode p = (p1, Ok b) -> frame_encode (pSFRD p) = Ok body ->
  body <> [] -> bytes_ok body = true -> blen body + (if is1 (pRTE p) then 16 else 11) < 2 ^ 16 ->
  frame_decode (pPT p) body = Ok f' ->
  exists hdr, bytes_ok b = true /\ length hdr = (if is1 (pRTE p) then 15%nat else 10%nat) /\
    b = hdr ++ [crc8 hdr] ++ body ++ le_enc 2 (crc16 body) /\
    forall q suffix spare, bytes_ok suffix = true ->
    exists p', pkg_decode q (mkSlice (b ++ suffix) spare) = (p', DRet 0 false) /\
      p' = {| pPRV := pPRV p; pSKID := pSKID p; pPRF := pPRF p; pRTE := pRTE p; pENA := pENA p;
              pCMP := pCMP p; pPR := pPR p; pHL := (if is1 (pRTE p) then 16 else 11); pHE := pHE p;
              pFDL := blen body; pPID := pPID p; pPT := pPT p;
              pPRA := if is1 (pRTE p) then pPRA p else pPRA q;
              pRCA := if is1 (pRTE p) then pRCA p else pRCA q;
              pTTL := if is1 (pRTE p) then pTTL p else pTTL q;
              pHCS := crc8 hdr; pSFRD := Some f'; pSFRCS := crc16 body |}.
Proof.
  intros Hprv Hsk H1 H2 H3 H4 H5 Hhe Hpid Hpt Hhl Hrt Henc Hfe Hne Hbok Hlim Hdec.
  destruct (pkg_flags _ _ _ _ _ H1 H2 H3 H4 H5) as (fl & Hp & Hfl & F1 & F2 & F3 & F4 & F5).
  apply pkg_encode_ok in Henc. destruct Henc as (fl' & body' & Hp' & Hfe' & _ & Hb).
  rewrite Hp in Hp'. apply Ok_inj in Hp'. subst fl'. rewrite Hfe in Hfe'. apply Ok_inj in Hfe'. subst body'.
  set (L := if is1 (pRTE p) then 16 else 11) in *.
  assert (eff_hl p = L) as HhL.
  { unfold eff_hl. subst L. destruct Hhl as [->| ->]; [reflexivity|]. destruct (is1 (pRTE p)); reflexivity. }
  assert (L = 16 \/ L = 11) as HL by (subst L; destruct (is1 (pRTE p)); auto).
  assert (u16 (blen body) = blen body) as Hu by (apply u16_small; lia).
  assert (0 < blen body) as Hpos by (unfold blen; destruct body; [congruence|cbn [length]; lia]).
  rewrite HhL, Hu in Hb. rewrite (proj2 (N.ltb_lt _ _) Hpos) in Hb.
  set (hdr := enc_hdr p fl L (blen body)) in *.
  assert (Hrt' : is1 (pRTE p) = true -> pPRA p < 2 ^ 16 /\ pRCA p < 2 ^ 16) by (intros Hr; destruct (Hrt Hr); tauto).
  assert (blen body < 2 ^ 16) as Hbl by lia.
  assert (bytes_ok hdr = true) as Hhok.
  { subst hdr. unfold enc_hdr. rewrite !bytes_ok_app, !le_enc_ok, !bytes_ok_single by lia.
    cbn [andb]. destruct (is1 (pRTE p)) eqn:Hr; [|reflexivity].
    rewrite !bytes_ok_app, !le_enc_ok, bytes_ok_single; [reflexivity|]. apply Hrt. reflexivity. }
  assert (crc8 hdr < 256) as Hc8 by (apply crc8_lt; exact Hhok).
  exists hdr.
  assert (Hlen : length hdr = (if is1 (pRTE p) then 15%nat else 10%nat)).
  { apply (enc_hdr_fields p fl L (blen body) [] Hfl F2 Hbl Hpid Hrt'). }
  assert (bytes_ok b = true) as Hbb.
  { rewrite Hb. rewrite !bytes_ok_app, Hhok, Hbok, le_enc_ok, bytes_ok_single by exact Hc8. reflexivity. }
  split; [exact Hbb|]. split; [exact Hlen|]. split; [exact Hb|].
  intros q suffix spare Hs.
  set (H := hdr ++ [crc8 hdr]).
  assert (b ++ suffix = H ++ body ++ (le_enc 2 (crc16 body) ++ suffix)) as Hbs.
  { rewrite Hb. subst H. rewrite <- !app_assoc. reflexivity. }
  pose proof (enc_hdr_fields p fl L (blen body) [crc8 hdr] Hfl F2 Hbl Hpid Hrt') as Hf. cbv zeta in Hf.
  fold hdr in Hf. fold H in Hf.
  destruct Hf as (Hr & _ & A0 & A1 & A2 & A3 & A4 & A5 & A7 & A9 & Ar).
  assert (HcsH : hcs_pos H = length hdr) by (unfold hcs_pos; rewrite Hr, Hlen; reflexivity).
  assert (length H = S (length hdr)) as HlH by (subst H; rewrite app_length; cbn [length]; lia).
  assert (std_packet H body (le_enc 2 (crc16 body) ++ suffix)) as Hstd.
  { split; [unfold frame_pos; lia|]. split.
    - unfold decl_hl. rewrite A3. unfold blen. rewrite HlH, Hlen. subst L. destruct (is1 (pRTE p)); reflexivity.
    - unfold decl_fdl. exact A5. }
  assert (byte_at H (length hdr) = crc8 hdr) as Hcb.
  { subst H. unfold byte_at. rewrite app_nth2, Nat.sub_diag by lia. reflexivity. }
  assert (crc16 body < 65536) as Hc16 by (apply crc16_lt; exact Hbok).
  assert (Hwc : word_at (le_enc 2 (crc16 body) ++ suffix) 0 = crc16 body).
  { rewrite le_enc2. unfold word_at. cbn [app nth]. apply word2. exact Hc16. }
  assert (accepted (H ++ body ++ le_enc 2 (crc16 body) ++ suffix) spare f') as Hacc.
  { apply std_accept; [exact Hstd|]. split; [rewrite le_enc2; discriminate|].
    split; [unfold blen in *; rewrite HlH, Hlen; subst L; destruct (is1 (pRTE p)); lia|].
    rewrite A9. rewrite HcsH. rewrite Hcb. split; [subst H; rewrite firstn_exact by reflexivity; reflexivity|].
    split; [exact Hpt|]. split; [exact Hdec|]. exact Hwc. }
  exists (final_of q (b ++ suffix) f'). split.
  { apply accept_iff; [rewrite bytes_ok_app, Hbb; exact Hs|]. split; [reflexivity|]. exists f'.
    split; [|reflexivity]. rewrite Hbs. exact Hacc. }
  rewrite Hbs. clearbody H hdr. unfold final_of, hdr_of, set_SFRCS, set_SFRD, set_HCS.
  cbn [pPRV pSKID pPRF pRTE pENA pCMP pPR pHL pHE pFDL pPID pPT pPRA pRCA pTTL pHCS pSFRD pSFRCS].
  assert (10 <= length hdr)%nat as H10 by (rewrite Hlen; destruct (is1 (pRTE p)); lia).
  rewrite routed_app, hcs_pos_app by lia. rewrite HcsH, Hr.
  rewrite !byte_at_app, !word_at_app by lia. rewrite (byte_at_app H _ (length hdr)) by lia.
  rewrite A0, A1, A2, A3, A4, A5, A7, A9, Hcb, F1, F2, F3, F4, F5.
  assert (sfrcs_of (H ++ body ++ le_enc 2 (crc16 body) ++ suffix) = crc16 body) as ->.
  { unfold sfrcs_of. rewrite frame_pos_app, decl_fdl_app by lia. destruct Hstd as (S1 & _ & S3).
    rewrite <- S1, S3, to_nat_blen. etransitivity; [|exact Hwc].
    generalize (le_enc 2 (crc16 body) ++ suffix). intros R. unfold word_at. rewrite app_assoc, <- app_length.
    rewrite !app_nth2 by lia. repeat f_equal; lia. }
  destruct (is1 (pRTE p)) eqn:Hr1; [|reflexivity].
  destruct (Ar eq_refl) as (B1 & B2 & B3). rewrite !word_at_app, byte_at_app by lia.
  rewrite B1, B2, B3. reflexivity.
Qed.


Lemma frame_type_01 f : frame_type f = 0 \/ frame_type f = 1.
Proof. destruct f; cbn; auto. Qed.

(** ** C14 *)
Lemma pkg_roundtrip p : wf_pkg p ->
  exists p1 hdr body b, pkg_encode p = (p1, Ok b) /\ frame_encode (pSFRD p) = Ok body /\
    b = hdr ++ [crc8 hdr] ++ body ++ le_enc 2 (crc16 body) /\ bytes_ok b = true /\
    length hdr = (if is1 (pRTE p) then 15%nat else 10%nat) /\
    forall suffix spare, bytes_ok suffix = true ->
    exists p', pkg_decode pkg0 (mkSlice (b ++ suffix) spare) = (p', DRet 0 false) /\ filled_pkg p p' hdr body.
Proof.
  intros (Hprv & Hsk & H1 & H2 & H3 & H4 & H5 & Hhe & Hpid & Hhl & Hrt & f & Hf & Hwf & Hpt & body & Hfe & Hne & Hlim).
  destruct (pkg_flags _ _ _ _ _ H1 H2 H3 H4 H5) as (fl & Hp & _).
  destruct (frame_roundtrip f Hwf) as (body' & f' & Hfe' & Hfd & Hfill).
  rewrite Hfe in Hfe'. apply Ok_inj in Hfe'. subst body'.
  rewrite <- Hf in Hfe.
  destruct (pkg_encode p) as [p1 [b| | |]] eqn:Henc.
  2-4: exfalso; unfold pkg_encode in Henc; cbv zeta in Henc; rewrite Hp in Henc; cbn [pSFRD set_HL] in Henc;
       rewrite Hfe in Henc; discriminate.
  assert (bytes_ok body = true) as Hbok.
  { eapply frame_encode_ok; [apply wf_go_frame; exact Hwf|]. rewrite <- Hf. exact Hfe. }
  destruct (encoded_accepted p p1 b body f') as (hdr & Hbb & Hlen & Hb & Hdec); try assumption.
  - rewrite Hpt. apply frame_type_01.
  - intros Hr. rewrite Hr in Hrt. tauto.
  - rewrite Hpt. exact Hfd.
  - exists p1, hdr, body, b. repeat (split; [first [assumption|reflexivity]|]).
    intros suffix spare Hs. destruct (Hdec pkg0 suffix spare Hs) as (p' & Hd & Hp'). exists p'. split; [exact Hd|].
    subst p'. unfold filled_pkg.
    cbn [pPRV pSKID pPRF pRTE pENA pCMP pPR pHL pHE pFDL pPID pPT pPRA pRCA pTTL pHCS pSFRD pSFRCS pkg0].
    repeat (split; [reflexivity|]).
    split; [unfold blen; rewrite Hlen; destruct (is1 (pRTE p)); reflexivity|].
    repeat (split; [reflexivity|]).
    destruct (is1 (pRTE p)); destruct Hrt as (Hra & Hrb & Hrc).
    + repeat (split; [reflexivity|]). exists f, f'. auto.
    + repeat (split; [auto|]). exists f, f'. auto.
Qed.

(** ** C33 *)
Lemma accepted_encodes p data spare p' : pb_total -> bytes_ok data = true ->
  pkg_decode p (mkSlice data spare) = (p', DRet 0 false) ->
  exists p1 b, pkg_encode p' = (p1, Ok b).
Proof.
  intros Hpb Hb Hd. apply accept_iff in Hd; [|exact Hb]. destruct Hd as (_ & f & Ha & ->).
  destruct Ha as (_ & _ & _ & _ & Hf & _).
  assert (dec_frame f) as Hdf.
  { eapply frame_decode_wf; [|exact Hf]. unfold frame_of. apply bytes_ok_firstn, bytes_ok_skipn. exact Hb. }
  destruct (dec_frame_encodes f Hpb Hdf) as (body & Hbody).
  assert (Hfl : byte_at data 2 < 256) by (apply bytes_ok_nth; exact Hb).
  apply byte_ok_lt in Hfl.
  destruct (pkg_flags (substr 0 2 (fmt_b 8 (byte_at data 2))) (fbit 2 (fmt_b 8 (byte_at data 2)))
    (substr 3 5 (fmt_b 8 (byte_at data 2))) (fbit 5 (fmt_b 8 (byte_at data 2))) (skipn 6 (fmt_b 8 (byte_at data 2))))
    as (v & Hv & _).
  { apply substr02_ok; exact Hfl. } { apply fbit_ok; [exact Hfl|lia]. } { apply substr35_ok; exact Hfl. }
  { apply fbit_ok; [exact Hfl|lia]. } { apply skipn6_ok; exact Hfl. }
  eexists. eexists. apply pkg_encode_ok. exists v, body. unfold final_of, hdr_of.
  cbn [pPRF pRTE pENA pCMP pPR pSFRD set_HCS set_SFRD set_SFRCS].
  repeat split; assumption.
Qed.

(** ** C35 *)
Lemma eff_hl_idem p v : eff_hl (set_FDL v (set_HL (eff_hl p) p)) = eff_hl p.
Proof.
  unfold eff_hl. cbn [pHL set_HL set_FDL pRTE].
  destruct (N.eqb_spec (pHL p) 0) as [H|H].
  - destruct (is1 (pRTE p)); reflexivity.
  - rewrite (proj2 (N.eqb_neq _ _) H). reflexivity.
Qed.

Lemma encode_repeat p p1 b : pkg_encode p = (p1, Ok b) -> pkg_encode p1 = (p1, Ok b).
Proof.
  intros H. apply pkg_encode_ok in H. destruct H as (fl & body & Hp & Hf & -> & Hb).
  apply pkg_encode_ok. exists fl, body. cbn [pPRF pRTE pENA pCMP pPR pSFRD set_FDL set_HL].
  split; [exact Hp|]. split; [exact Hf|]. rewrite eff_hl_idem. split; [reflexivity|]. exact Hb.
Qed.

Lemma encode_repeat_all p : snd (pkg_encode (fst (pkg_encode p))) = snd (pkg_encode p).
Proof.
  destruct (pkg_encode p) as [p1 r] eqn:H. destruct r as [b| | |].
  - cbn [fst snd]. apply encode_repeat in H. rewrite H. reflexivity.
  - unfold pkg_encode in H. cbv zeta in H. destruct (parse8 _) as [fl| | |] eqn:Hp.
    2-4: injection H as <-; try discriminate; unfold pkg_encode; cbn [fst snd]; rewrite Hp; reflexivity.
    cbn [pSFRD set_HL] in H. destruct (frame_encode (pSFRD p)) eqn:Hf; try discriminate; injection H as <-.
    unfold pkg_encode. cbn [fst snd pPRF pRTE pENA pCMP pPR pSFRD set_HL]. cbv zeta. rewrite Hp.
    cbn [pSFRD set_HL]. rewrite Hf. reflexivity.
  - unfold pkg_encode in H. cbv zeta in H. destruct (parse8 _) as [fl| | |] eqn:Hp.
    2-4: injection H as <-; try discriminate; unfold pkg_encode; cbn [fst snd]; rewrite Hp; reflexivity.
    cbn [pSFRD set_HL] in H. destruct (frame_encode (pSFRD p)) eqn:Hf; try discriminate; injection H as <-.
    unfold pkg_encode. cbn [fst snd pPRF pRTE pENA pCMP pPR pSFRD set_HL]. cbv zeta. rewrite Hp.
    cbn [pSFRD set_HL]. rewrite Hf. reflexivity.
  - unfold pkg_encode in H. cbv zeta in H. destruct (parse8 _) as [fl| | |] eqn:Hp.
    2-4: injection H as <-; try discriminate; unfold pkg_encode; cbn [fst snd]; rewrite Hp; reflexivity.
    cbn [pSFRD set_HL] in H. destruct (frame_encode (pSFRD p)) eqn:Hf; try discriminate; injection H as <-.
    unfold pkg_encode. cbn [fst snd pPRF pRTE pENA pCMP pPR pSFRD set_HL]. cbv zeta. rewrite Hp.
    cbn [pSFRD set_HL]. rewrite Hf. reflexivity.
Qed.

(** The layout of whatever Encode emits: a header of the length implied by the
    route flag, then the frame, if its length is not a multiple of 2^16, then
    its checksum. *)
Lemma encode_layout p p1 b : pkg_encode p = (p1, Ok b) ->
  exists hdr body, frame_encode (pSFRD p) = Ok body /\
    length hdr = (if is1 (pRTE p) then 16%nat else 11%nat) /\
    byte_at hdr 3 = pHL p1 /\ word_at hdr 5 = u16 (blen body) /\ pFDL p1 = u16 (blen body) /\
    last hdr 0 = crc8 (removelast hdr) /\
    b = hdr ++ (if u16 (blen body) =? 0 then [] else body ++ le_enc 2 (crc16 body)).
Proof.
  intros H. apply pkg_encode_ok in H. destruct H as (fl & body & Hp & Hf & -> & ->).
  set (h := enc_hdr p fl (eff_hl p) (u16 (blen body))).
  exists (h ++ [crc8 h]), body.
  assert (length h = (if is1 (pRTE p) then 15%nat else 10%nat)) as Hl.
  { subst h. unfold enc_hdr. destruct (is1 (pRTE p)); reflexivity. }
  split; [exact Hf|]. split; [rewrite app_length, Hl; destruct (is1 (pRTE p)); reflexivity|].
  split; [reflexivity|]. split.
  { assert (u16 (blen body) < 2 ^ 16) as Hu by (unfold u16; apply N.mod_lt; lia).
    subst h. unfold enc_hdr. rewrite !le_enc2. unfold word_at. cbn [app nth]. apply word2. exact Hu. }
  split; [reflexivity|]. rewrite last_last, removelast_last. split; [reflexivity|].
  rewrite <- app_assoc. f_equal. f_equal.
  destruct (N.eqb_spec (u16 (blen body)) 0) as [->|Hn]; [reflexivity|].
  rewrite (proj2 (N.ltb_lt _ _)) by lia. reflexivity.
Qed.


Lemma quant_encode d : stable_sr d -> sr_encode (quant_sr d) = sr_encode d.
Proof.
  destruct d; cbn [quant_sr sr_encode stable_sr]; try reflexivity. intros (H1 & H2 & H3).
  unfold pos_encode. rewrite H1, H2, H3. unfold pos_speed_word. reflexivity.
Qed.

Lemma filled_rd_encode rd rd' : wf_rd rd -> stable_sr (SRD rd) -> filled_rd rd rd' -> rd_encode rd' = rd_encode rd.
Proof.
  intros Hw Hs (Ht & Hd & b & Hb & Hl).
  destruct (rd_encode_wf rd Hw) as (b2 & Hb2 & Hlt & He). rewrite Hb in Hb2. apply Ok_inj in Hb2. subst b2.
  rewrite He. unfold rd_encode. rewrite Hd. rewrite quant_encode by exact Hs. rewrite Hb. rewrite Hl.
  destruct Hw as (Hwf & Htt & _).
  assert ((if SRT rd' =? 0 then infer_type (quant_sr (SRD rd)) else Ok (SRT rd')) = Ok (SRT (fill_rd rd (blen b)))) as ->.
  { rewrite Ht. unfold fill_rd. cbn [SRT]. destruct (N.eqb_spec (SRT rd) 0) as [H0|H0].
    - destruct Htt as [Htt|[[_ Htt]|[Htt _]]].
      + rewrite H0 in Htt. destruct (SRD rd); cbn in *; try discriminate; try contradiction; reflexivity.
      + destruct (SRD rd); cbn in *; try contradiction; reflexivity.
      + rewrite Htt in H0. discriminate.
    - rewrite (proj2 (N.eqb_neq _ _) H0). reflexivity. }
  cbn [bind].
  assert ((if blen b =? 0 then sr_length (quant_sr (SRD rd)) else Ok (blen b)) = Ok (blen b)) as ->; [|reflexivity].
  destruct (N.eqb_spec (blen b) 0) as [H0|H0]; [|reflexivity].
  destruct b; [|unfold blen in H0; cbn in H0; lia].
  destruct (SRD rd); cbn [sr_encode wf_sr quant_sr sr_length] in *;
   try (rewrite Hb; reflexivity).
  - destruct (pos_roundtrip _ Hwf) as (bb & Hbb & _ & Hll). rewrite Hb in Hbb. apply Ok_inj in Hbb. subst bb.
    destruct (is1 (ALTE e)); discriminate.
  - destruct (abs_an_roundtrip _ Hwf) as (bb & Hbb & _ & Hll). rewrite Hb in Hbb. apply Ok_inj in Hbb. subst bb. discriminate.
Qed.

Lemma filled_rds_encode l l' : Forall wf_rd l -> Forall (fun rd => stable_sr (SRD rd)) l ->
  Forall2 filled_rd l l' -> rds_encode l' = rds_encode l.
Proof.
  intros Hw Hs H. induction H as [|rd rd' l l' Hrd Hl IH]; [reflexivity|].
  inversion Hw; subst. inversion Hs; subst. cbn [rds_encode].
  rewrite (filled_rd_encode rd rd') by assumption. rewrite IH by assumption. reflexivity.
Qed.

Lemma filled_sdr_encode s s' : wf_sdr s -> stable_sdr s -> filled_sdr s s' -> sdr_encode s' = sdr_encode s.
Proof.
  intros (_ & _ & _ & _ & _ & _ & _ & _ & _ & _ & Hw & b & Hb & Hlt & Hrl) Hs
    (E1 & E2 & E3 & E4 & E5 & E6 & E7 & E8 & E9 & E10 & E11 & E12 & E13 & Hf & b2 & Hb2 & Hl).
  rewrite Hb in Hb2. apply Ok_inj in Hb2. subst b2.
  unfold sdr_encode. rewrite (filled_rds_encode (RD s) (RD s')) by assumption. rewrite Hb. cbn [bind]. cbv zeta.
  rewrite E1, E2, E3, E4, E5, E6, E7, E8, E9, E10, E11, E12, E13, Hl.
  assert ((if blen b =? 0 then u16 (blen b) else blen b) = (if RL s =? 0 then u16 (blen b) else RL s)) as ->; [|reflexivity].
  rewrite u16_small by exact Hlt. destruct Hrl as [->| ->]; destruct (_ =? 0); reflexivity.
Qed.

Lemma filled_sds_encode l l' : Forall wf_sdr l -> Forall stable_sdr l ->
  Forall2 filled_sdr l l' -> sds_encode l' = sds_encode l.
Proof.
  intros Hw Hs H. induction H as [|rd rd' l l' Hrd Hl IH]; [reflexivity|].
  inversion Hw; subst. inversion Hs; subst. cbn [sds_encode].
  rewrite (filled_sdr_encode rd rd') by assumption. rewrite IH by assumption. reflexivity.
Qed.

Lemma filled_frame_encode f f' : wf_frame f -> stable_frame f -> filled_frame f f' ->
  frame_encode (Some f') = frame_encode (Some f).
Proof.
  destruct f as [l|p]; destruct f' as [l'|p']; cbn [wf_frame stable_frame filled_frame frame_encode]; try contradiction.
  - apply filled_sds_encode.
  - intros (_ & _ & Hw) Hs (H1 & H2 & H3). unfold ptr_encode. rewrite H1, H2.
    destruct (SDRS p) as [l|], (SDRS p') as [l'|]; try contradiction; [|reflexivity].
    destruct Hw as [_ Hw]. rewrite (filled_sds_encode l l') by assumption. reflexivity.
Qed.

Lemma decode_encode_canonical p p1 b : wf_pkg p ->
  (forall f, pSFRD p = Some f -> stable_frame f) ->
  pkg_encode p = (p1, Ok b) ->
  forall spare p' p2 r, pkg_decode pkg0 (mkSlice b spare) = (p', DRet 0 false) ->
  pkg_encode p' = (p2, r) -> r = Ok b.
Proof.
  intros Hw Hst Henc spare p' p2 r Hd Henc'.
  destruct (pkg_roundtrip p Hw) as (p1' & hdr & body & b' & He & Hfe & Hb & Hok & Hlen & Hdec).
  rewrite Henc in He. injection He as <- <-.
  destruct (Hdec [] spare eq_refl) as (p'' & Hd' & Hfill). rewrite app_nil_r in Hd'.
  rewrite Hd in Hd'. injection Hd' as <-.
  destruct Hfill as (E1 & E2 & E3 & E4 & E5 & E6 & E7 & EHL & E8 & EFDL & E9 & E10 & E11 & E12 & E13 & _ & _ & f & f' & Hf & Hf' & Hff).
  destruct Hw as (_ & _ & _ & _ & _ & _ & _ & _ & _ & Hhl & _ & f0 & Hf0 & Hwf & _ & _).
  rewrite Hf in Hf0. injection Hf0 as <-.
  pose proof (filled_frame_encode f f' Hwf (Hst f Hf) Hff) as Hfe'.
  apply pkg_encode_ok in Henc. destruct Henc as (fl & body' & Hp & Hfb & _ & Hbb).
  assert (eff_hl p' = eff_hl p) as Hl.
  { unfold eff_hl. rewrite EHL, E4. unfold blen. rewrite Hlen. destruct Hhl as [->| ->];
      destruct (is1 (pRTE p)); reflexivity. }
  assert (pkg_encode p' = (set_FDL (u16 (blen body')) (set_HL (eff_hl p') p'), Ok b)) as Hx.
  { apply pkg_encode_ok. exists fl, body'. rewrite E3, E4, E5, E6, E7. split; [exact Hp|].
    split; [rewrite Hf', Hfe', <- Hf; exact Hfb|]. split; [reflexivity|].
    rewrite Hl. unfold enc_hdr. rewrite E1, E2, E4, E8, E9, E10, E11, E12, E13. exact Hbb. }
  congruence.
Qed.
End PkgFacts3.
