(** * GivenFacts: proofs for Prop_Given.v. *)
From Coq Require Import Lia ZifyBool ZifyN ZifyNat.
From Verif Require Import GoBase Crc Float64 SubRecords Records Package Spec_Bits Spec_Wf Spec_Rec Spec_Pkg Spec_Flags Spec_Verdict Spec_Given
  BaseFacts SubFacts RecFacts FlagFacts SurviveFacts PkgFacts PkgFacts3 VerdictFacts.

Section GivenFacts.
Context {E : go_env}.

Lemma bytes_ok_app a b : bytes_ok (a ++ b) = true <-> bytes_ok a = true /\ bytes_ok b = true.
Proof. unfold bytes_ok. rewrite forallb_app, andb_true_iff. reflexivity. Qed.

Lemma sr_length_any d b : sr_encode d = Ok b -> blen b < 2 ^ 16 -> sr_length d = Ok (blen b).
Proof.
  intros He Hl. destruct d; cbn [sr_length sr_encode] in *;
    try (rewrite He, length_of_Ok, u16_small by exact Hl; reflexivity).
  unfold abs_an_encode in He. apply Ok_inj in He. subst b. reflexivity.
Qed.

Lemma rd_encode_headed rd : headed_rd rd ->
  exists b, sr_encode (SRD rd) = Ok b /\ blen b < 2 ^ 16 /\
    rd_encode rd = Ok ([type_of (SRD rd)] ++ le_enc 2 (blen b) ++ b).
Proof.
  intros (Ht & b & He & Hl & Hn). exists b. split; [exact He|]. split; [exact Hl|]. unfold rd_encode.
  assert (H1 : (if SRT rd =? 0 then infer_type (SRD rd) else Ok (SRT rd)) = Ok (type_of (SRD rd))).
  { destruct (SRT rd =? 0) eqn:H0.
    - apply N.eqb_eq in H0. destruct Ht as [Ht|[_ Ht]].
      + rewrite H0 in Ht. destruct (SRD rd); try discriminate; try reflexivity.
      + destruct (SRD rd); try reflexivity; try contradiction. discriminate.
    - apply N.eqb_neq in H0. destruct Ht as [Ht|[Ht _]]; [congruence|contradiction]. }
  assert (H2 : (if SRL rd =? 0 then sr_length (SRD rd) else Ok (SRL rd)) = Ok (blen b)).
  { destruct (SRL rd =? 0) eqn:H0; [exact (sr_length_any _ _ He Hl)|]. apply N.eqb_neq in H0. destruct Hn; congruence. }
  rewrite H1. cbn [bind]. rewrite H2. cbn [bind]. rewrite He. reflexivity.
Qed.

Lemma rds_step dep t sb b' fuel : blen sb < 2 ^ 16 -> (length ([t] ++ le_enc 2 (blen sb) ++ sb ++ b') <= fuel)%nat ->
  exists fuel', (length b' <= fuel')%nat /\
  rds_loop (sub_decode (S dep)) fuel ([t] ++ le_enc 2 (blen sb) ++ sb ++ b') =
  (d <- sub_decode (S dep) t (blen sb) sb ;;
   l <- rds_loop (sub_decode (S dep)) fuel' b' ;;
   Ok ({| SRT := t; SRL := blen sb; SRD := d |} :: l)).
Proof.
  intros Hlen Hfuel. cbn [app] in *. destruct fuel as [|fuel]; [cbn in Hfuel; lia|]. exists fuel.
  split; [cbn [length] in Hfuel; rewrite !app_length in Hfuel; lia|].
  change (rds_loop (sub_decode (S dep)) (S fuel) (t :: le_enc 2 (blen sb) ++ sb ++ b'))
    with ('(t, r) <- read_byte (t :: le_enc 2 (blen sb) ++ sb ++ b') ;;
          '(lb, r) <- buffer_read (zeros 2) r ;;
          let len := le_dec lb in
          let '(sub, r) := buffer_next len r in
          d <- sub_decode (S dep) t len sub ;;
          l <- rds_loop (sub_decode (S dep)) fuel r ;;
          Ok ({| SRT := t; SRL := len; SRD := d |} :: l)).
  cbn [read_byte bind].
  rewrite buffer_read_full by (try rewrite length_le_enc; try discriminate; reflexivity).
  cbn [bind]. rewrite le_dec_enc_id by exact Hlen. cbv zeta. rewrite buffer_next_app. reflexivity.
Qed.

Lemma rds_given dep l : forall b, Forall headed_rd l -> rds_encode l = Ok b -> bytes_ok b = true ->
  forall fuel, (length b <= fuel)%nat ->
  ((exists l', rds_loop (sub_decode (S dep)) fuel b = Ok l' /\ Forall2 completed_rd l l') <->
   Forall (fun rd => survives (SRD rd)) l).
Proof.
  induction l as [|rd l IH]; intros b Hh He Hb fuel Hf.
  - cbn [rds_encode] in He. apply Ok_inj in He. subst b. split; [constructor|]. intros _. exists []. split; [destruct fuel; reflexivity|constructor].
  - inversion Hh as [|? ? Hrd Hl]; subst. destruct (rd_encode_headed rd Hrd) as (sb & Hsb & Hlen & Hre).
    cbn [rds_encode] in He. rewrite Hre in He. cbn [bind] in He. apply bind_ok in He as (b' & Hb' & He). apply Ok_inj in He.
    rewrite <- !app_assoc in He. subst b.
    apply bytes_ok_app in Hb as [_ Hb]. apply bytes_ok_app in Hb as [_ Hb]. apply bytes_ok_app in Hb as [Hbs Hbb].
    destruct (rds_step dep (type_of (SRD rd)) sb b' fuel Hlen Hf) as (fuel' & Hf' & Hst).
    specialize (IH b' Hl Hb' Hbb fuel' Hf'). assert (Hsv := survives_iff (SRD rd) sb dep (blen sb) Hsb Hbs). split.
    + intros (l' & Hd & Hc). rewrite Hst in Hd. apply bind_ok in Hd as (d & Hd1 & Hd). apply bind_ok in Hd as (l2 & Hd2 & Hd).
      apply Ok_inj in Hd. subst l'. inversion Hc as [|? ? ? ? Hc1 Hc2]; subst. constructor.
      * apply Hsv. destruct Hc1 as (Hc1 & _). cbn [SRD] in Hc1. rewrite Hc1 in Hd1. exact Hd1.
      * apply IH. exists l2. auto.
    + intros Hs. inversion Hs as [|? ? Hs1 Hs2]; subst. apply Hsv in Hs1. apply IH in Hs2 as (l' & Hd & Hc).
      exists ({| SRT := type_of (SRD rd); SRL := blen sb; SRD := SRD rd |} :: l'). split.
      * rewrite Hst, Hs1. cbn [bind]. rewrite Hd. reflexivity.
      * constructor; [|exact Hc]. split; [reflexivity|]. split; [reflexivity|]. exists sb. auto.
Qed.

Lemma opt4_given flag v r : bits_ok 1 flag = true -> v < 2 ^ 32 ->
  opt4 flag (opt_w flag (le_enc 4 v) ++ r) = Ok (if is1 flag then v else 0, r).
Proof.
  intros Hf Hv. unfold opt4, opt_w. destruct (is1 flag); [|reflexivity].
  rewrite reader_read_full by (try rewrite length_le_enc; try discriminate; reflexivity). cbn [bind].
  rewrite le_dec_enc_id by exact Hv. reflexivity.
Qed.

Lemma flag_cases f : bits_ok 1 f = true -> (f = s0 /\ is1 f = false) \/ (f = s1 /\ is1 f = true).
Proof. intros H. destruct (bits1_cases f H) as [->| ->]; [left|right]; split; reflexivity. Qed.

(** what any successful decoding of a record says about the flag strings *)
Lemma sdr_decode_flags dec rl rn v rest s' r' : rl < 2 ^ 16 -> rn < 2 ^ 16 -> v < 256 ->
  sdr_decode dec (le_enc 2 rl ++ le_enc 2 rn ++ [v] ++ rest) = Ok (s', r') -> sdr_flag_strings s' = cut sdr_widths (shown v).
Proof.
  intros Hrl Hrn Hv H. unfold sdr_decode in H.
  rewrite reader_read_full in H by (try rewrite length_le_enc; try discriminate; reflexivity). cbn [bind] in H.
  rewrite reader_read_full in H by (rewrite ?length_le_enc; try discriminate; reflexivity).
  cbn [bind app read_byte] in H.
  apply bind_ok in H as ([oid r1] & _ & H). apply bind_ok in H as ([ev r2] & _ & H). apply bind_ok in H as ([tm r3] & _ & H).
  apply bind_ok in H as ([ss r4] & _ & H). apply bind_ok in H as ([rs r5] & _ & H). apply bind_ok in H as ([rd r6] & _ & H).
  apply Ok_inj in H. apply (f_equal fst) in H. cbn [fst] in H. rewrite <- H. unfold sdr_flag_strings.
  cbn [SSOD RSOD GRP RPP TMFE EVFE OBFE]. rewrite <- (shown_fmt v Hv). unfold shown.
  generalize (N.testbit v 7), (N.testbit v 6), (N.testbit v 5), (N.testbit v 4), (N.testbit v 3), (N.testbit v 2), (N.testbit v 1), (N.testbit v 0).
  intros [|] [|] [|] [|] [|] [|] [|] [|]; reflexivity.
Qed.

Lemma sdr_given dep s b r : headed_sdr s -> sdr_encode s = Ok b -> bytes_ok b = true ->
  (7 <= length b)%nat /\
  ((exists s' r', sdr_decode (rds_decode_d (S dep)) (b ++ r) = Ok (s', r') /\ completed_sdr s s') -> returns_sdr s) /\
  (returns_sdr s -> exists s', sdr_decode (rds_decode_d (S dep)) (b ++ r) = Ok (s', r) /\ completed_sdr s s') /\
  (documented_widths sdr_widths (sdr_flag_strings s) ->
   forall s' r', sdr_decode (rds_decode_d (S dep)) (b ++ r) = Ok (s', r') -> r' = r).
Proof.
  intros (Hrn & Hsst & Hrst & Hoid & Hev & Htm & Hrds & rb & Hrb & Hrl & HRL) He Hb.
  assert (Hx := sdr_flags_exact s b He).
  unfold sdr_encode in He. rewrite Hrb in He. cbn [bind] in He. apply bind_ok in He as (v & Hpar & He). apply Ok_inj in He.
  assert (Hrl' : (if RL s =? 0 then u16 (blen rb) else RL s) = blen rb).
  { destruct (RL s =? 0) eqn:H0; [apply u16_small; exact Hrl|]. apply N.eqb_neq in H0. destruct HRL; congruence. }
  rewrite Hrl' in He. assert (Hv : v < 256) by exact (parse8_lt _ _ Hpar).
  assert (Hn4 : nth 4 b 0 = v).
  { subst b. rewrite (nth_le 2 2 (blen rb)). rewrite (nth_le 2 0 (RN s)). reflexivity. }
  rewrite Hn4 in Hx.
  assert (Hbb : bytes_ok rb = true).
  { subst b. rewrite !bytes_ok_app in Hb. tauto. }
  assert (Hdoc : documented_widths sdr_widths (sdr_flag_strings s) ->
    sdr_decode (rds_decode_d (S dep)) (b ++ r) =
    (l' <- rds_decode_d (S dep) rb ;;
     Ok ({| RL := blen rb; RN := RN s; SSOD := SSOD s; RSOD := RSOD s; GRP := GRP s;
       RPP := RPP s; TMFE := TMFE s; EVFE := EVFE s; OBFE := OBFE s; OID := (if is1 (OBFE s) then OID s else 0);
       EVID := (if is1 (EVFE s) then EVID s else 0);
       TM := (if is1 (TMFE s) then TM s else 0); SST := SST s; RST := RST s; RD := l' |}, r)) /\
    bits_ok 1 (OBFE s) = true /\ bits_ok 1 (EVFE s) = true /\ bits_ok 1 (TMFE s) = true).
  { intros Hd. unfold documented_widths, sdr_widths, sdr_flag_strings in Hd.
    repeat match goal with H : Forall2 _ (_ :: _) (_ :: _) |- _ => inversion H; clear H; subst end.
    split; [|auto].
    destruct (sdr_flags (SSOD s) (RSOD s) (GRP s) (RPP s) (TMFE s) (EVFE s) (OBFE s))
      as (v' & Hpar' & _ & G0 & G1 & G2 & G3 & G5 & G6 & G7); try assumption.
    rewrite Hpar in Hpar'. apply Ok_inj in Hpar'. subst v'.
    rewrite <- !app_assoc. unfold sdr_decode.
    rewrite reader_read_full by (try rewrite length_le_enc; try discriminate; reflexivity).
    cbn [bind]. rewrite le_dec_enc_id by exact Hrl.
    rewrite reader_read_full by (rewrite ?length_le_enc; try discriminate; reflexivity).
    cbn [bind]. rewrite le_dec_enc_id by exact Hrn. cbn [app read_byte bind].
    rewrite G0, G1, G2, G3, G5, G6, G7.
    rewrite opt4_given by assumption. cbn [bind]. rewrite opt4_given by assumption. cbn [bind].
    rewrite opt4_given by assumption. cbn [bind app read_byte].
    destruct (rb ++ r) as [|x t] eqn:Happ.
    - apply app_eq_nil in Happ. destruct Happ as [-> ->]. unfold rds_decode_d. cbn [rds_loop length bind]. reflexivity.
    - rewrite <- Happ. unfold blen. rewrite Nat2N.id.
      rewrite reader_read_full by (try rewrite length_zeros; try (rewrite Happ; discriminate); reflexivity).
      cbn [bind]. destruct (rds_decode_d (S dep) rb); reflexivity. }
  assert (Hg := rds_given dep (RD s) rb Hrds Hrb Hbb (length rb) (le_n _)). fold (rds_decode_d (S dep) rb) in Hg.
  split; [subst b; rewrite !app_length, !length_le_enc; cbn [length]; lia|]. split; [|split].
  - intros (s' & r' & Hd & Hc).
    assert (Hw : documented_widths sdr_widths (sdr_flag_strings s)).
    { apply Hx. destruct Hc as (_ & Hfl & _). rewrite <- Hfl. revert Hd. subst b. rewrite <- !app_assoc. apply sdr_decode_flags; assumption. }
    destruct (Hdoc Hw) as (Hdec & Fo & Fe & Ft). rewrite Hdec in Hd. apply bind_ok in Hd as (l' & Hl' & Hd).
    apply Ok_inj in Hd. apply (f_equal fst) in Hd. cbn [fst] in Hd. subst s'.
    destruct Hc as (_ & _ & Ho & Hv' & Ht' & _ & _ & Hrd & _). cbn [OID EVID TM RD] in Ho, Hv', Ht', Hrd.
    split; [exact Hw|]. split; [intros E0; rewrite E0 in Ho; cbn in Ho; congruence|].
    split; [intros E0; rewrite E0 in Hv'; cbn in Hv'; congruence|]. split; [intros E0; rewrite E0 in Ht'; cbn in Ht'; congruence|].
    apply Hg. exists l'. auto.
  - intros (Hw & Ho & Hv' & Ht' & Hs). destruct (Hdoc Hw) as (Hdec & Fo & Fe & Ft).
    apply Hg in Hs as (l' & Hl' & Hc). eexists. split; [rewrite Hdec, Hl'; cbn [bind]; reflexivity|].
    unfold completed_sdr. cbn [RN OID EVID TM SST RST RD RL]. split; [reflexivity|]. split; [reflexivity|].
    split; [destruct (flag_cases _ Fo) as [[E0 ->]|[_ ->]]; [symmetry; exact (Ho E0)|reflexivity]|].
    split; [destruct (flag_cases _ Fe) as [[E0 ->]|[_ ->]]; [symmetry; exact (Hv' E0)|reflexivity]|].
    split; [destruct (flag_cases _ Ft) as [[E0 ->]|[_ ->]]; [symmetry; exact (Ht' E0)|reflexivity]|].
    split; [reflexivity|]. split; [reflexivity|]. split; [exact Hc|]. exists rb. auto.
  - intros Hw s' r' Hd. destruct (Hdoc Hw) as (Hdec & _). rewrite Hdec in Hd. apply bind_ok in Hd as (l' & Hl' & Hd).
    apply Ok_inj in Hd. apply (f_equal snd) in Hd. cbn [snd] in Hd. congruence.
Qed.

Lemma sds_given dep l : forall b, Forall headed_sdr l -> sds_encode l = Ok b -> bytes_ok b = true ->
  forall fuel, (length b <= fuel)%nat ->
  ((exists l', sds_loop (rds_decode_d (S dep)) fuel b = Ok l' /\ Forall2 completed_sdr l l') <-> Forall returns_sdr l).
Proof.
  induction l as [|s l IH]; intros b Hh He Hb fuel Hf.
  - cbn [sds_encode] in He. apply Ok_inj in He. subst b. split; [constructor|]. intros _. exists []. split; [destruct fuel; reflexivity|constructor].
  - inversion Hh as [|? ? Hs Hl]; subst. cbn [sds_encode] in He. apply bind_ok in He as (b1 & H1 & He). apply bind_ok in He as (b2 & H2 & He).
    apply Ok_inj in He. subst b. apply bytes_ok_app in Hb as [Hb1 Hb2].
    destruct (sdr_given dep s b1 b2 Hs H1 Hb1) as (H7 & Hto & Hfrom & Hrest).
    rewrite app_length in Hf. destruct fuel as [|fuel]; [lia|].
    assert (Hst : sds_loop (rds_decode_d (S dep)) (S fuel) (b1 ++ b2) =
      ('(s, r) <- sdr_decode (rds_decode_d (S dep)) (b1 ++ b2) ;; l <- sds_loop (rds_decode_d (S dep)) fuel r ;; Ok (s :: l))).
    { destruct b1 as [|x b1]; [cbn in H7; lia|]. reflexivity. }
    specialize (IH b2 Hl H2 Hb2 fuel ltac:(lia)). split.
    + intros (l' & Hd & Hc). rewrite Hst in Hd. apply bind_ok in Hd as ([s' r'] & Hd1 & Hd). apply bind_ok in Hd as (l2 & Hd2 & Hd).
      apply Ok_inj in Hd. subst l'. inversion Hc as [|? ? ? ? Hc1 Hc2]; subst.
      assert (Hr : returns_sdr s) by (apply Hto; exists s', r'; auto).
      assert (r' = b2) by (apply (Hrest (proj1 Hr) s' r'); exact Hd1). subst r'.
      constructor; [exact Hr|]. apply IH. exists l2. auto.
    + intros Hr. inversion Hr as [|? ? Hr1 Hr2]; subst. apply Hfrom in Hr1 as (s' & Hd1 & Hc1). apply IH in Hr2 as (l' & Hd2 & Hc2).
      exists (s' :: l'). split; [rewrite Hst, Hd1; cbn [bind]; rewrite Hd2; reflexivity|constructor; assumption].
Qed.

Lemma sds_given_decode l b : Forall headed_sdr l -> sds_encode l = Ok b -> bytes_ok b = true ->
  ((exists l', sds_decode b = Ok l' /\ Forall2 completed_sdr l l') <-> Forall returns_sdr l).
Proof. intros Hh He Hb. exact (sds_given (S (length b)) l b Hh He Hb (length b) (le_n _)). Qed.

Lemma rds_given_decode l b : Forall headed_rd l -> rds_encode l = Ok b -> bytes_ok b = true ->
  ((exists l', rds_decode b = Ok l' /\ Forall2 completed_rd l l') <-> Forall (fun rd => survives (SRD rd)) l).
Proof. intros Hh He Hb. exact (rds_given (S (length b)) l b Hh He Hb (length b) (le_n _)). Qed.

Lemma sds_nonempty l b : Forall headed_sdr l -> sds_encode l = Ok b -> bytes_ok b = true -> (b = [] <-> l = []).
Proof.
  intros Hh He Hb. destruct l as [|s l]; cbn [sds_encode] in He.
  - apply Ok_inj in He. subst. tauto.
  - inversion Hh as [|? ? Hs Hl]; subst. apply bind_ok in He as (b1 & H1 & He). apply bind_ok in He as (b2 & H2 & He). apply Ok_inj in He. subst b.
    apply bytes_ok_app in Hb as [Hb1 Hb2]. destruct (sdr_given 0 s b1 b2 Hs H1 Hb1) as (H7 & _). split; [|discriminate].
    intros E0. apply app_eq_nil in E0 as [-> _]. cbn in H7. lia.
Qed.

Lemma frame_given f body : headed_frame f -> frame_encode (Some f) = Ok body -> bytes_ok body = true ->
  ((exists f', frame_decode (frame_type f) body = Ok f' /\ completed_frame f f') <-> returns_frame f).
Proof.
  intros Hh He Hb. destruct f as [l|p].
  - cbn [frame_encode headed_frame] in *. change (frame_decode (frame_type (FSds l)) body) with (rmap FSds (sds_decode body)).
    assert (H := sds_given_decode l body Hh He Hb). cbn [returns_frame]. rewrite <- H. unfold rmap. split.
    + intros (f' & Hd & Hc). apply bind_ok in Hd as (l' & Hl & Hd). apply Ok_inj in Hd. subst f'. exists l'. auto.
    + intros (l' & Hl & Hc). exists (FSds l'). rewrite Hl. auto.
  - cbn [frame_encode headed_frame] in *. change (frame_decode (frame_type (FResp p)) body) with (rmap FResp (ptr_decode body)).
    destruct Hh as (Hr & Hp & Hl). unfold ptr_encode in He. apply bind_ok in He as (sb & Hsb & He). apply Ok_inj in He. subst body.
    assert (Hdec : ptr_decode (le_enc 2 (RPID p) ++ [PR p] ++ sb) =
      match sb with [] => Ok {| RPID := RPID p; PR := PR p; SDRS := None |}
                  | _ :: _ => s <- sds_decode sb ;; Ok {| RPID := RPID p; PR := PR p; SDRS := Some s |} end).
    { unfold ptr_decode. rewrite buffer_read_full by (try rewrite length_le_enc; try discriminate; reflexivity).
      cbn [bind app read_byte]. rewrite le_dec_enc_id by exact Hr. reflexivity. }
    rewrite Hdec. clear Hdec. rewrite !bytes_ok_app in Hb. destruct Hb as (_ & _ & Hb). cbn [returns_frame].
    destruct (SDRS p) as [l|] eqn:Es.
    + assert (Hne := sds_nonempty l sb Hl Hsb Hb). assert (H := sds_given_decode l sb Hl Hsb Hb). rewrite <- H. unfold rmap.
      destruct sb as [|x sb].
      * split; [intros (f' & Hd & Hc); apply Ok_inj in Hd; subst f'; cbn [completed_frame SDRS] in Hc; rewrite Es in Hc; tauto|].
        intros [Hn _]. exfalso. apply Hn, Hne. reflexivity.
      * split.
        -- intros (f' & Hd & Hc). apply bind_ok in Hd as (p' & Hd1 & Hd). apply Ok_inj in Hd. subst f'.
           apply bind_ok in Hd1 as (l' & Hl' & Hd1). apply Ok_inj in Hd1. subst p'. cbn [completed_frame RPID PR SDRS] in Hc. rewrite Es in Hc.
           split; [intros ->; destruct (proj2 Hne eq_refl); discriminate || (assert (x :: sb = []) by (apply Hne; reflexivity); discriminate)|].
           exists l'. tauto.
        -- intros [_ (l' & Hl' & Hc)]. eexists. split; [rewrite Hl'; cbn [bind]; reflexivity|]. cbn [completed_frame RPID PR SDRS]. rewrite Es. auto.
    + apply Ok_inj in Hsb. subst sb. split; [auto|]. intros _. eexists. split; [reflexivity|]. cbn [completed_frame RPID PR SDRS]. rewrite Es. auto.
Qed.

Lemma pkg_given p p1 b body spare : header_typed p -> (forall f, pSFRD p = Some f -> headed_frame f) ->
  pkg_encode p = (p1, Ok b) -> frame_encode (pSFRD p) = Ok body -> bytes_ok body = true -> blen body < 2 ^ 16 ->
  ((exists p', pkg_decode pkg0 (mkSlice b spare) = (p', DRet 0 false) /\ completed_pkg p p') <-> returns_pkg p).
Proof.
  intros Hty Hfr Henc Hfe Hb Hl. assert (Hacc := encoded_accept_iff p p1 b body pkg0 spare Hty Henc Hfe Hb Hl).
  assert (Hdec : forall f, body <> [] -> blen body + (if is1 (pRTE p) then 16 else 11) < 2 ^ 16 -> (pPT p = 0 \/ pPT p = 1) ->
    frame_decode (pPT p) body = Ok f -> exists p', pkg_decode pkg0 (mkSlice b spare) = (p', DRet 0 false) /\
      pSFRD p' = Some f /\
      pPRV p' = pPRV p /\ pSKID p' = pSKID p /\ pPRF p' = pPRF p /\ pRTE p' = pRTE p /\
      pENA p' = pENA p /\ pCMP p' = pCMP p /\ pPR p' = pPR p /\ pHE p' = pHE p /\
      pPID p' = pPID p /\ pPT p' = pPT p /\ pPRA p' = (if is1 (pRTE p) then pPRA p else 0) /\
      pRCA p' = (if is1 (pRTE p) then pRCA p else 0) /\ pTTL p' = (if is1 (pRTE p) then pTTL p else 0)).
  { intros f Hne Hlim Hpt Hfd.
    destruct Hty as (Hprv & Hsk & H1 & H2 & H3 & H4 & H5 & Hhe & Hpid & _ & Hpra & Hrca & Httl & Hhl).
    destruct (encoded_accepted p p1 b body f Hprv Hsk H1 H2 H3 H4 H5 Hhe Hpid Hpt Hhl
      (fun _ => conj Hpra (conj Hrca Httl)) Henc Hfe Hne Hb Hlim Hfd) as (hdr & _ & _ & _ & Hall).
    destruct (Hall pkg0 [] spare eq_refl) as (p' & Hd & Hp'). rewrite app_nil_r in Hd. exists p'. split; [exact Hd|].
    rewrite Hp'. repeat (split; [reflexivity|]). reflexivity. }
  assert (Hrte : bits_ok 1 (pRTE p) = true) by (unfold header_typed in Hty; tauto).
  split.
  - intros (p' & Hd & Hc). destruct (proj1 Hacc (ex_intro _ p' Hd)) as (Hne & Hlim & Hpt & f' & Hfd).
    destruct (Hdec f' Hne Hlim Hpt Hfd) as (p2 & Hd2 & Hs2 & HE). rewrite Hd in Hd2. apply (f_equal fst) in Hd2. cbn [fst] in Hd2. subst p2.
    destruct Hc as (_ & _ & _ & _ & _ & _ & _ & _ & _ & _ & C1 & C2 & C3 & f & f2 & Hf & Hf2 & Hcf).
    destruct HE as (_ & _ & _ & _ & _ & _ & _ & _ & _ & _ & D1 & D2 & D3).
    rewrite Hs2 in Hf2. assert (f2 = f') by congruence. subst f2.
    split.
    { intros E0. rewrite E0 in D1, D2, D3. cbn [is1] in D1, D2, D3. change (is1 s0) with false in D1, D2, D3. repeat split; congruence. }
    exists f, body. split; [exact Hf|]. rewrite <- Hf. split; [exact Hfe|].
    assert (Hty2 : pPT p = frame_type f).
    { unfold frame_decode in Hfd. destruct Hpt as [Hpt|Hpt]; rewrite Hpt in *.
      - change (0 =? PtAppdataPacket) with false in Hfd. cbn match in Hfd. unfold rmap in Hfd. apply bind_ok in Hfd as (q & _ & Hfd). apply Ok_inj in Hfd.
        subst f'. destruct f; [destruct Hcf|reflexivity].
      - change (1 =? PtAppdataPacket) with true in Hfd. cbn match in Hfd. unfold rmap in Hfd. apply bind_ok in Hfd as (q & _ & Hfd). apply Ok_inj in Hfd.
        subst f'. destruct f; [reflexivity|destruct Hcf]. }
    split; [exact Hty2|]. split; [exact Hne|]. split; [exact Hlim|].
    rewrite Hf in Hfe. apply (frame_given f body (Hfr f Hf) Hfe Hb). rewrite <- Hty2. exists f'. auto.
  - intros (Hrt & f & body' & Hf & Hfe' & Hpt & Hne & Hlim & Hret). rewrite Hf in Hfe. assert (body' = body) by congruence. subst body'.
    apply (frame_given f body (Hfr f Hf) Hfe Hb) in Hret as (f' & Hfd & Hcf). rewrite <- Hpt in Hfd.
    assert (Hp01 : pPT p = 0 \/ pPT p = 1) by (rewrite Hpt; destruct f; cbn; auto).
    destruct (Hdec f' Hne Hlim Hp01 Hfd) as (p' & Hd & Hs & A1 & A2 & A3 & A4 & A5 & A6 & A7 & A8 & A9 & A10 & D1 & D2 & D3).
    exists p'. split; [exact Hd|]. unfold completed_pkg.
    repeat (split; [assumption|]).
    destruct (flag_cases _ Hrte) as [[E0 E1]|[E0 E1]]; rewrite E1 in D1, D2, D3.
    + destruct (Hrt E0) as (R1 & R2 & R3). rewrite R1, R2, R3. repeat (split; [assumption|]). exists f, f'. auto.
    + repeat (split; [assumption|]). exists f, f'. auto.
Qed.
End GivenFacts.
