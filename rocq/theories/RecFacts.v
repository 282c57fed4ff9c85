(** * RecFacts: round trips of record sets. *)
From Coq Require Import Lia ZifyBool ZifyNat ZifyN.
From Verif Require Import GoBase Spec_Bits BaseFacts Float64 SubRecords Records Package
  Spec_Wf Spec_Rec SubFacts.

Section RecFacts.
Context {E : go_env}.

Lemma bind_ok {A B} (x : res A) (f : A -> res B) b :
  bind x f = Ok b -> exists a, x = Ok a /\ f a = Ok b.
Proof. destruct x; cbn; try discriminate. eauto. Qed.

Lemma Ok_inj {A} (a b : A) : Ok a = Ok b -> a = b.
Proof. congruence. Qed.

(** ** One subrecord *)
Lemma sr_roundtrip d dep b : wf_sr d -> sr_encode d = Ok b ->
  forall t len,
  (t = type_of d \/ (t = 20 /\ (match d with SRState _ => True | _ => False end) /\ len = blen b)) ->
  sub_decode (S dep) t len b = Ok (quant_sr d).
Proof.
  intros Hw He t len Ht. destruct d; cbn [wf_sr sr_encode quant_sr] in *; try contradiction.
  all: try (destruct Ht as [Ht | (_ & [] & _)]; cbn [type_of] in Ht; subst t).
  - destruct (pos_roundtrip _ Hw) as (b' & Hb & Hd & _). cbn. replace b with b' by congruence. rewrite Hd. reflexivity.
  - destruct (term_roundtrip _ Hw) as (b' & Hb & Hd). cbn. replace b with b' by congruence. rewrite Hd. reflexivity.
  - cbn [sub_decode]. change (0 =? 16) with false. change (0 =? 1) with false. change (0 =? 0) with true. cbn match.
    unfold srresp_encode in He. assert (b = le_enc 2 crn ++ [rst]) by congruence. subst b. clear He.
    unfold response_decode.
    rewrite buffer_read_full by (try rewrite length_le_enc; try discriminate; reflexivity).
    cbn [bind app read_byte sds_loop]. rewrite le_dec_enc_id by apply Hw. reflexivity.
  - unfold result_encode in He. injection He as <-. reflexivity.
  - destruct (ext_roundtrip _ Hw) as (b' & Hb & Hd). cbn. replace b with b' by congruence. rewrite Hd. reflexivity.
  - destruct (ad_roundtrip _ Hw) as (b' & Hb & Hd). cbn. replace b with b' by congruence. rewrite Hd. reflexivity.
  - destruct (state_roundtrip _ Hw) as (b' & Hb & Hd & Hl). assert (b' = b) by congruence. subst b'.
    destruct Ht as [->|(-> & _ & ->)]; cbn.
    + rewrite Hd. reflexivity.
    + unfold blen. rewrite Hl. cbn. rewrite Hd. reflexivity.
  - destruct (liquid_roundtrip _ Hw) as (b' & Hb & Hd & _). cbn. replace b with b' by congruence. rewrite Hd. reflexivity.
  - destruct (abs_cntr_roundtrip _ Hw) as (b' & Hb & Hd & _). cbn. replace b with b' by congruence. rewrite Hd. reflexivity.
  - destruct (auth_roundtrip _ Hw) as (b' & Hb & Hd). cbn. replace b with b' by congruence. rewrite Hd. reflexivity.
  - destruct (counters_roundtrip _ Hw) as (b' & Hb & Hd). cbn. replace b with b' by congruence. rewrite Hd. reflexivity.
  - destruct Hw as (b' & Hm & _ & Hu). unfold plus_encode in He. rewrite Hm in He. injection He as <-.
    cbn. unfold plus_decode. rewrite Hu. reflexivity.
  - destruct (abs_an_roundtrip _ Hw) as (b' & Hb & Hd & _). cbn. replace b with b' by congruence. rewrite Hd. reflexivity.
  - destruct (disp_roundtrip _ Hw) as (b' & Hb & Hd). cbn. replace b with b' by congruence. rewrite Hd. reflexivity.
Qed.

Lemma length_of_Ok b : length_of (Ok b) = Ok (u16 (blen b)).
Proof. reflexivity. Qed.

Lemma u16_small x : x < 2 ^ 16 -> u16 x = x.
Proof. apply N.mod_small. Qed.

Lemma sr_length_ok d b : wf_sr d -> sr_encode d = Ok b -> blen b < 2 ^ 16 -> sr_length d = Ok (blen b).
Proof.
  intros Hw He Hl. destruct d; cbn [sr_length sr_encode wf_sr] in *;
    try (rewrite He, length_of_Ok, u16_small by exact Hl; reflexivity).
  destruct (abs_an_roundtrip _ Hw) as (b' & Hb & _ & H4).
  assert (b' = b) by congruence. subst b'. unfold blen. rewrite H4. reflexivity.
Qed.

(** the filled-in entry *)
Definition fill_rd (rd : record_data) (n : N) : record_data :=
  {| SRT := if SRT rd =? 0 then type_of (SRD rd) else SRT rd; SRL := n; SRD := quant_sr (SRD rd) |}.

Lemma rd_encode_wf rd : wf_rd rd ->
  exists b, sr_encode (SRD rd) = Ok b /\ blen b < 2 ^ 16 /\
    rd_encode rd = Ok ([SRT (fill_rd rd (blen b))] ++ le_enc 2 (blen b) ++ b).
Proof.
  intros (Hw & Ht & b & Hb & Hl & HL). exists b. split; [exact Hb|]. split; [exact Hl|].
  unfold rd_encode. rewrite Hb.
  assert ((if SRL rd =? 0 then sr_length (SRD rd) else Ok (SRL rd)) = Ok (blen b)) as ->.
  { destruct (SRL rd =? 0) eqn:H0; [apply sr_length_ok; assumption|].
    destruct HL as [HL|HL]; [rewrite HL in H0; discriminate|rewrite HL; reflexivity]. }
  cbn [fill_rd SRT].
  assert ((if SRT rd =? 0 then infer_type (SRD rd) else Ok (SRT rd))
          = Ok (if SRT rd =? 0 then type_of (SRD rd) else SRT rd)) as ->.
  { destruct (SRT rd =? 0) eqn:H0; [|reflexivity]. apply N.eqb_eq in H0.
    destruct (SRD rd); try reflexivity; cbn [wf_sr] in Hw; try contradiction.
    destruct Ht as [Ht|[[_ []]|[_ []]]]. rewrite H0 in Ht. discriminate Ht. }
  reflexivity.
Qed.

Lemma buffer_next_app b r : buffer_next (blen b) (b ++ r) = (b, r).
Proof.
  unfold buffer_next, blen. rewrite Nat2N.id.
  rewrite firstn_exact, skipn_exact by reflexivity. reflexivity.
Qed.

Lemma rds_roundtrip_gen dep l : Forall wf_rd l ->
  exists b l', rds_encode l = Ok b /\ Forall2 filled_rd l l' /\
    forall fuel, (length b <= fuel)%nat -> rds_loop (sub_decode (S dep)) fuel b = Ok l'.
Proof.
  induction l as [|rd l IH]; intros H.
  - exists [], []. split; [reflexivity|]. split; [constructor|]. intros [|]; reflexivity.
  - inversion H as [|? ? Hrd Hl]; subst. destruct (IH Hl) as (b' & l' & Hb' & Hf' & Hd').
    destruct (rd_encode_wf rd Hrd) as (b & Hb & Hlen & He).
    exists (([SRT (fill_rd rd (blen b))] ++ le_enc 2 (blen b) ++ b) ++ b'), (fill_rd rd (blen b) :: l').
    split; [|split].
    + cbn [rds_encode]. rewrite He. cbn [bind]. rewrite Hb'. reflexivity.
    + constructor; [|exact Hf']. split; [reflexivity|]. split; [reflexivity|].
      exists b. split; [exact Hb|reflexivity].
    + intros fuel Hfuel. rewrite <- !app_assoc in *. cbn [app] in *.
      destruct fuel as [|fuel]; [cbn in Hfuel; lia|].
      change (rds_loop (sub_decode (S dep)) (S fuel) (SRT (fill_rd rd (blen b)) :: le_enc 2 (blen b) ++ b ++ b'))
        with ('(t, r) <- read_byte (SRT (fill_rd rd (blen b)) :: le_enc 2 (blen b) ++ b ++ b') ;;
              '(lb, r) <- buffer_read (zeros 2) r ;;
              let len := le_dec lb in
              let '(sub, r) := buffer_next len r in
              d <- sub_decode (S dep) t len sub ;;
              l <- rds_loop (sub_decode (S dep)) fuel r ;;
              Ok ({| SRT := t; SRL := len; SRD := d |} :: l)).
      cbn [read_byte bind].
      rewrite buffer_read_full by (try rewrite length_le_enc; try discriminate; reflexivity).
      cbn [bind]. rewrite le_dec_enc_id by exact Hlen. cbv zeta. rewrite buffer_next_app.
      rewrite (sr_roundtrip (SRD rd) dep b (proj1 Hrd) Hb).
      * cbn [bind]. rewrite Hd'; [reflexivity|]. cbn [length] in Hfuel. rewrite !app_length in Hfuel. lia.
      * cbn [fill_rd SRT]. destruct (SRT rd =? 0) eqn:H0; [left; reflexivity|].
        destruct Hrd as (_ & [Ht|[[Ht _]|[Ht Hs]]] & _).
        -- left; exact Ht.
        -- rewrite Ht in H0; discriminate.
        -- right. split; [exact Ht|]. split; [exact Hs|reflexivity].
Qed.

Lemma rds_roundtrip l : Forall wf_rd l ->
  exists b l', rds_encode l = Ok b /\ rds_decode b = Ok l' /\ Forall2 filled_rd l l'.
Proof.
  intros H. unfold rds_decode, rds_decode_d, depth_for.
  pose proof (fun dep => rds_roundtrip_gen dep l H) as Hg.
  destruct (Hg O) as (b & _ & Hb & _). destruct (Hg (S (length b))) as (b2 & l' & Hb2 & Hf & Hd).
  assert (b2 = b) by congruence. subst b2. exists b, l'. split; [exact Hb|]. split; [|exact Hf].
  apply Hd. lia.
Qed.

(** ** One record *)
Lemma opt4_enc flag v r : opt_num 4 flag v = true ->
  opt4 flag (opt_w flag (le_enc 4 v) ++ r) = Ok (v, r).
Proof.
  unfold opt_num. rewrite andb_true_iff. intros [_ H]. unfold opt4, opt_w. destruct (is1 flag).
  - apply N.ltb_lt in H. rewrite reader_read_full by (try rewrite length_le_enc; try discriminate; reflexivity).
    cbn [bind]. rewrite le_dec_enc_id by exact H. reflexivity.
  - apply N.eqb_eq in H. subst. reflexivity.
Qed.

Lemma sdr_flags a b c d e f g :
  bits_ok 1 a = true -> bits_ok 1 b = true -> bits_ok 1 c = true -> bits_ok 2 d = true ->
  bits_ok 1 e = true -> bits_ok 1 f = true -> bits_ok 1 g = true ->
  exists v, parse8 (a ++ b ++ c ++ d ++ e ++ f ++ g) = Ok v /\ v < 256 /\
    fbit 0 (fmt_b 8 v) = a /\ fbit 1 (fmt_b 8 v) = b /\ fbit 2 (fmt_b 8 v) = c /\
    substr 3 5 (fmt_b 8 v) = d /\ fbit 5 (fmt_b 8 v) = e /\ fbit 6 (fmt_b 8 v) = f /\
    fbit 7 (fmt_b 8 v) = g.
Proof.
  intros Ha Hb Hc Hd He Hf Hg.
  assert (bits_ok 8 (a ++ b ++ c ++ d ++ e ++ f ++ g) = true) as H8.
  { do 3 (apply (bits_ok_app 1); [assumption|]). apply (bits_ok_app 2); [assumption|].
    do 2 (apply (bits_ok_app 1); [assumption|]). assumption. }
  destruct (parse8_bits _ H8) as (v & Hp & Hv & Hs). exists v. split; [exact Hp|]. split; [exact Hv|].
  rewrite Hs. apply bits1_char in Ha, Hb, Hc, He, Hf, Hg. apply bits2_char in Hd.
  destruct Ha as (? & -> & _), Hb as (? & -> & _), Hc as (? & -> & _), Hd as (? & ? & -> & _),
    He as (? & -> & _), Hf as (? & -> & _), Hg as (? & -> & _).
  repeat split.
Qed.

(** decoder used for the data section of records in a set of [n] bytes *)
Lemma sdr_roundtrip_gen dep s : wf_sdr s ->
  exists b s', sdr_encode s = Ok b /\ filled_sdr s s' /\ (7 <= length b)%nat /\
    forall r, sdr_decode (rds_decode_d (S dep)) (b ++ r) = Ok (s', r).
Proof.
  intros (Hrn & Hsst & Hrst & F0 & F1 & F2 & F3 & Htm & Hev & Hob & Hrds & rb & Hrb & Hrl & HRL).
  destruct (rds_roundtrip_gen dep (RD s) Hrds) as (rb' & l' & Hrb' & Hf & Hd).
  assert (rb' = rb) by congruence. subst rb'.
  destruct (sdr_flags (SSOD s) (RSOD s) (GRP s) (RPP s) (TMFE s) (EVFE s) (OBFE s))
    as (v & Hpar & _ & G0 & G1 & G2 & G3 & G5 & G6 & G7); try assumption;
    try (eapply opt_num_flag; eassumption).
  unfold sdr_encode. rewrite Hrb. cbn [bind]. rewrite Hpar. cbn [bind].
  assert ((if RL s =? 0 then u16 (blen rb) else RL s) = blen rb) as ->.
  { destruct (RL s =? 0) eqn:H0; [apply u16_small; exact Hrl|].
    destruct HRL as [HRL|HRL]; [rewrite HRL in H0; discriminate|exact HRL]. }
  eexists. exists {| RL := blen rb; RN := RN s; SSOD := SSOD s; RSOD := RSOD s; GRP := GRP s;
     RPP := RPP s; TMFE := TMFE s; EVFE := EVFE s; OBFE := OBFE s; OID := OID s; EVID := EVID s;
     TM := TM s; SST := SST s; RST := RST s; RD := l' |}.
  split; [reflexivity|]. split.
  { unfold filled_sdr. cbn. repeat split; auto. exists rb. auto. }
  split.
  { rewrite !app_length, !length_le_enc. cbn [length]. lia. }
  intros r. rewrite <- !app_assoc. unfold sdr_decode.
  rewrite reader_read_full by (try rewrite length_le_enc; try discriminate; reflexivity).
  cbn [bind]. rewrite le_dec_enc_id by exact Hrl.
  rewrite reader_read_full by (rewrite ?length_le_enc; try discriminate; reflexivity).
  cbn [bind]. rewrite le_dec_enc_id by exact Hrn. cbn [app read_byte bind].
  rewrite G0, G1, G2, G3, G5, G6, G7.
  rewrite opt4_enc by exact Hob. cbn [bind]. rewrite opt4_enc by exact Hev. cbn [bind].
  rewrite opt4_enc by exact Htm. cbn [bind app read_byte].
  destruct (rb ++ r) as [|x t] eqn:Happ.
  - apply app_eq_nil in Happ. destruct Happ as [-> ->].
    specialize (Hd O ltac:(cbn; lia)). cbn in Hd. injection Hd as <-. reflexivity.
  - rewrite <- Happ. unfold blen. rewrite Nat2N.id.
    rewrite reader_read_full by (try rewrite length_zeros; try (rewrite Happ; discriminate); reflexivity).
    cbn [bind]. unfold rds_decode_d. rewrite Hd by lia. reflexivity.
Qed.

Lemma sds_roundtrip_gen dep l : Forall wf_sdr l ->
  exists b l', sds_encode l = Ok b /\ Forall2 filled_sdr l l' /\ (l <> [] -> b <> []) /\
    forall fuel, (length b <= fuel)%nat -> sds_loop (rds_decode_d (S dep)) fuel b = Ok l'.
Proof.
  induction l as [|s l IH]; intros H.
  - exists [], []. split; [reflexivity|]. split; [constructor|]. split; [congruence|]. intros [|]; reflexivity.
  - inversion H as [|? ? Hs Hl]; subst. destruct (IH Hl) as (b' & l' & Hb' & Hf' & _ & Hd').
    destruct (sdr_roundtrip_gen dep s Hs) as (b & s' & Hb & Hf & H7 & Hd).
    exists (b ++ b'), (s' :: l'). split; [|split; [|split]].
    + cbn [sds_encode]. rewrite Hb. cbn [bind]. rewrite Hb'. reflexivity.
    + constructor; assumption.
    + intros _ Hn. apply app_eq_nil in Hn. destruct Hn as [-> _]. cbn in H7. lia.
    + intros fuel Hfuel. rewrite app_length in Hfuel. destruct fuel as [|fuel]; [lia|].
      destruct (b ++ b') as [|x t] eqn:Happ.
      { apply app_eq_nil in Happ. destruct Happ as [-> _]. cbn in H7. lia. }
      cbn [sds_loop]. rewrite <- Happ, Hd. cbn [bind]. rewrite Hd' by lia. reflexivity.
Qed.

Lemma sds_roundtrip l : Forall wf_sdr l ->
  exists b l', sds_encode l = Ok b /\ sds_decode b = Ok l' /\ Forall2 filled_sdr l l'.
Proof.
  intros H. unfold sds_decode, sds_decode_d, depth_for.
  destruct (sds_roundtrip_gen O l H) as (b & _ & Hb & _).
  destruct (sds_roundtrip_gen (S (length b)) l H) as (b2 & l' & Hb2 & Hf & _ & Hd).
  assert (b2 = b) by congruence. subst b2. exists b, l'. split; [exact Hb|]. split; [|exact Hf].
  apply Hd. lia.
Qed.

(** ** Responses *)
Lemma ptr_roundtrip p : wf_ptr p ->
  exists b p', ptr_encode p = Ok b /\ ptr_decode b = Ok p' /\ filled_ptr p p'.
Proof.
  intros (Hrp & Hpr & Hs). unfold ptr_encode. destruct (SDRS p) as [l|] eqn:HS.
  - destruct Hs as [Hne Hl]. destruct (sds_roundtrip l Hl) as (b & l' & Hb & Hd & Hf).
    rewrite Hb. cbn [bind].
    eexists. exists {| RPID := RPID p; PR := PR p; SDRS := Some l' |}.
    split; [reflexivity|]. split.
    + unfold ptr_decode. rewrite buffer_read_full by (try rewrite length_le_enc; try discriminate; reflexivity).
      cbn [bind app read_byte]. rewrite le_dec_enc_id by exact Hrp.
      destruct b as [|x b'].
      * destruct (sds_roundtrip_gen O l Hl) as (b2 & ? & Hb2 & _ & Hn & _).
        assert (b2 = []) by congruence. subst b2. elim (Hn Hne). reflexivity.
      * rewrite Hd. reflexivity.
    + unfold filled_ptr. cbn. rewrite HS. auto.
  - cbn [bind]. eexists. exists {| RPID := RPID p; PR := PR p; SDRS := None |}.
    split; [reflexivity|]. split.
    + unfold ptr_decode. rewrite buffer_read_full by (try rewrite length_le_enc; try discriminate; reflexivity).
      cbn [bind app read_byte]. rewrite le_dec_enc_id by exact Hrp. reflexivity.
    + unfold filled_ptr. cbn. rewrite HS. auto.
Qed.

Lemma frame_roundtrip f : wf_frame f ->
  exists b f', frame_encode (Some f) = Ok b /\ frame_decode (frame_type f) b = Ok f' /\ filled_frame f f'.
Proof.
  destruct f as [l|p]; cbn [wf_frame frame_encode frame_type].
  - intros H. destruct (sds_roundtrip l H) as (b & l' & Hb & Hd & Hf). exists b, (FSds l').
    split; [exact Hb|]. split; [unfold frame_decode; cbn; rewrite Hd; reflexivity|exact Hf].
  - intros H. destruct (ptr_roundtrip p H) as (b & p' & Hb & Hd & Hf). exists b, (FResp p').
    split; [exact Hb|]. split; [unfold frame_decode; cbn; rewrite Hd; reflexivity|exact Hf].
Qed.

End RecFacts.
