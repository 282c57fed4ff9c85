(** * EncOk: encoders emit bytes, for every Go value. *)
From Coq Require Import Lia ZifyBool ZifyNat ZifyN.
From Verif Require Import Spec_Go GoBase Spec_Bits BaseFacts Crc Float64 SubRecords Records Package
  Spec_Wf Spec_Rec Spec_Go SubFacts RecFacts DecFacts DecWf DecWf2 CrcFacts.

Section EncOk.
Context {E : go_env}.

Lemma parse_bin_bound max s : forall acc, acc <= max -> fst (parse_bin_from max acc s) <= max.
Proof.
  induction s as [|c s IH]; intros acc Ha; cbn [parse_bin_from]; [exact Ha|].
  destruct (_ || _); [|cbn; lia]. destruct (N.ltb_spec max (2 * acc + (c - ch0))) as [H|H]; [cbn; lia|].
  apply IH. exact H.
Qed.
Lemma parse_uint_bound s : fst (parse_uint 255 s) <= 255.
Proof. unfold parse_uint. destruct s; [cbn; lia|]. apply parse_bin_bound. lia. Qed.
Lemma parse8_bound s v : parse8 s = Ok v -> byte_ok v = true.
Proof.
  unfold parse8. pose proof (parse_uint_bound s) as H. destruct (parse_uint 255 s) as [w []]; [|discriminate].
  intros Hw. apply Ok_inj in Hw. subst. cbn in H. apply byte_ok_lt. lia.
Qed.
Lemma opt_w_ok f b : bytes_ok b = true -> bytes_ok (opt_w f b) = true.
Proof. unfold opt_w. destruct (is1 f); auto. Qed.
Lemma one_ok v : byte_ok v = true -> bytes_ok [v] = true.
Proof. intros H. rewrite bytes_ok_cons, H. reflexivity. Qed.
Lemma app_ok a b : bytes_ok a = true -> bytes_ok b = true -> bytes_ok (a ++ b) = true.
Proof. intros. rewrite bytes_ok_app, H, H0. reflexivity. Qed.
Lemma pad_ok k s : bytes_ok s = true -> bytes_ok (pad_to k s) = true.
Proof. intros H. unfold pad_to. apply app_ok; [exact H|apply bytes_ok_zeros]. Qed.

Ltac bok := repeat first
  [ apply app_ok | apply opt_w_ok | apply le_enc_ok | apply pad_ok | (apply one_ok; assumption)
  | assumption | apply u8_ok | apply bytes_ok_zeros | reflexivity ].

Lemma sr_encode_ok d b : go_sr d -> sr_encode d = Ok b -> bytes_ok b = true.
Proof.
  intros Hg H. destruct d; cbn [sr_encode go_sr] in *; rewrite ?andb_true_iff in Hg.
  - destruct Hg as [[H1 H2] H3]. unfold pos_encode in H. apply bind_ok in H. destruct H as (fl & Hf & H).
    apply parse8_bound in Hf. apply Ok_inj in H. subst b. bok. apply one_ok.
    apply byte_ok_lt. apply byte_ok_lt in H1.
    assert (N.ldiff (Direction e) (u8 (N.shiftl (DirectionHighestBit e) 7)) <= Direction e).
    { apply N.ldiff_le. apply N.bits_inj. intros i. rewrite !N.ldiff_spec, N.bits_0.
      destruct (N.testbit (Direction e) i), (N.testbit _ i); reflexivity. }
    lia.
  - destruct Hg as [[[[H1 H2] H3] H4] H5]. unfold term_encode in H. cbv zeta in H. apply Ok_inj in H. subst b.
    bok. apply one_ok. apply byte_ok_lt. pose proof (parse_uint_bound (MNE e ++ BSE e ++ NIDE e ++ SSRA e ++ LNGCE e ++ IMSIE e ++ IMEIE e ++ HDIDE e)). lia.
  - unfold srresp_encode in H. apply Ok_inj in H. subst b. bok.
  - unfold result_encode in H. apply Ok_inj in H. subst b. bok.
  - unfold ext_encode in H. apply bind_ok in H. destruct H as (fl & Hf & H).
    apply parse8_bound in Hf. apply Ok_inj in H. subst b. bok.
  - destruct Hg as [H1 H2]. unfold go_oct in H2. rewrite !andb_true_iff in H2.
    destruct H2 as [[[[[[[? ?] ?] ?] ?] ?] ?] ?].
    unfold ad_encode in H. apply bind_ok in H. destruct H as (fl & Hf & H). apply parse8_bound in Hf.
    apply bind_ok in H. destruct H as (fl2 & Hf2 & H). apply parse8_bound in Hf2. apply Ok_inj in H. subst b.
    unfold write_opt3. bok.
  - destruct Hg as [[[H1 H2] H3] H4]. unfold state_encode in H. apply bind_ok in H. destruct H as (fl & Hf & H).
    apply parse8_bound in Hf. apply Ok_inj in H. subst b. bok.
  - unfold liquid_encode in H. apply bind_ok in H. destruct H as (fl & Hf & H).
    apply parse8_bound in Hf. apply Ok_inj in H. subst b. bok.
  - unfold abs_cntr_encode in H. apply Ok_inj in H. subst b. bok.
  - destruct Hg as [[H1 H2] H3]. unfold auth_encode in H. apply Ok_inj in H. subst b. bok.
    destruct (SSQ e) eqn:Hs; [reflexivity|]. apply app_ok; [rewrite <- Hs in *; exact H3|reflexivity].
  - unfold counters_encode in H. apply bind_ok in H. destruct H as (fl & Hf & H).
    apply parse8_bound in Hf. apply Ok_inj in H. subst b. unfold write_opt3. bok.
  - unfold plus_encode in H. destruct (pb_marshal m) eqn:Hm; [|discriminate]. apply Ok_inj in H. subst b.
    apply Hg. reflexivity.
  - unfold abs_an_encode in H. apply Ok_inj in H. subst b. rewrite !bytes_ok_cons, !u8_ok. reflexivity.
  - destruct Hg as [H1 H2]. unfold disp_encode in H. apply Ok_inj in H. subst b. bok.
  - discriminate.
Qed.

Lemma infer_type_ok d t : infer_type d = Ok t -> byte_ok t = true.
Proof. destruct d; cbn; intros H; try discriminate; apply Ok_inj in H; subst; reflexivity. Qed.

Lemma rd_encode_ok rd b : go_rd rd -> rd_encode rd = Ok b -> bytes_ok b = true.
Proof.
  intros [Ht Hg] H. unfold rd_encode in H. apply bind_ok in H. destruct H as (t & Hty & H).
  apply bind_ok in H. destruct H as (len & _ & H). apply bind_ok in H. destruct H as (x & Hx & H).
  apply Ok_inj in H. subst b. apply sr_encode_ok in Hx; [|exact Hg].
  assert (byte_ok t = true) as Htt.
  { destruct (SRT rd =? 0); [apply infer_type_ok in Hty; exact Hty|]. apply Ok_inj in Hty. subst. exact Ht. }
  bok.
Qed.
Lemma rds_encode_ok l : Forall go_rd l -> forall b, rds_encode l = Ok b -> bytes_ok b = true.
Proof.
  induction 1 as [|rd l Hrd Hl IH]; intros b H; cbn [rds_encode] in H; [apply Ok_inj in H; subst; reflexivity|].
  apply bind_ok in H. destruct H as (x & Hx & H). apply bind_ok in H. destruct H as (y & Hy & H).
  apply Ok_inj in H. subst. apply rd_encode_ok in Hx; [|exact Hrd]. apply IH in Hy. bok.
Qed.
Lemma sdr_encode_ok s b : go_sdr s -> sdr_encode s = Ok b -> bytes_ok b = true.
Proof.
  intros (H1 & H2 & H3) H. unfold sdr_encode in H. apply bind_ok in H. destruct H as (x & Hx & H).
  apply rds_encode_ok in Hx; [|exact H3]. cbv zeta in H. apply bind_ok in H. destruct H as (fl & Hf & H).
  apply parse8_bound in Hf. apply Ok_inj in H. subst. bok.
Qed.
Lemma sds_encode_ok l : Forall go_sdr l -> forall b, sds_encode l = Ok b -> bytes_ok b = true.
Proof.
  induction 1 as [|rd l Hrd Hl IH]; intros b H; cbn [sds_encode] in H; [apply Ok_inj in H; subst; reflexivity|].
  apply bind_ok in H. destruct H as (x & Hx & H). apply bind_ok in H. destruct H as (y & Hy & H).
  apply Ok_inj in H. subst. apply sdr_encode_ok in Hx; [|exact Hrd]. apply IH in Hy. bok.
Qed.
Lemma frame_encode_ok f b : go_frame f -> frame_encode (Some f) = Ok b -> bytes_ok b = true.
Proof.
  destruct f as [l|p]; cbn [go_frame frame_encode].
  - intros H. apply sds_encode_ok. exact H.
  - intros [Hp Hs] H. unfold ptr_encode in H. apply bind_ok in H. destruct H as (x & Hx & H).
    apply Ok_inj in H. subst b. assert (bytes_ok x = true) as Hxx.
    { destruct (SDRS p); [|apply Ok_inj in Hx; subst; reflexivity]. eapply sds_encode_ok; eassumption. }
    bok.
Qed.

(** Well-formed and decoded values are Go values. *)
Lemma opt_num1_byte f v : opt_num 1 f v = true -> byte_ok v = true.
Proof. intros H. apply opt_num_lt in H. apply byte_ok_lt. exact H. Qed.

Lemma wf_go_sr d : wf_sr d -> go_sr d.
Proof.
  destruct d; cbn [wf_sr go_sr]; auto.
  - unfold wf_pos. rewrite !andb_true_iff. intros [[[[[[[[[[[[[[[_ _] _] _] _] _] _] _] _] _] H1] _] _] H2] H3] _].
    unfold byte_ok. auto.
  - unfold wf_term, opt_bytes. rewrite !andb_true_iff. tauto.
  - intros [_ H]. apply byte_ok_lt. exact H.
  - intros H. apply byte_ok_lt. exact H.
  - unfold wf_ext. rewrite !andb_true_iff. intros [[_ H] _]. eapply opt_num1_byte. exact H.
  - unfold wf_ad, full_ad, all8, go_oct. rewrite !andb_true_iff. intros [[[H1 H2] _] _].
    split; [exact H2|]. destruct H1 as [[[[[[[? ?] ?] ?] ?] ?] ?] ?]. 
    repeat split; eapply opt_num1_byte; eassumption.
  - unfold wf_state. rewrite !andb_true_iff. tauto.
  - unfold wf_abs_cntr. rewrite andb_true_iff. tauto.
  - unfold wf_auth. rewrite !andb_true_iff. tauto.
  - intros (b & Hb & Hok & _) b' Hb'. congruence.
  - unfold wf_disp. rewrite !andb_true_iff. tauto.
Qed.

Lemma type_of_byte d : byte_ok (type_of d) = true.
Proof. destruct d; reflexivity. Qed.

Lemma wf_go_rd rd : wf_rd rd -> go_rd rd.
Proof.
  intros (H & Ht & _). split; [|apply wf_go_sr; exact H].
  destruct Ht as [->|[[-> _]|[-> _]]]; [apply type_of_byte|reflexivity|reflexivity].
Qed.
Lemma wf_go_sdr s : wf_sdr s -> go_sdr s.
Proof.
  intros (_ & H1 & H2 & _ & _ & _ & _ & _ & _ & _ & H & _). apply byte_ok_lt in H1, H2.
  split; [exact H1|]. split; [exact H2|]. eapply Forall_impl; [|exact H]. apply wf_go_rd.
Qed.
Lemma wf_go_frame f : wf_frame f -> go_frame f.
Proof.
  destruct f as [l|p]; cbn.
  - intros H. eapply Forall_impl; [|exact H]. apply wf_go_sdr.
  - intros (_ & H1 & H2). split; [apply byte_ok_lt; exact H1|]. destruct (SDRS p); [|exact I].
    eapply Forall_impl; [|apply H2]. apply wf_go_sdr.
Qed.


Lemma dec_go_sr d : pb_bytes -> dec_sr d -> go_sr d.
Proof.
  intros Hpb. destruct d; cbn [dec_sr go_sr]; auto.
  - intros (b & Hb & H). destruct (pos_dec_wf b e Hb H) as (Hw & _). unfold wf_pos in Hw.
    rewrite !andb_true_iff in Hw. rewrite !andb_true_iff. unfold pos_alt0 in Hw. cbn [Direction DigitalInputs Source] in Hw.
    destruct Hw as [[[[[[[[[[[[[[[_ _] _] _] _] _] _] _] _] _] H1] _] _] H2] H3] _].
    unfold byte_ok. auto.
  - intros H. apply (wf_go_sr (SRTerm e)). exact H.
  - intros H. apply (wf_go_sr (SRResp crn rst)). exact H.
  - intros H. apply (wf_go_sr (SRResult code)). exact H.
  - intros H. apply (wf_go_sr (SRExt e)). exact H.
  - intros (_ & _ & H). unfold full_ad, all8, go_oct in *. rewrite !andb_true_iff in *. destruct H as [[H1 H2] _].
    split; [exact H2|]. destruct H1 as [[[[[[[? ?] ?] ?] ?] ?] ?] ?]. 
    repeat split; eapply opt_num1_byte; eassumption.
  - intros H. apply (wf_go_sr (SRState e)). exact H.
  - intros H. apply (wf_go_sr (SRAbsCntr e)). exact H.
  - intros H. apply (wf_go_sr (SRAuth e)). exact H.
  - intros _ b Hb. eapply Hpb. exact Hb.
  - intros H. apply (wf_go_sr (SRDisp e)). exact H.
Qed.
Lemma dec_go_rd rd : pb_bytes -> dec_rd rd -> go_rd rd.
Proof.
  intros Hpb (H & Ht & _). split; [|apply dec_go_sr; assumption].
  destruct Ht as [->|[-> _]]; [apply type_of_byte|reflexivity].
Qed.
Lemma dec_go_sdr s : pb_bytes -> dec_sdr s -> go_sdr s.
Proof.
  intros Hpb (_ & _ & H1 & H2 & _ & _ & _ & _ & _ & _ & _ & H). apply byte_ok_lt in H1, H2.
  split; [exact H1|]. split; [exact H2|]. eapply Forall_impl; [|exact H]. intros a Ha. apply dec_go_rd; assumption.
Qed.
Lemma dec_go_frame f : pb_bytes -> dec_frame f -> go_frame f.
Proof.
  intros Hpb. destruct f as [l|p]; cbn.
  - intros H. eapply Forall_impl; [|exact H]. intros a Ha. apply dec_go_sdr; assumption.
  - intros (_ & H1 & H2). split; [apply byte_ok_lt; exact H1|]. destruct (SDRS p); [|exact I].
    eapply Forall_impl; [|apply H2]. intros a Ha. apply dec_go_sdr; assumption.
Qed.
End EncOk.
