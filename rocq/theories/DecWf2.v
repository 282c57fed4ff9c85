(** * DecWf2: decoded record sets are well formed and can be encoded. *)
From Coq Require Import Lia ZifyBool ZifyNat ZifyN.
From Verif Require Import Spec_Go GoBase Spec_Bits BaseFacts Float64 SubRecords Records Package
  Spec_Wf Spec_Rec SubFacts RecFacts DecFacts DecWf.

Section DecWf2.
Context {E : go_env}.

Definition dec_sr (d : srdata) : Prop :=
  match d with
  | SRPos e => exists b, bytes_ok b = true /\ pos_decode b = Ok e
  | SRTerm e => wf_term e = true
  | SRResp crn rst => crn < 2 ^ 16 /\ rst < 256
  | SRResult c => c < 256
  | SRExt e => wf_ext e = true
  | SRAd e => dec_ad e
  | SRState e => wf_state e = true
  | SRLiquid e => wf_liquid e = true
  | SRAbsCntr e => wf_abs_cntr e = true
  | SRAuth e => wf_auth e = true
  | SRCounters e => dec_counters e
  | SRPlus m => exists b, bytes_ok b = true /\ pb_unmarshal b = Some m
  | SRAbsAn e => wf_abs_an e = true
  | SRDisp e => wf_disp e = true
  | SRNil => False
  end.

Definition type_matches (t : N) (d : srdata) : Prop :=
  t = type_of d \/ (t = 20 /\ match d with SRState _ => True | _ => False end).

Lemma rmap_ok {A B} (f : A -> B) x y : rmap f x = Ok y -> exists a, x = Ok a /\ y = f a.
Proof. unfold rmap. intros H. apply bind_ok in H. destruct H as (a & Ha & H). exists a. split; [exact Ha|]. apply Ok_inj in H. auto. Qed.

Lemma sub_decode_wf d t len b s : bytes_ok b = true -> sub_decode d t len b = Ok s ->
  dec_sr s /\ type_matches t s.
Proof.
  intros Hb H. destruct d as [|d]; [discriminate|]. cbn [sub_decode] in H. unfold type_matches.
  repeat match type of H with (if ?c then _ else _) = _ => destruct c eqn:?Hc end;
    try discriminate;
    repeat match goal with Hc : (t =? _) = true |- _ => apply N.eqb_eq in Hc; subst t end.
  all: try (apply rmap_ok in H; destruct H as (a & Ha & ->); cbn [dec_sr type_of];
            split; [|first [left; reflexivity | right; split; [reflexivity|exact I]]];
            eauto using term_dec_wf, ext_dec_wf, ad_dec_wf, state_dec_wf, liquid_dec_wf, abs_cntr_dec_wf,
              auth_dec_wf, counters_dec_wf, abs_an_dec_wf, disp_dec_wf; fail).
  - unfold response_decode in H. apply bind_ok in H. destruct H as ([x r] & Hx & H).
    apply buffer_read_ok in Hx; [|reflexivity|exact Hb]. destruct Hx as (Hx & Hl & Hr).
    apply bind_ok in H. destruct H as ([st r'] & Hst & H). apply read_byte_ok in Hst; [|exact Hr].
    destruct Hst as [Hst _]. apply bind_ok in H. destruct H as (? & _ & H). apply Ok_inj in H. subst s.
    cbn [dec_sr type_of]. split; [|left; reflexivity]. split; [|apply byte_ok_lt; exact Hst].
    apply le_dec_bound in Hx. rewrite Hl in Hx. exact Hx.
  - apply rmap_ok in H. destruct H as (a & Ha & ->). cbn [dec_sr type_of]. split; [|left; reflexivity].
    unfold result_decode in Ha. apply bind_ok in Ha. destruct Ha as ([c r] & Hc' & Ha). apply Ok_inj in Ha. subst a.
    apply read_byte_ok in Hc'; [|exact Hb]. apply byte_ok_lt. apply Hc'.
  - apply rmap_ok in H. destruct H as (a & Ha & ->). cbn [dec_sr type_of]. split; [|left; reflexivity].
    unfold plus_decode in Ha. destruct (pb_unmarshal b) eqn:Hu; [|discriminate]. apply Ok_inj in Ha. subst. eauto.
Qed.

Definition dec_rd (rd : record_data) : Prop :=
  dec_sr (SRD rd) /\ type_matches (SRT rd) (SRD rd) /\ SRL rd < 2 ^ 16.

Lemma rds_loop_wf dec : (forall t len b s, bytes_ok b = true -> dec t len b = Ok s -> dec_sr s /\ type_matches t s) ->
  forall fuel r l, bytes_ok r = true -> rds_loop dec fuel r = Ok l -> Forall dec_rd l.
Proof.
  intros Hdec. induction fuel as [|fuel IH]; intros r l Hr H.
  - destruct r; [|discriminate]. apply Ok_inj in H. subst. constructor.
  - destruct r as [|t r]; [apply Ok_inj in H; subst; constructor|].
    cbn [rds_loop read_byte bind] in H. rewrite bytes_ok_cons, andb_true_iff in Hr. destruct Hr as [Ht Hr].
    apply bind_ok in H. destruct H as ([lb r2] & Hlb & H). apply buffer_read_ok in Hlb; [|reflexivity|exact Hr].
    destruct Hlb as (Hb1 & Hb2 & Hb3). unfold buffer_next in H. cbv zeta in H.
    apply bind_ok in H. destruct H as (d & Hd & H). apply Hdec in Hd; [|apply bytes_ok_firstn; exact Hb3].
    apply bind_ok in H. destruct H as (l' & Hl' & H). apply Ok_inj in H. subst l.
    apply IH in Hl'; [|apply bytes_ok_skipn; exact Hb3]. constructor; [|exact Hl'].
    split; [apply Hd|]. split; [apply Hd|]. apply le_dec_bound in Hb1. rewrite Hb2 in Hb1. exact Hb1.
Qed.

Lemma rds_decode_d_wf d b l : bytes_ok b = true -> rds_decode_d d b = Ok l -> Forall dec_rd l.
Proof. intros Hb H. eapply rds_loop_wf; [|exact Hb|exact H]. intros t len b' s Hb' Hs. eapply sub_decode_wf; eassumption. Qed.

Definition dec_sdr (s : sdr) : Prop :=
  RL s < 2 ^ 16 /\ RN s < 2 ^ 16 /\ SST s < 256 /\ RST s < 256 /\
  bits_ok 1 (SSOD s) = true /\ bits_ok 1 (RSOD s) = true /\ bits_ok 1 (GRP s) = true /\
  bits_ok 2 (RPP s) = true /\
  opt_num 4 (TMFE s) (TM s) = true /\ opt_num 4 (EVFE s) (EVID s) = true /\
  opt_num 4 (OBFE s) (OID s) = true /\ Forall dec_rd (RD s).

Lemma sdr_decode_wf rdsdec r s r' :
  (forall b l, bytes_ok b = true -> rdsdec b = Ok l -> Forall dec_rd l) ->
  bytes_ok r = true -> sdr_decode rdsdec r = Ok (s, r') -> dec_sdr s /\ bytes_ok r' = true.
Proof.
  intros Hdec Hr H. unfold sdr_decode in H.
  apply bind_ok in H. destruct H as ([b r1] & H1 & H). apply reader_read_ok in H1; [|reflexivity|exact Hr].
  destruct H1 as (Hb & Hbl & Hr1). cbv zeta in H.
  apply bind_ok in H. destruct H as ([b2 r2] & H2 & H). apply reader_read_ok in H2; [|exact Hb|exact Hr1].
  destruct H2 as (Hb2 & Hb2l & Hr2).
  apply bind_ok in H. destruct H as ([fl r3] & H3 & H). apply read_byte_ok in H3; [|exact Hr2].
  destruct H3 as (Hfl & Hr3).
  apply bind_ok in H. destruct H as ([oid r4] & H4 & H). apply opt4_ok in H4; [|apply fbit_ok; [exact Hfl|lia]|exact Hr3].
  destruct H4 as (Ho & Hr4).
  apply bind_ok in H. destruct H as ([ev r5] & H5 & H). apply opt4_ok in H5; [|apply fbit_ok; [exact Hfl|lia]|exact Hr4].
  destruct H5 as (He & Hr5).
  apply bind_ok in H. destruct H as ([tm r6] & H6 & H). apply opt4_ok in H6; [|apply fbit_ok; [exact Hfl|lia]|exact Hr5].
  destruct H6 as (Ht & Hr6).
  apply bind_ok in H. destruct H as ([sst r7] & H7 & H). apply read_byte_ok in H7; [|exact Hr6].
  destruct H7 as (Hs & Hr7).
  apply bind_ok in H. destruct H as ([rst r8] & H8 & H). apply read_byte_ok in H8; [|exact Hr7].
  destruct H8 as (Hrs & Hr8).
  apply bind_ok in H. destruct H as ([rd r9] & H9 & H). injection H as <- <-.
  assert (Forall dec_rd rd /\ bytes_ok r9 = true) as [Hrd Hr9].
  { destruct r8 as [|x r8].
    - injection H9 as <- <-. split; [constructor|reflexivity].
    - apply bind_ok in H9. destruct H9 as ([rb ra] & Ha & H9). apply reader_read_ok in Ha; [|apply bytes_ok_zeros|exact Hr8].
      apply bind_ok in H9. destruct H9 as (l & Hl & H9). injection H9 as <- <-. destruct Ha as (Ha1 & _ & Ha2).
      split; [|exact Ha2]. eapply Hdec; [exact Ha1|exact Hl]. }
  split; [|exact Hr9]. unfold dec_sdr.
  cbn [RL RN SSOD RSOD GRP RPP TMFE EVFE OBFE OID EVID TM SST RST RD].
  apply le_dec_bound in Hb as Hbb. rewrite Hbl in Hbb.
  apply le_dec_bound in Hb2 as Hbb2. rewrite Hb2l, Hbl in Hbb2.
  apply byte_ok_lt in Hs, Hrs.
  repeat (split; [first [assumption | apply fbit_ok; [exact Hfl|lia] | apply substr35_ok; exact Hfl]|]). exact Hrd.
Qed.

Lemma sds_loop_wf rdsdec :
  (forall b l, bytes_ok b = true -> rdsdec b = Ok l -> Forall dec_rd l) ->
  forall fuel r l, bytes_ok r = true -> sds_loop rdsdec fuel r = Ok l -> Forall dec_sdr l.
Proof.
  intros Hdec. induction fuel as [|fuel IH]; intros r l Hr H.
  - destruct r; [|discriminate]. apply Ok_inj in H. subst. constructor.
  - destruct r as [|t r]; [apply Ok_inj in H; subst; constructor|].
    cbn [sds_loop] in H. apply bind_ok in H. destruct H as ([s r'] & Hs & H).
    apply sdr_decode_wf in Hs; [|exact Hdec|exact Hr]. destruct Hs as [Hs Hr'].
    apply bind_ok in H. destruct H as (l' & Hl' & H). apply Ok_inj in H. subst. constructor; [exact Hs|].
    eapply IH; eassumption.
Qed.

Lemma sds_decode_wf b l : bytes_ok b = true -> sds_decode b = Ok l -> Forall dec_sdr l.
Proof.
  intros Hb H. eapply sds_loop_wf; [|exact Hb|exact H]. intros b' l' Hb' Hl'. eapply rds_decode_d_wf; eassumption.
Qed.

Definition dec_frame (f : frame) : Prop :=
  match f with
  | FSds l => Forall dec_sdr l
  | FResp p => RPID p < 2 ^ 16 /\ PR p < 256 /\
      match SDRS p with None => True | Some l => l <> [] /\ Forall dec_sdr l end
  end.

Lemma sds_decode_nonempty b : b <> [] -> sds_decode b <> Ok [].
Proof.
  intros Hb H. destruct b as [|x b]; [congruence|]. unfold sds_decode, sds_decode_d in H. cbn [length sds_loop] in H.
  apply bind_ok in H. destruct H as ([s r] & _ & H). apply bind_ok in H. destruct H as (? & _ & H). discriminate.
Qed.

Lemma ptr_decode_wf b p : bytes_ok b = true -> ptr_decode b = Ok p -> dec_frame (FResp p).
Proof.
  intros Hb H. unfold ptr_decode in H.
  apply bind_ok in H. destruct H as ([x r] & Hx & H). apply buffer_read_ok in Hx; [|reflexivity|exact Hb].
  destruct Hx as (Hx & Hl & Hr). apply bind_ok in H. destruct H as ([pr r'] & Hpr & H).
  apply read_byte_ok in Hpr; [|exact Hr]. destruct Hpr as [Hpr Hr']. apply byte_ok_lt in Hpr.
  apply le_dec_bound in Hx as Hxb. rewrite Hl in Hxb.
  destruct r' as [|c r'].
  - apply Ok_inj in H. subst p. cbn. auto.
  - apply bind_ok in H. destruct H as (s & Hs & H). apply Ok_inj in H. subst p. cbn [dec_frame RPID PR SDRS].
    split; [exact Hxb|]. split; [exact Hpr|]. split.
    + intros ->. eapply sds_decode_nonempty; [|exact Hs]. discriminate.
    + eapply sds_decode_wf; eassumption.
Qed.

Lemma frame_decode_wf pt b f : bytes_ok b = true -> frame_decode pt b = Ok f -> dec_frame f.
Proof.
  intros Hb H. unfold frame_decode in H. destruct (pt =? PtAppdataPacket); apply rmap_ok in H;
    destruct H as (a & Ha & ->).
  - cbn. eapply sds_decode_wf; eassumption.
  - eapply ptr_decode_wf; eassumption.
Qed.


Lemma parse_flags_of v : byte_ok v = true ->
  (exists w, parse8 (concat_high_first (flags_low_first (fmt_b 8 v))) = Ok w) /\
  (exists w, parse8 (concat_low_first (flags_low_first (fmt_b 8 v))) = Ok w).
Proof.
  intros Hv.
  assert ((match parse8 (concat_high_first (flags_low_first (fmt_b 8 v))) with Ok _ => true | _ => false end &&
          match parse8 (concat_low_first (flags_low_first (fmt_b 8 v))) with Ok _ => true | _ => false end)%bool = true) as H.
  { apply byte_ok_lt in Hv. revert v Hv. apply byte_sweep. vm_compute. reflexivity. }
  apply andb_true_iff in H. destruct H as [H1 H2]. split.
  - destruct (parse8 (concat_high_first (flags_low_first (fmt_b 8 v)))); try discriminate; eauto.
  - destruct (parse8 (concat_low_first (flags_low_first (fmt_b 8 v)))); try discriminate; eauto.
Qed.

Lemma pos_dec_encodes b e : bytes_ok b = true -> pos_decode b = Ok e -> exists b', pos_encode e = Ok b'.
Proof.
  intros Hb H. destruct (pos_dec_wf b e Hb H) as (Hw & Halt & _).
  unfold wf_pos in Hw. rewrite !andb_true_iff in Hw. unfold pos_alt0 in Hw.
  cbn [ALTE LOHS LAHS MV BB CS FIX VLD] in Hw.
  destruct Hw as [[[[[[[[[[[[[[[H1 H2] H3] H4] H5] H6] H7] _] _] _] _] _] _] _] _] _].
  unfold pos_encode.
  destruct (bits_app8 (ALTE e) (LOHS e) (LAHS e) (MV e) (BB e) (CS e) (FIX e) (VLD e))
    as (v & Hp & _); try assumption.
  - unfold opt_num in Halt. apply andb_true_iff in Halt. apply Halt.
  - rewrite Hp. cbn [bind]. eauto.
Qed.

Lemma dec_sr_encodes d : pb_total -> dec_sr d -> exists b, sr_encode d = Ok b.
Proof.
  intros Hpb H. destruct d; cbn [dec_sr sr_encode] in *.
  - destruct H as (b & Hb & H). eapply pos_dec_encodes; eassumption.
  - destruct (term_roundtrip _ H) as (b & Hb & _). eauto.
  - unfold srresp_encode. eauto.
  - unfold result_encode. eauto.
  - destruct (ext_roundtrip _ H) as (b & Hb & _). eauto.
  - destruct H as ((v & Hv & Hd) & (w & Hw & Ha) & _). unfold ad_encode. rewrite Hd, Ha.
    destruct (parse_flags_of v Hv) as [[x Hx] _]. destruct (parse_flags_of w Hw) as [_ [y Hy]].
    rewrite Hx. cbn [bind]. rewrite Hy. cbn [bind]. eauto.
  - destruct (state_roundtrip _ H) as (b & Hb & _). eauto.
  - destruct (liquid_roundtrip _ H) as (b & Hb & _). eauto.
  - destruct (abs_cntr_roundtrip _ H) as (b & Hb & _). eauto.
  - destruct (auth_roundtrip _ H) as (b & Hb & _). eauto.
  - destruct H as ((v & Hv & Hd) & _). unfold counters_encode. rewrite Hd.
    destruct (parse_flags_of v Hv) as [[x Hx] _]. rewrite Hx. cbn [bind]. eauto.
  - destruct H as (b & Hb & Hu). destruct (Hpb _ _ Hb Hu) as (b' & Hm). unfold plus_encode. rewrite Hm. eauto.
  - destruct (abs_an_roundtrip _ H) as (b & Hb & _). eauto.
  - destruct (disp_roundtrip _ H) as (b & Hb & _). eauto.
  - contradiction.
Qed.

Lemma sr_length_of_ok d b : sr_encode d = Ok b -> exists n, sr_length d = Ok n.
Proof. intros H. destruct d; cbn [sr_length]; try (rewrite H; cbn; eauto; fail); eauto. Qed.

Lemma dec_rd_encodes rd : pb_total -> dec_rd rd -> exists b, rd_encode rd = Ok b.
Proof.
  intros Hpb (Hd & Ht & _). destruct (dec_sr_encodes _ Hpb Hd) as (b & Hb).
  destruct (sr_length_of_ok _ _ Hb) as (n & Hn). unfold rd_encode. rewrite Hb, Hn.
  assert (exists t, (if SRT rd =? 0 then infer_type (SRD rd) else Ok (SRT rd)) = Ok t) as (t & ->).
  { destruct (SRT rd =? 0) eqn:H0; [|eauto]. apply N.eqb_eq in H0. unfold type_matches in Ht. rewrite H0 in Ht.
    destruct (SRD rd); cbn [type_of infer_type] in *; eauto; destruct Ht as [Ht|[Ht _]]; try discriminate; try contradiction. }
  cbn [bind]. destruct (SRL rd =? 0); cbn [bind]; eauto.
Qed.

Lemma dec_rds_encodes l : pb_total -> Forall dec_rd l -> exists b, rds_encode l = Ok b.
Proof.
  intros Hpb. induction 1 as [|rd l Hrd Hl [b' IH]]; [exists []; reflexivity|].
  destruct (dec_rd_encodes rd Hpb Hrd) as (b & Hb). cbn [rds_encode]. rewrite Hb, IH. cbn. eauto.
Qed.

Lemma dec_sdr_encodes s : pb_total -> dec_sdr s -> exists b, sdr_encode s = Ok b.
Proof.
  intros Hpb (_ & _ & _ & _ & H1 & H2 & H3 & H4 & H5 & H6 & H7 & Hrd).
  destruct (dec_rds_encodes _ Hpb Hrd) as (b & Hb). unfold sdr_encode. rewrite Hb. cbn [bind].
  destruct (sdr_flags (SSOD s) (RSOD s) (GRP s) (RPP s) (TMFE s) (EVFE s) (OBFE s))
    as (v & Hp & _); try assumption; try (eapply opt_num_flag; eassumption).
  rewrite Hp. cbn [bind]. eauto.
Qed.

Lemma dec_sds_encodes l : pb_total -> Forall dec_sdr l -> exists b, sds_encode l = Ok b.
Proof.
  intros Hpb. induction 1 as [|s l Hs Hl [b' IH]]; [exists []; reflexivity|].
  destruct (dec_sdr_encodes s Hpb Hs) as (b & Hb). cbn [sds_encode]. rewrite Hb, IH. cbn. eauto.
Qed.

Lemma dec_frame_encodes f : pb_total -> dec_frame f -> exists b, frame_encode (Some f) = Ok b.
Proof.
  intros Hpb H. destruct f as [l|p]; cbn [dec_frame frame_encode] in *.
  - apply dec_sds_encodes; assumption.
  - destruct H as (_ & _ & H). unfold ptr_encode. destruct (SDRS p) as [l|].
    + destruct (dec_sds_encodes l Hpb (proj2 H)) as (b & ->). cbn. eauto.
    + cbn. eauto.
Qed.

End DecWf2.
