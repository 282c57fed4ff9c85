(** * Prop_Codec: C13, C15–C18, C22–C32, C37 — records and subrecords. *)
From Coq Require Import Floats.SpecFloat Lia.
From Verif Require Import GoBase Crc Float64 SubRecords Records Package
  Spec_Bits Spec_Wf Spec_Rec BaseFacts SubFacts RecFacts DecFacts DecWf CodecFacts TruncFacts Vectors.

(** ** C13: a record that declares more bytes than follow is rejected.
    Refuted: the missing bytes are read as zeros, so that subrecords are
    fabricated (here: two bytes of a six-byte record give a confirmation). *)
Theorem C13_short_record_rejected_refuted : forall E : go_env,
  exists h tail s, record_header h 6 /\ blen tail < 6 /\ tail = [0; 3] /\
  sds_decode (h ++ tail) = Ok [s] /\ RD s = [{| SRT := 0; SRL := 3; SRD := SRResp 0 0 |}].
Proof. exact @short_refuted. Qed.
(** What happens instead, for every header and tail: the record is decoded as if
    zero bytes followed; with nothing at all after the header it is accepted as
    empty. *)
Theorem C13_short_record_zero_padded : forall (E : go_env) h rl tail,
  record_header h rl -> tail <> [] -> blen tail < rl ->
  sds_decode (h ++ tail) = sds_decode (h ++ tail ++ zeros (N.to_nat rl - length tail)).
Proof. exact @short_record. Qed.
Theorem C13_headless_record_accepted : forall (E : go_env) h rl, record_header h rl ->
  exists s, sds_decode h = Ok [s] /\ RD s = [] /\ RL s = rl.
Proof. exact @empty_record. Qed.
Example C13_example : record_header ([6;0; 1;0; 1] ++ [1;2;3;4] ++ [2; 2]) 6.
Proof. exists 1, 1, [1;2;3;4], 2, 2. repeat split. Qed.

(** ** C15–C17: round trips of record lists and confirmations. *)
Theorem C15_records_roundtrip : forall (E : go_env) l, Forall wf_sdr l ->
  exists b l', sds_encode l = Ok b /\ sds_decode b = Ok l' /\ Forall2 filled_sdr l l'.
Proof. exact @sds_roundtrip. Qed.
Theorem C16_subrecords_roundtrip : forall (E : go_env) l, Forall wf_rd l ->
  exists b l', rds_encode l = Ok b /\ rds_decode b = Ok l' /\ Forall2 filled_rd l l'.
Proof. exact @rds_roundtrip. Qed.
Theorem C17_pt_response_roundtrip : forall (E : go_env) p, wf_ptr p ->
  exists b p', ptr_encode p = Ok b /\ ptr_decode b = Ok p' /\ filled_ptr p p'.
Proof. exact @ptr_roundtrip. Qed.
Theorem C17_sr_response_roundtrip : forall (E : go_env) crn rst, crn < 2 ^ 16 -> rst < 256 ->
  exists b, srresp_encode crn rst = Ok b /\ srresp_decode b = Ok (SRResp crn rst) /\ length b = 3%nat.
Proof. exact @srresp_roundtrip. Qed.
Theorem C17_result_code_roundtrip : forall c,
  exists b, result_encode c = Ok b /\ result_decode b = Ok c /\ length b = 1%nat.
Proof. exact @result_roundtrip. Qed.

(** well-formed values with optional fields present *)
Definition ex_liquid : liquid := {| LLSEF := s0; LLSVU := [ch1; ch0]; RDF := s0; LLSN := 3; MADDR := 1; LLSD := 2138 |}.
Definition ex_state : state_data := {| State := 2; MPSV := 127; BBV := 0; IBV := 41; NMS := s1; IBU := s0; BBU := s0 |}.
Definition ex_sdr {E : go_env} : sdr := {| RL := 0; RN := 97; SSOD := s1; RSOD := s0; GRP := s0; RPP := [ch1; ch1];
  TMFE := s1; EVFE := s0; OBFE := s1; OID := 133552; EVID := 0; TM := 5; SST := 2; RST := 2;
  RD := [{| SRT := 0; SRL := 0; SRD := SRLiquid ex_liquid |}; {| SRT := 20; SRL := 5; SRD := SRState ex_state |};
         {| SRT := 5; SRL := 0; SRD := SRDisp {| DT := 0; DID := 71; DSCR := [65] |} |}] |}.
Example C15_example : forall E : go_env, Forall wf_sdr [ex_sdr; ex_sdr].
Proof.
  intros E. assert (H : wf_sdr ex_sdr); [|constructor; [exact H|constructor; [exact H|constructor]]].
  unfold wf_sdr. do 10 (split; [vm_compute; reflexivity|]). split.
  - constructor; [|constructor; [|constructor; [|constructor]]];
      (split; [vm_compute; reflexivity|]);
      (split; [cbn; auto|]); eexists; (split; [vm_compute; reflexivity|]); (split; [vm_compute; reflexivity|]); cbn; auto.
  - eexists. split; [vm_compute; reflexivity|]. split; [vm_compute; reflexivity|]. left. reflexivity.
Qed.
Example C17_example : forall E : go_env, wf_ptr {| RPID := 14357; PR := 0; SDRS := Some [ex_sdr] |}.
Proof.
  intros E. pose proof (C15_example E) as H. inversion H; subst.
  split; [vm_compute; reflexivity|]. split; [vm_compute; reflexivity|]. split; [discriminate|].
  constructor; [assumption|constructor].
Qed.

(** ** C18: EGTS_SR_POS_DATA; [quant_pos] replaces time and coordinates by
    their quantised values and nothing else (their accuracy: C19–C21). *)
Theorem C18_position_roundtrip : forall (E : go_env) e, wf_pos e = true ->
  exists b, pos_encode e = Ok b /\ pos_decode b = Ok (quant_pos e) /\
    length b = (if is1 (ALTE e) then 24 else 21)%nat.
Proof. exact @pos_roundtrip. Qed.
Example C18_example : wf_pos {| NavigationTime := 268603733000000000; Latitude := S754_finite false 7818515509593830 (-47);
  Longitude := S754_finite false 5306087094451200 (-47); ALTE := s1; LOHS := s0; LAHS := s0; MV := s1; BB := s1; CS := s0; FIX := s1; VLD := s1;
  DirectionHighestBit := 1; AltitudeSign := 1; Speed := 1638; Direction := 172; Odometer := 16777215; DigitalInputs := 3;
  Source := 1; Altitude := 30 |} = true.
Proof. vm_compute. reflexivity. Qed.

(** ** C22: EGTS_SR_EXT_POS_DATA *)
Theorem C22_ext_position_roundtrip : forall e, wf_ext e = true ->
  exists b, ext_encode e = Ok b /\ ext_decode b = Ok e.
Proof. exact @ext_roundtrip. Qed.
Example C22_example : wf_ext {| NSFE := s1; SFE := s1; PFE := s0; HFE := s1; VFE := s1;
  VDOP := 65535; HDOP := 70; PDOP := 0; SAT := 12; NS := 256 |} = true.
Proof. reflexivity. Qed.

(** ** C23: EGTS_SR_AD_SENSORS_DATA.  Refuted: the first analogue sensor comes
    back as the eighth. *)
Theorem C23_ad_sensors_roundtrip_refuted : exists e b e',
  full_ad e = true /\ ad_encode e = Ok b /\ ad_decode b = Ok e' /\
  o1 (ANS e) = 7 /\ o1 (ASFE e) = s1 /\ o8 (ASFE e) = s0 /\
  o1 (ASFE e') = s0 /\ o8 (ASFE e') = s1 /\ o8 (ANS e') = 7.
Proof. exact ad_refuted. Qed.
(** It comes back unchanged exactly when the analogue flags read the same from
    both ends; in general the analogue flags come back mirrored. *)
Theorem C23_ad_sensors_roundtrip_iff : forall e, full_ad e = true ->
  ((exists b, ad_encode e = Ok b /\ ad_decode b = Ok e) <-> flags_palindrome (ASFE e) = true).
Proof. exact ad_roundtrip_iff. Qed.
Theorem C23_ad_flags_mirrored : forall e b e', full_ad e = true ->
  ad_encode e = Ok b -> ad_decode b = Ok e' ->
  ASFE e' = mkOct (o8 (ASFE e)) (o7 (ASFE e)) (o6 (ASFE e)) (o5 (ASFE e))
                  (o4 (ASFE e)) (o3 (ASFE e)) (o2 (ASFE e)) (o1 (ASFE e)) /\
  DIOE e' = DIOE e /\ DOUT e' = DOUT e.
Proof. exact ad_flags_on_wire. Qed.
Example C23_example : full_ad {| DIOE := mkOct s1 s0 s0 s0 s1 s0 s0 s0; DOUT := 3; ASFE := mkOct s1 s0 s0 s0 s0 s0 s0 s1;
  ADIO := mkOct 255 0 0 0 1 0 0 0; ANS := mkOct 7 0 0 0 0 0 0 16777215 |} = true /\
  flags_palindrome (mkOct s1 s0 s0 s0 s0 s0 s0 s1) = true.
Proof. split; reflexivity. Qed.

(** ** C24: EGTS_SR_COUNTERS_DATA.  Refuted: the second counter overwrites the
    first and is lost. *)
Theorem C24_counters_roundtrip_refuted : exists e b e',
  full_counters e = true /\ counters_encode e = Ok b /\ counters_decode b = Ok e' /\
  o1 (CN e) = 5 /\ o2 (CN e) = 7 /\ o1 (CN e') = 7 /\ o2 (CN e') = 0.
Proof. exact counters_refuted. Qed.
Theorem C24_counters_roundtrip_iff : forall e, full_counters e = true ->
  ((exists b, counters_encode e = Ok b /\ counters_decode b = Ok e) <->
   (o2 (CFE e) = s0 \/ (o1 (CN e) = 0 /\ o2 (CN e) = 0))).
Proof. exact counters_roundtrip_iff. Qed.
Theorem C24_counters_seen : forall e, full_counters e = true ->
  exists b, counters_encode e = Ok b /\ counters_decode b = Ok (counters_seen e).
Proof. exact counters_decode_encode. Qed.
Example C24_example : full_counters {| CFE := mkOct s1 s0 s1 s0 s0 s0 s0 s1; CN := mkOct 5 0 16777215 0 0 0 0 9 |} = true.
Proof. reflexivity. Qed.

(** ** C25–C28 *)
Theorem C25_term_identity_roundtrip : forall e, wf_term e = true ->
  exists b, term_encode e = Ok b /\ term_decode b = Ok e.
Proof. exact term_roundtrip. Qed.
Example C25_example : wf_term {| TID := 133552; MNE := s0; BSE := s1; NIDE := s1; SSRA := s1; LNGCE := s0; IMSIE := s0;
  IMEIE := s1; HDIDE := s0; HDID := 0; IMEI := repeat 57 15; IMSI := []; LNGC := []; NID := [1;2;3]; BS := 1024; MSISDN := [] |} = true.
Proof. reflexivity. Qed.
Theorem C26_auth_info_roundtrip : forall e, wf_auth e = true ->
  exists b, auth_encode e = Ok b /\ auth_decode b = Ok e.
Proof. exact auth_roundtrip. Qed.
Example C26_example : wf_auth {| UNM := [56;48;48]; UPSW := []; SSQ := [255] |} = true.
Proof. reflexivity. Qed.
Theorem C27_dispatcher_identity_roundtrip : forall e, wf_disp e = true ->
  exists b, disp_encode e = Ok b /\ disp_decode b = Ok e.
Proof. exact disp_roundtrip. Qed.
Example C27_example : wf_disp {| DT := 255; DID := 4294967295; DSCR := [0; 255] |} = true.
Proof. reflexivity. Qed.
Theorem C28_state_roundtrip : forall e, wf_state e = true ->
  exists b, state_encode e = Ok b /\ state_decode b = Ok e /\ length b = 5%nat.
Proof. exact state_roundtrip. Qed.
(** ... and as a subrecord, under either type code. *)
Theorem C28_state_types : forall (E : go_env) e, wf_state e = true ->
  exists b, state_encode e = Ok b /\
    sub_decode 1 21 5 b = Ok (SRState e) /\ sub_decode 1 20 5 b = Ok (SRState e) /\
    forall len, len <> 5 -> sub_decode 1 20 len b = Err.
Proof. exact @state_types. Qed.
Example C28_example : wf_state ex_state = true.
Proof. reflexivity. Qed.

(** ** C29: EGTS_SR_LIQUID_LEVEL_SENSOR.  The round trip holds ... *)
Theorem C29_liquid_roundtrip_partial : forall e, wf_liquid e = true ->
  exists b, liquid_encode e = Ok b /\ liquid_decode b = Ok e /\ length b = 7%nat.
Proof. exact liquid_roundtrip. Qed.
(** ... but a sensor number of 9 is not rejected: it sets the error flag. *)
Theorem C29_wide_number_rejected_refuted : exists e b e',
  bits_ok 1 (LLSEF e) = true /\ bits_ok 2 (LLSVU e) = true /\
  bits_ok 1 (RDF e) = true /\ LLSN e = 9 /\
  liquid_encode e = Ok b /\ liquid_decode b = Ok e' /\ LLSN e' = 1 /\ LLSEF e = s0 /\ LLSEF e' = s1.
Proof. exact liquid_num_refuted. Qed.
Lemma parse8_lt s v : parse8 s = Ok v -> v < 256.
Proof.
  unfold parse8, parse_uint. destruct s as [|c s]; [discriminate|].
  assert (G : forall s acc, acc <= 255 -> fst (parse_bin_from 255 acc s) <= 255).
  { clear. induction s as [|c s IH]; intros acc Ha; cbn [parse_bin_from fst]; [exact Ha|].
    destruct (_ || _); [|cbn [fst]; lia]. cbv zeta. destruct (N.ltb_spec 255 (2 * acc + (c - ch0))); [cbn [fst]; lia|]. apply IH. lia. }
  specialize (G (c :: s) 0 ltac:(lia)). destruct (parse_bin_from 255 0 (c :: s)) as [x [|]]; [|discriminate].
  intros H. injection H as <-. cbn [fst] in G. lia.
Qed.
(** Exactly: Encode and Decode give the value back if and only if every field fits
    its place on the wire. *)
Theorem C29_liquid_roundtrip_iff : forall e,
  (exists b, liquid_encode e = Ok b /\ liquid_decode b = Ok e) <-> wf_liquid e = true.
Proof.
  intros e. split.
  - intros (b & H1 & H2). refine (liquid_dec_wf b e _ H2). unfold liquid_encode in H1. unfold bind in H1.
    destruct (parse8 _) as [v| | |] eqn:Ep; try discriminate. apply (f_equal (fun r => match r with Ok x => x | _ => [] end)) in H1. cbn beta iota in H1. rewrite <- H1. apply parse8_lt in Ep.
    rewrite !bytes_ok_app, !le_enc_ok. cbn [bytes_ok forallb]. unfold byte_ok. rewrite (proj2 (N.ltb_lt _ _) Ep). reflexivity.
  - intros H. destruct (liquid_roundtrip e H) as (b & H1 & H2 & _). eauto.
Qed.
Example C29_example : wf_liquid ex_liquid = true.
Proof. reflexivity. Qed.

(** ** C30: every 24-bit value round-trips, larger ones are reduced. *)
Theorem C30_abs_counter : forall e, byte_ok (CounterNumber e) = true ->
  exists b, abs_cntr_encode e = Ok b /\
    abs_cntr_decode b = Ok {| CounterNumber := CounterNumber e; CounterValue := CounterValue e mod 2 ^ 24 |}.
Proof. exact abs_cntr_any. Qed.
Theorem C30_abs_analogue : forall e, byte_ok (SensorNumber e) = true ->
  exists b, abs_an_encode e = Ok b /\
    abs_an_decode b = Ok {| SensorNumber := SensorNumber e; Value := Value e mod 2 ^ 24 |}.
Proof. exact abs_an_any. Qed.
Theorem C30_roundtrip : (forall e, wf_abs_cntr e = true ->
    exists b, abs_cntr_encode e = Ok b /\ abs_cntr_decode b = Ok e /\ length b = 4%nat) /\
  (forall e, wf_abs_an e = true ->
    exists b, abs_an_encode e = Ok b /\ abs_an_decode b = Ok e /\ length b = 4%nat).
Proof. exact (conj abs_cntr_roundtrip abs_an_roundtrip). Qed.
Example C30_example : wf_abs_cntr {| CounterNumber := 110; CounterValue := 16777215 |} = true /\
  wf_abs_an {| SensorNumber := 255; Value := 0 |} = true.
Proof. split; reflexivity. Qed.

(** ** C31: truncated optional fields.  Refuted: HDOP cut in half is completed
    with the high byte of VDOP (258 = 0x0102, 259 = 0x0103). *)
Theorem C31_truncation_rejected_refuted : exists b e, ext_decode b = Ok e /\ length b = 4%nat /\ HFE e = s1 /\
  VDOP e = 258 /\ HDOP e = 259 /\ b = [3; 2; 1; 3].
Proof. exact stale_refuted. Qed.
(** Partial: only the last field can be incomplete — the value decoded never
    needs more than [slack] bytes beyond those present. *)
Theorem C31_truncation_rejected_partial : forall (E : go_env) depth t len b d b',
  sub_decode depth t len b = Ok d -> sr_encode d = Ok b' ->
  (match d with SRPlus _ => False | _ => True end) -> (length b' <= length b + slack d)%nat.
Proof. exact @sub_trunc. Qed.

(** ** C32: Length() is the length of Encode(). *)
Theorem C32_lengths : forall E : go_env,
  (forall d, length_matches (sr_encode d) (sr_length d)) /\
  (forall l, length_matches (rds_encode l) (rds_length l)) /\
  (forall l, length_matches (sds_encode l) (sds_length l)) /\
  (forall p, length_matches (ptr_encode p) (ptr_length p)).
Proof. exact @lengths_match. Qed.
Theorem C32_encode_panics_only_on_nil : forall E : go_env,
  (forall d, d <> SRNil -> sr_encode d <> Panic) /\
  (forall l, Forall no_nil_rd l -> rds_encode l <> Panic) /\
  (forall l, Forall no_nil_sdr l -> sds_encode l <> Panic).
Proof. exact @encode_no_panic. Qed.

(** ** C37: type codes are inferred.  Refuted for the dispatcher identity; true
    for every other subrecord. *)
Theorem C37_type_inferred_refuted : forall E : go_env, exists e, wf_disp e = true /\
  (exists b, sr_encode (SRDisp e) = Ok b) /\ rd_encode {| SRT := 0; SRL := 0; SRD := SRDisp e |} = Err /\
  exists b, rd_encode {| SRT := 5; SRL := 0; SRD := SRDisp e |} = Ok b.
Proof. exact @infer_refuted. Qed.
Theorem C37_type_inferred_partial : forall (E : go_env) rd, SRT rd = 0 ->
  (match SRD rd with SRDisp _ | SRNil => False | _ => True end) ->
  rd_encode rd = rd_encode {| SRT := type_of (SRD rd); SRL := SRL rd; SRD := SRD rd |}.
Proof. exact @rd_infer. Qed.
(** Exactly: the dispatcher identity (and no data at all) is refused, every other
    subrecord is encoded under its own type code. *)
Theorem C37_type_inferred_exactly : forall (E : go_env) rd, SRT rd = 0 ->
  rd_encode rd = match SRD rd with
                 | SRDisp _ | SRNil => Err
                 | d => rd_encode {| SRT := type_of d; SRL := SRL rd; SRD := d |}
                 end.
Proof.
  intros E rd H. pose proof (C37_type_inferred_partial E rd H) as G.
  destruct rd as [t l d]. cbn [SRT SRL SRD] in *. subst t. destruct d; try (exact (G I)); reflexivity.
Qed.

Print Assumptions C13_short_record_rejected_refuted.
Print Assumptions C13_short_record_zero_padded.
Print Assumptions C13_headless_record_accepted.
Print Assumptions C15_records_roundtrip.
Print Assumptions C16_subrecords_roundtrip.
Print Assumptions C17_pt_response_roundtrip.
Print Assumptions C17_sr_response_roundtrip.
Print Assumptions C17_result_code_roundtrip.
Print Assumptions C18_position_roundtrip.
Print Assumptions C22_ext_position_roundtrip.
Print Assumptions C23_ad_sensors_roundtrip_refuted.
Print Assumptions C23_ad_sensors_roundtrip_iff.
Print Assumptions C23_ad_flags_mirrored.
Print Assumptions C24_counters_roundtrip_refuted.
Print Assumptions C24_counters_roundtrip_iff.
Print Assumptions C24_counters_seen.
Print Assumptions C25_term_identity_roundtrip.
Print Assumptions C26_auth_info_roundtrip.
Print Assumptions C27_dispatcher_identity_roundtrip.
Print Assumptions C28_state_roundtrip.
Print Assumptions C28_state_types.
Print Assumptions C29_liquid_roundtrip_partial.
Print Assumptions C29_wide_number_rejected_refuted.
Print Assumptions C29_liquid_roundtrip_iff.
Print Assumptions C30_abs_counter.
Print Assumptions C30_abs_analogue.
Print Assumptions C30_roundtrip.
Print Assumptions C31_truncation_rejected_refuted.
Print Assumptions C31_truncation_rejected_partial.
Print Assumptions C32_lengths.
Print Assumptions C32_encode_panics_only_on_nil.
Print Assumptions C37_type_inferred_refuted.
Print Assumptions C37_type_inferred_partial.
Print Assumptions C37_type_inferred_exactly.
