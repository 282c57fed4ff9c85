(** * Prop_Layout: C73–C77 — the bytes on the wire mean what the EGTS standard
    says (Spec_Layout: field offsets and bit numbers, no decoder involved), so
    the library interoperates with other implementations. *)
From Verif Require Import GoBase Crc Float64 SubRecords Records Package
  Spec_Bits Spec_Wf Spec_Rec Spec_Crc Spec_Pkg Spec_Layout LayoutFacts LayoutFacts2 LayoutFacts3 Prop_Crc Prop_Package Vectors
  BaseFacts PkgFacts2.
From Coq Require Import Lia.

(** ** C73: every packet another implementation builds by the standard is
    accepted and read as exactly what it says, whatever follows it. *)
Theorem C73_packet_read : forall (E : go_env) b p suffix spare, bytes_ok b = true -> bytes_ok suffix = true ->
  is_packet b p -> pkg_decode pkg0 (mkSlice (b ++ suffix) spare) = (p, DRet 0 false).
Proof. exact @packet_accepted. Qed.
Theorem C73_subrecord_read : forall (E : go_env) dep t b d, bytes_ok b = true -> means t b d ->
  sub_decode (S dep) t (blen b) b = Ok d.
Proof. exact @means_decode. Qed.
Theorem C73_subrecords_read : forall (E : go_env) b l, bytes_ok b = true -> subs_of b l -> rds_decode b = Ok l.
Proof. exact @subs_of_decode. Qed.
Theorem C73_records_read : forall (E : go_env) b l, bytes_ok b = true -> records_of b l -> sds_decode b = Ok l.
Proof. exact @records_decode. Qed.
(** a packet holding one record (number 0x3815) with one result code *)
Definition ex73 {E : go_env} : package :=
  {| pPRV := 1; pSKID := 0; pPRF := [ch0; ch0]; pRTE := s0; pENA := [ch0; ch0]; pCMP := s0; pPR := [ch0; ch0];
     pHL := 11; pHE := 0; pFDL := 11; pPID := 14357; pPT := 1; pPRA := 0; pRCA := 0; pTTL := 0; pHCS := 17;
     pSFRD := Some (FSds [{| RL := 4; RN := 14357; SSOD := s0; RSOD := s0; GRP := s1; RPP := [ch0; ch0];
       TMFE := s0; EVFE := s0; OBFE := s0; OID := 0; EVID := 0; TM := 0; SST := 1; RST := 1;
       RD := [{| SRT := 9; SRL := 1; SRD := SRResult 0 |}] |}]); pSFRCS := 48188 |}.
Example C73_example : forall E : go_env, bytes_ok vec_rescode = true /\ is_packet vec_rescode ex73.
Proof.
  intros E. split; [reflexivity|]. unfold is_packet. split; [reflexivity|]. split; [reflexivity|]. split; [reflexivity|].
  split. { unfold header_agrees. cbv zeta. repeat (split; [reflexivity|]). split; [discriminate|]. split; reflexivity. }
  split; [repeat split|].
  split. { change (byte_at vec_rescode (hcs_pos vec_rescode)) with 17.
    replace 17 with (crc8 (firstn (hcs_pos vec_rescode) vec_rescode)) by (vm_compute; reflexivity).
    apply C01_crc8_is_polynomial_remainder. reflexivity. }
  split. { replace (sfrcs_of vec_rescode) with (crc16 (frame_of vec_rescode)) by (vm_compute; reflexivity).
    apply C01_crc16_is_polynomial_remainder. reflexivity. }
  eexists. split; [reflexivity|]. split; [reflexivity|].
  change (frame_of vec_rescode) with ([4; 0; 21; 56; 32; 1; 1] ++ [9; 1; 0; 0] ++ []). constructor.
  - unfold header_layout. repeat (split; [reflexivity|]). split; [|reflexivity]. cbn. repeat split; lia.
  - reflexivity.
  - change [9; 1; 0; 0] with ([9] ++ [1 mod 256; 1 / 256] ++ [0] ++ []). constructor; [reflexivity|reflexivity| |constructor].
    split; [reflexivity|]. split; [discriminate|reflexivity].
  - constructor.
Qed.
(** a position, a liquid level and an extended position of the test vectors *)
Example C73_example_subrecords : forall E : go_env,
  means 16 vec_sub_pos (SRPos (pos_of vec_sub_pos)) /\
  means 27 vec_sub_liquid (SRLiquid (mkLiquid s0 [ch0; ch0] s0 3 1 0)) /\
  means 17 vec_sub_ext (SRExt (mkExt s0 s1 s1 s1 s0 0 50 0 12 0)) /\
  means 19 vec_sub_counters (SRCounters (mkCounters (mkOct s0 s0 s0 s0 s0 s0 s1 s1) (mkOct 0 0 0 0 0 0 0 3))).
Proof.
  intros E. split; [split; [reflexivity|apply pos_of_layout; reflexivity]|].
  split; [split; [reflexivity|]; unfold liquid_layout; split; [cbn; lia|repeat split]|].
  split; [split; [reflexivity|]; unfold ext_layout; split; [discriminate|]; do 5 (split; [reflexivity|]); cbn; repeat split; lia|].
  split; [reflexivity|]. split; [|reflexivity]. unfold counters_layout. split; [discriminate|]. split; [reflexivity|].
  cbn. repeat split; lia.
Qed.

(** ** C74: what Encode writes for a well-formed value is a packet of the
    standard, carrying that value with positions quantised and lengths and
    checksums filled in. *)
Theorem C74_packet_written : forall (E : go_env) p, wf_pkg p ->
  exists p1 b p' hdr body, pkg_encode p = (p1, Ok b) /\ bytes_ok b = true /\ is_packet b p' /\ filled_pkg p p' hdr body.
Proof. exact @encode_is_packet. Qed.
Theorem C74_subrecord_written : forall (E : go_env) d b, wf_sr d -> sr_encode d = Ok b ->
  means (type_of d) b (quant_sr d).
Proof. intros E d b Hw He. apply sr_encode_means; [exact Hw|exact He|left; reflexivity]. Qed.
Theorem C74_records_written : forall (E : go_env) l, Forall wf_sdr l ->
  exists b l', sds_encode l = Ok b /\ Forall2 filled_sdr l l' /\ records_of b l'.
Proof. intros E l H. destruct (sds_encode_records l H) as (b & l' & H1 & H2 & H3 & _). exists b, l'. auto. Qed.
(** The counters encoder is right for all eight counters; only the decoder
    mistreats the second one (C24). *)
Theorem C74_counters_written : forall e b, full_counters e = true -> counters_encode e = Ok b -> counters_layout b e.
Proof. exact counters_encode_layout. Qed.
Example C74_example : (forall E : go_env, wf_pkg ex_pkg) /\
  full_counters (mkCounters (mkOct s1 s1 s0 s0 s0 s0 s0 s1) (mkOct 7 65536 0 0 0 0 0 16777215)) = true.
Proof. split; [exact C14_example|reflexivity]. Qed.

(** ** C75: the decoded heading is the heading on the wire.  Refuted: for
    headings of 256 degrees and more, Direction is 128 less (the highest bit is
    or-ed into bit 7, egts_sr_pos_data.go:103), so headings 208 and 336 look
    alike there. *)
Definition with_heading (hi dir : N) : bytes :=
  [85; 145; 2; 16; 111; 28; 5; 158; 122; 181; 60; 53; 1; 208; 7 + 128 * hi; dir; 1; 0; 0; 0; 0].
Theorem C75_heading_refuted : forall E : go_env, exists b b' e e',
  heading b = 208 /\ heading b' = 336 /\ bytes_ok (b ++ b') = true /\
  pos_decode b = Ok e /\ pos_decode b' = Ok e' /\ Direction e = 208 /\ Direction e' = 208.
Proof.
  intros E. exists (with_heading 0 208), (with_heading 1 80), (pos_of (with_heading 0 208)), (pos_of (with_heading 1 80)).
  split; [reflexivity|]. split; [reflexivity|]. split; [reflexivity|].
  split; [apply pos_layout_decode; [reflexivity|apply pos_of_layout; reflexivity]|].
  split; [apply pos_layout_decode; [reflexivity|apply pos_of_layout; reflexivity]|]. split; reflexivity.
Qed.
(** For every heading below 384 the caller can recover it from the two fields. *)
Theorem C75_heading_partial : forall (E : go_env) b e, bytes_ok b = true -> pos_layout b e -> heading b < 384 ->
  pos_decode b = Ok e /\ DirectionHighestBit e < 2 /\
  heading b = Direction e + 128 * DirectionHighestBit e.
Proof.
  intros E b e Hb HP Hh. split; [apply pos_layout_decode; assumption|].
  destruct HP as (HL & (_ & _ & _ & _ & _ & _ & _ & _ & _ & _ & _ & _ & _ & Fd & Fdir & _) & _).
  pose proof (num_at_bound b Hb 2 13) as HB. change (256 ^ N.of_nat 2) with 65536 in HB.
  assert (H2 : num_at b 13 2 / 2 ^ 15 < 2) by (change (2 ^ 15) with 32768; apply N.div_lt_upper_bound; lia).
  rewrite Fdir. unfold heading in *. rewrite <- Fd in *. split; [exact H2|].
  assert (HD : DirectionHighestBit e = 0 \/ DirectionHighestBit e = 1) by lia.
  destruct HD as [HD|HD]; rewrite HD in *.
  - rewrite N.mul_0_r, N.lor_0_r. lia.
  - change (128 * 1) with (N.shiftl 1 7). rewrite <- N.lxor_lor, <- N.add_nocarry_lxor.
    + change (N.shiftl 1 7) with 128. lia.
    + apply N.bits_inj. intros k. rewrite N.land_spec, N.bits_0. change (N.shiftl 1 7) with (2 ^ 7). rewrite N.pow2_bits_eqb.
      destruct (N.eqb_spec 7 k) as [<-|]; [|apply Bool.andb_false_r]. rewrite Bool.andb_true_r.
      destruct (N.eq_dec (nth 15 b 0) 0) as [-> |Hz]; [reflexivity|].
      apply N.bits_above_log2. apply N.log2_lt_pow2; [lia|]. change (2 ^ 7) with 128. lia.
    + apply N.bits_inj. intros k. rewrite N.land_spec, N.bits_0. change (N.shiftl 1 7) with (2 ^ 7). rewrite N.pow2_bits_eqb.
      destruct (N.eqb_spec 7 k) as [<-|]; [|apply Bool.andb_false_r]. rewrite Bool.andb_true_r.
      destruct (N.eq_dec (nth 15 b 0) 0) as [-> |Hz]; [reflexivity|].
      apply N.bits_above_log2. apply N.log2_lt_pow2; [lia|]. change (2 ^ 7) with 128. lia.
Qed.
Lemma lor_byte a c : a < 2 ^ 8 -> c < 2 ^ 8 -> N.lor a c < 2 ^ 8.
Proof.
  assert (L : forall x, x < 2 ^ 8 -> N.log2 x < 8).
  { intros x Hx. destruct (N.eq_dec x 0) as [->|]; [reflexivity|]. apply N.log2_lt_pow2; [lia|exact Hx]. }
  intros Ha Hc. destruct (N.eq_dec (N.lor a c) 0) as [->|Hz]; [reflexivity|]. apply N.log2_lt_pow2; [lia|].
  rewrite N.log2_lor. apply N.max_lub_lt; apply L; assumption.
Qed.
(** Direction is the heading exactly below 256 degrees. *)
Theorem C75_heading_exactly : forall (E : go_env) b e, bytes_ok b = true -> pos_layout b e ->
  pos_decode b = Ok e /\ (Direction e = heading b <-> heading b < 256).
Proof.
  intros E b e Hb HP. split; [apply pos_layout_decode; assumption|].
  destruct HP as (HL & (_ & _ & _ & _ & _ & _ & _ & _ & _ & _ & _ & _ & _ & Fd & Fdir & _) & _).
  pose proof (num_at_bound b Hb 2 13) as HB. change (256 ^ N.of_nat 2) with 65536 in HB.
  assert (H2 : num_at b 13 2 / 2 ^ 15 < 2) by (change (2 ^ 15) with 32768; apply N.div_lt_upper_bound; lia).
  assert (H15 : nth 15 b 0 < 256) by (apply bytes_ok_nth, Hb).
  rewrite Fdir. unfold heading. rewrite <- Fd in *.
  assert (HD : DirectionHighestBit e = 0 \/ DirectionHighestBit e = 1) by lia.
  destruct HD as [HD|HD]; rewrite HD in *.
  - rewrite N.mul_0_r, N.lor_0_r. lia.
  - split; [|lia]. intros Hl. assert (N.lor (nth 15 b 0) (128 * 1) < 2 ^ 8); [|change (2 ^ 8) with 256 in *; lia].
    apply lor_byte; [exact H15|reflexivity].
Qed.
Example C75_example : forall E : go_env, pos_layout (with_heading 1 80) (pos_of (with_heading 1 80)) /\
  heading (with_heading 1 80) < 384.
Proof. intros E. split; [apply pos_of_layout; reflexivity|reflexivity]. Qed.

(** ** C76: optional source data after a position does not change it.  Refuted
    when an altitude is present: the decoder reads four bytes of altitude
    (egts_sr_pos_data.go:120-126), so the first source data byte becomes the top
    byte of the altitude. *)
Theorem C76_source_data_refuted : forall (E : go_env) b x rest e,
  bytes_ok (b ++ x :: rest) = true -> pos_layout b e -> N.testbit (nth 12 b 0) 7 = true ->
  pos_decode b = Ok e /\
  pos_decode (b ++ x :: rest) = Ok (with_altitude e (Altitude e + 2 ^ 24 * x)) /\
  (x <> 0 -> pos_decode (b ++ x :: rest) <> pos_decode b).
Proof.
  intros E b x rest e Hb HP Ht.
  assert (Hb1 : bytes_ok b = true) by (rewrite BaseFacts.bytes_ok_app in Hb; apply andb_prop in Hb; apply Hb).
  pose proof (pos_layout_decode b e Hb1 HP) as H1. pose proof (pos_altitude_tail b x rest e Hb HP Ht) as H2.
  split; [exact H1|]. split; [exact H2|]. intros Hx. rewrite H1, H2. intros Heq.
  apply RecFacts.Ok_inj in Heq. apply (f_equal Altitude) in Heq. cbn [with_altitude Altitude] in Heq.
  change (2 ^ 24) with 16777216 in Heq. lia.
Qed.
(** Without altitude the source data is ignored. *)
Theorem C76_source_data_partial : forall (E : go_env) b rest e,
  bytes_ok (b ++ rest) = true -> pos_layout b e -> N.testbit (nth 12 b 0) 7 = false ->
  pos_decode (b ++ rest) = Ok e.
Proof. intros E. exact pos_no_altitude_tail. Qed.
(** both cases occur: a position with altitude 144, and one without *)
Definition ex76 : bytes := [48; 29; 243; 20; 101; 206; 134; 133; 222; 87; 255; 202; 155; 84; 1; 172; 191; 0; 0; 144; 0; 144; 0; 0].
Example C76_example : forall E : go_env,
  pos_layout ex76 (pos_of ex76) /\ N.testbit (nth 12 ex76 0) 7 = true /\ Altitude (pos_of ex76) = 144 /\
  pos_layout vec_sub_pos (pos_of vec_sub_pos) /\ N.testbit (nth 12 vec_sub_pos 0) 7 = false.
Proof. intros E. split; [apply pos_of_layout; reflexivity|]. repeat (split; [reflexivity|]). split; [apply pos_of_layout; reflexivity|reflexivity]. Qed.

(** ** C77: no subrecord that is all there is refused: whatever its values, a
    subrecord of a supported type at least as long as its flags require is
    decoded. *)
Theorem C77_complete_accepted : forall (E : go_env) dep t b n, bytes_ok b = true ->
  sub_size t b = Some n -> (n <= length b)%nat -> exists d, sub_decode (S dep) t (blen b) b = Ok d.
Proof. exact @complete_decodes. Qed.
Example C77_example : sub_size 17 vec_sub_ext = Some 6%nat /\ length vec_sub_ext = 6%nat /\
  sub_size 18 vec_sub_ad = Some 28%nat /\ length vec_sub_ad = 28%nat /\
  sub_size 16 ex76 = Some 24%nat /\ sub_size 1 vec_sub_termb = Some 5%nat.
Proof. repeat split. Qed.
Print Assumptions C73_packet_read.
Print Assumptions C73_subrecord_read.
Print Assumptions C73_subrecords_read.
Print Assumptions C73_records_read.
Print Assumptions C74_packet_written.
Print Assumptions C74_subrecord_written.
Print Assumptions C74_records_written.
Print Assumptions C74_counters_written.
Print Assumptions C75_heading_refuted.
Print Assumptions C75_heading_partial.
Print Assumptions C75_heading_exactly.
Print Assumptions C76_source_data_refuted.
Print Assumptions C76_source_data_partial.
Print Assumptions C77_complete_accepted.
