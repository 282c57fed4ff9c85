(** * Prop_Flags: C116, C117. *)
From Verif Require Import GoBase Crc Float64 SubRecords Records Package.
From Verif Require Import Spec_Bits Spec_Wf Spec_Rec Spec_Pkg Spec_Flags PkgFacts PkgFacts3 Vectors FlagFacts SurviveFacts Prop_Package.
From Coq Require Import Lia.

(** ** C116: a flag string is encoded as given or refused.  Refuted. *)
(** A package with Compression "1" and Priority "1" (one digit instead of two):
    Encode succeeds, Decode accepts, and the package that arrives is not
    compressed and has priority "11".  A terminal identity with a flag that is
    no digit at all: Encode succeeds and announces no field whatever. *)
Definition short_priority {E : go_env} : package := {| pPRV := 1; pSKID := 0; pPRF := [48; 48]; pRTE := [48]; pENA := [48; 48];
  pCMP := [49]; pPR := [49]; pHL := 11; pHE := 0; pFDL := 0; pPID := 7; pPT := 0; pPRA := 0; pRCA := 0; pTTL := 0; pHCS := 0;
  pSFRD := Some (FResp (mkPtR 21 0 None)); pSFRCS := 0 |}.
Definition no_digit : term_ident :=
  {| TID := 133552; MNE := [120]; BSE := s0; NIDE := s0; SSRA := s0; LNGCE := s0; IMSIE := s0; IMEIE := s1; HDIDE := s0;
     HDID := 0; IMEI := repeat 51 15; IMSI := []; LNGC := []; NID := []; BS := 0; MSISDN := [] |}.
Theorem C116_flag_strings_refused_refuted : forall E : go_env,
  (exists p1 b p', pkg_encode short_priority = (p1, Ok b) /\
     pkg_decode pkg0 (mkSlice b []) = (p', DRet 0 false) /\
     pkg_flag_strings short_priority = [[48; 48]; [48]; [48; 48]; [49]; [49]] /\
     pkg_flag_strings p' = [[48; 48]; [48]; [48; 48]; [48]; [49; 49]]) /\
  (exists b, sr_encode (SRTerm no_digit) = Ok b /\ length b = 20%nat /\ nth 4 b 0 = 0 /\ is1 (IMEIE no_digit) = true).
Proof.
  intros E. split.
  - eexists _, _, _. split; [vm_compute; reflexivity|]. split; [vm_compute; reflexivity|]. split; reflexivity.
  - eexists. split; [vm_compute; reflexivity|]. repeat split; reflexivity.
Qed.

(** Exactly: the flag byte an Encode writes shows the strings it was given, cut
    at the documented widths, if and only if each of them is binary digits of
    its documented width; for subrecords, records and packages. *)
Theorem C116_subrecord_flags_exactly : forall (E : go_env) d b off ws ss,
  sr_encode d = Ok b -> In (off, ws, ss) (sr_flags d) ->
  (ss = cut ws (shown (nth off b 0)) <-> documented_widths ws ss).
Proof. exact @sr_flags_exact. Qed.
Theorem C116_record_flags_exactly : forall (E : go_env) s b, sdr_encode s = Ok b ->
  (sdr_flag_strings s = cut sdr_widths (shown (nth 4 b 0)) <-> documented_widths sdr_widths (sdr_flag_strings s)).
Proof. exact @sdr_flags_exact. Qed.
Theorem C116_package_flags_exactly : forall (E : go_env) p p1 b, pkg_encode p = (p1, Ok b) ->
  (pkg_flag_strings p = cut pkg_widths (shown (nth 2 b 0)) <-> documented_widths pkg_widths (pkg_flag_strings p)).
Proof. exact @pkg_flags_exact. Qed.

(** What Encode does refuse: flags that, run together, are not a binary number
    below 256; a subrecord other than the terminal identity is refused for
    nothing else (the EGTS+ data, which has no flag byte, aside). *)
Theorem C116_flags_refused_partial : forall (E : go_env) d,
  (match d with SRTerm _ | SRPlus _ => False | _ => True end) ->
  (sr_encode d = Err <-> exists off ws ss, In (off, ws, ss) (sr_flags d) /\ ~ binary_byte (concat ss)).
Proof.
  intros E d Hd. split.
  - apply sr_flags_refused_only. destruct d; auto.
  - apply sr_flags_refused. destruct d; auto.
Qed.
Theorem C116_package_refused : forall (E : go_env) p,
  ~ binary_byte (concat (pkg_flag_strings p)) -> snd (pkg_encode p) = Err.
Proof. exact @pkg_flags_refused. Qed.
(** The terminal identity is never refused. *)
Theorem C116_term_never_refused : forall (E : go_env) e, exists b, sr_encode (SRTerm e) = Ok b.
Proof. intros E e. eexists. reflexivity. Qed.

(** Widths that do and do not match, and texts that are and are not a byte. *)
Example C116_example : forall E : go_env,
  documented_widths pkg_widths (pkg_flag_strings ex_pkg) /\
  ~ documented_widths pkg_widths (pkg_flag_strings short_priority) /\
  (exists p1 b, pkg_encode ex_pkg = (p1, Ok b)) /\
  binary_byte [49; 48; 49] /\ ~ binary_byte [] /\ ~ binary_byte [50] /\ ~ binary_byte [49; 48; 48; 48; 48; 48; 48; 48; 48] /\
  shown 5 = [48; 48; 48; 48; 48; 49; 48; 49].
Proof.
  intros E. split; [repeat constructor|]. split.
  { intros H. do 4 (inversion H as [|? ? ? ? _ H']; subst; clear H; rename H' into H). inversion H as [|? ? ? ? H1 _]. discriminate H1. }
  split; [eexists _, _; vm_compute; reflexivity|].
  split; [split; [discriminate|]; split; [do 3 (constructor; [auto|]); constructor|reflexivity]|].
  split; [intros [H _]; apply H; reflexivity|].
  split; [intros (_ & H & _); inversion H as [|? ? [H1|H1]]; discriminate H1|].
  split; [intros (_ & _ & H); discriminate H|]. reflexivity.
Qed.

(** ** C117: a subrecord that Encode accepts is decoded as it was given.
    Refuted: an IMEI of sixteen digits is written in full and pushes the language
    code one byte on; a telephone number of eleven digits comes back with four
    NULs (the fields have fifteen bytes; only a short IMEI or IMSI is padded, and
    that with NULs too). *)
Definition long_imei : term_ident :=
  {| TID := 133552; MNE := s0; BSE := s0; NIDE := s0; SSRA := s0; LNGCE := s1; IMSIE := s0; IMEIE := s1; HDIDE := s0;
     HDID := 0; IMEI := repeat 51 15 ++ [55]; IMSI := []; LNGC := [114; 117; 115]; NID := []; BS := 0; MSISDN := [] |}.
Definition phone : term_ident :=
  {| TID := 133552; MNE := s1; BSE := s0; NIDE := s0; SSRA := s0; LNGCE := s0; IMSIE := s0; IMEIE := s0; HDIDE := s0;
     HDID := 0; IMEI := []; IMSI := []; LNGC := []; NID := []; BS := 0; MSISDN := [55; 57; 49; 54; 49; 50; 51; 52; 53; 54; 55] |}.
Theorem C117_decoded_as_given_refuted : forall E : go_env,
  (exists b e', sr_encode (SRTerm long_imei) = Ok b /\ bytes_ok b = true /\
     sub_decode 1 1 (blen b) b = Ok (SRTerm e') /\ IMEI e' = repeat 51 15 /\ LNGC e' = [55; 114; 117]) /\
  (exists b e', sr_encode (SRTerm phone) = Ok b /\ bytes_ok b = true /\
     sub_decode 1 1 (blen b) b = Ok (SRTerm e') /\ MSISDN e' = MSISDN phone ++ [0; 0; 0; 0]).
Proof.
  intros E. split; eexists _, _; (split; [vm_compute; reflexivity|]); (split; [reflexivity|]);
  (split; [vm_compute; reflexivity|]); repeat split; reflexivity.
Qed.
(** Exactly: what Encode writes for a subrecord is decoded, by the decoder
    RecordDataSet.Decode picks for its type, to that subrecord if and only if it
    is one of [Spec_Flags.survives]. *)
Theorem C117_decoded_as_given_exactly : forall (E : go_env) d b dep len,
  sr_encode d = Ok b -> bytes_ok b = true ->
  (sub_decode (S dep) (type_of d) len b = Ok d <-> survives d).
Proof. intros E d b dep len. exact (survives_iff d b dep len). Qed.
(** Partial: on the documented values. *)
Theorem C117_decoded_as_given_partial : forall (E : go_env) d b, survives d ->
  sr_encode d = Ok b -> bytes_ok b = true -> forall dep len, sub_decode (S dep) (type_of d) len b = Ok d.
Proof. intros E d b Hs He Hb dep len. apply (survives_iff d b dep len He Hb). exact Hs. Qed.
Example C117_example : forall E : go_env,
  survives (SRState {| State := 2; MPSV := 127; BBV := 0; IBV := 41; NMS := s1; IBU := s0; BBU := s0 |}) /\
  survives (SRCounters {| CFE := mkOct s1 s0 s1 s0 s0 s0 s0 s1; CN := mkOct 5 0 16777215 0 0 0 0 9 |}) /\
  ~ survives (SRTerm phone) /\ ~ survives (SRTerm long_imei) /\
  (exists b, sr_encode (SRCounters {| CFE := mkOct s1 s0 s1 s0 s0 s0 s0 s1; CN := mkOct 5 0 16777215 0 0 0 0 9 |}) = Ok b /\
     bytes_ok b = true /\ length b = 10%nat).
Proof.
  intros E. split; [reflexivity|]. split; [split; [reflexivity|left; reflexivity]|]. split; [discriminate|]. split; [discriminate|].
  eexists. split; [vm_compute; reflexivity|]. split; reflexivity.
Qed.
Print Assumptions C116_flag_strings_refused_refuted.
Print Assumptions C116_subrecord_flags_exactly.
Print Assumptions C116_record_flags_exactly.
Print Assumptions C116_package_flags_exactly.
Print Assumptions C116_flags_refused_partial.
Print Assumptions C116_package_refused.
Print Assumptions C116_term_never_refused.
Print Assumptions C117_decoded_as_given_refuted.
Print Assumptions C117_decoded_as_given_exactly.
Print Assumptions C117_decoded_as_given_partial.
