(** * Spec_PkgJson: what the JSON document of a package says.  Independent of the
    writer in PkgJson.v. *)
From Coq Require Import Ascii String List ZArith.
From Verif Require Import GoBase Float64 SubRecords Records Package Spec_Calendar Spec_Json.
Import ListNotations.
Local Open Scope N_scope.

(** ** Base64 (RFC 4648): reading, four characters at a time *)
Definition sextet (c : N) : option N :=
  if (65 <=? c) && (c <=? 90) then Some (c - 65)
  else if (97 <=? c) && (c <=? 122) then Some (c - 71)
  else if (48 <=? c) && (c <=? 57) then Some (c + 4)
  else if c =? 43 then Some 62 else if c =? 47 then Some 63 else None.
Definition pad : N := 61.
Fixpoint read_b64 (t : gostr) : option bytes :=
  match t with
  | [] => Some []
  | c1 :: c2 :: c3 :: c4 :: r =>
      match sextet c1, sextet c2 with
      | Some a, Some b =>
          match r with
          | [] =>
              if (c3 =? pad) && (c4 =? pad) then Some [4 * a + b / 16]
              else match sextet c3 with
              | Some c =>
                  if c4 =? pad then Some [4 * a + b / 16; b mod 16 * 16 + c / 4]
                  else match sextet c4 with
                       | Some d => Some [4 * a + b / 16; b mod 16 * 16 + c / 4; c mod 4 * 64 + d]
                       | None => None end
              | None => None end
          | _ =>
              match sextet c3, sextet c4, read_b64 r with
              | Some c, Some d, Some l => Some (4 * a + b / 16 :: b mod 16 * 16 + c / 4 :: c mod 4 * 64 + d :: l)
              | _, _, _ => None
              end
          end
      | _, _ => None
      end
  | _ => None
  end.
(** bytes: null when there are none, otherwise a base64 text of them *)
Definition jbytes (b : bytes) (v : json) : Prop :=
  match b with [] => v = JNull | _ => exists t, v = JStr t /\ read_b64 t = Some b end.
(** an instant a whole number of seconds after 2010: its RFC 3339 text *)
Definition jinstant (t : Z) (v : json) : Prop :=
  exists s n, v = JStr s /\ t = (Z.of_N n * 1000000000)%Z /\ instant_text s n.
(** an array, also when empty *)
Definition jarray {A} (p : A -> json -> Prop) (l : list A) (v : json) : Prop :=
  exists vs, v = JArr vs /\ Forall2 p l vs.
Definition jopt {A} (p : A -> json -> Prop) (o : option A) (v : json) : Prop :=
  match o with Some x => p x v | None => v = JNull end.

Section Describe.
Context {E : go_env}.
(** what a reader gets from the text of a finite float64, and what that of a
    protobuf message says *)
Variable jf : f64 -> json.
Variable jp : pb_msg -> json -> Prop.

(** egts_sr_pos_data.go *)
Definition pos_sub_doc (e : pos_data) : json -> Prop :=
  jstruct
   [("NTM", jinstant (NavigationTime e)); ("LAT", jfloat jf (Latitude e)); ("LONG", jfloat jf (Longitude e));
    ("ALTE", jtext (ALTE e)); ("LOHS", jtext (LOHS e)); ("LAHS", jtext (LAHS e)); ("MV", jtext (MV e));
    ("BB", jtext (BB e)); ("CS", jtext (CS e)); ("FIX", jtext (FIX e)); ("VLD", jtext (VLD e));
    ("DIRH", jnat (DirectionHighestBit e)); ("ALTS", jnat (AltitudeSign e)); ("SPD", jnat (Speed e));
    ("DIR", jnat (Direction e)); ("ODM", jnat (Odometer e)); ("DIN", jnat (DigitalInputs e));
    ("SRC", jnat (Source e)); ("ALT", jnat (Altitude e)); ("SRCD", fun v => v = JInt 0)]%string.
(** egts_sr_term_identity.go *)
Definition term_sub_doc (e : term_ident) : json -> Prop :=
  jstruct
   [("TID", jnat (TID e)); ("MNE", jtext (MNE e)); ("BSE", jtext (BSE e)); ("NIDE", jtext (NIDE e));
    ("SSRA", jtext (SSRA e)); ("LNGCE", jtext (LNGCE e)); ("IMSIE", jtext (IMSIE e));
    ("IMEIE", jtext (IMEIE e)); ("HDIDE", jtext (HDIDE e)); ("HDID", jnat (HDID e)); ("IMEI", jtext (IMEI e));
    ("IMSI", jtext (IMSI e)); ("LNGC", jtext (LNGC e)); ("NID", jbytes (NID e)); ("BS", jnat (BS e));
    ("MSISDN", jtext (MSISDN e))]%string.
(** egts_sr_response.go *)
Definition resp_sub_doc (crn rst : N) : json -> Prop :=
  jstruct
   [("CRN", jnat crn); ("RST", jnat rst)]%string.
(** egts_sr_result_code.go *)
Definition result_sub_doc (c : N) : json -> Prop :=
  jstruct
   [("RCD", jnat c)]%string.
(** egts_sr_ext_pos_data.go *)
Definition ext_sub_doc (e : ext_pos) : json -> Prop :=
  jstruct
   [("NSFE", jtext (NSFE e)); ("SFE", jtext (SFE e)); ("PFE", jtext (PFE e)); ("HFE", jtext (HFE e));
    ("VFE", jtext (VFE e)); ("VDOP", jnat (VDOP e)); ("HDOP", jnat (HDOP e)); ("PDOP", jnat (PDOP e));
    ("SAT", jnat (SAT e)); ("NS", jnat (NS e))]%string.
(** egts_sr_ad_sensors_data.go *)
Definition ad_sub_doc (e : ad_sensors) : json -> Prop :=
  jstruct
   [("DIOE1", jtext (o1 (DIOE e))); ("DIOE2", jtext (o2 (DIOE e))); ("DIOE3", jtext (o3 (DIOE e)));
    ("DIOE4", jtext (o4 (DIOE e))); ("DIOE5", jtext (o5 (DIOE e))); ("DIOE6", jtext (o6 (DIOE e)));
    ("DIOE7", jtext (o7 (DIOE e))); ("DIOE8", jtext (o8 (DIOE e))); ("DOUT", jnat (DOUT e));
    ("ASFE1", jtext (o1 (ASFE e))); ("ASFE2", jtext (o2 (ASFE e))); ("ASFE3", jtext (o3 (ASFE e)));
    ("ASFE4", jtext (o4 (ASFE e))); ("ASFE5", jtext (o5 (ASFE e))); ("ASFE6", jtext (o6 (ASFE e)));
    ("ASFE7", jtext (o7 (ASFE e))); ("ASFE8", jtext (o8 (ASFE e))); ("ADIO1", jnat (o1 (ADIO e)));
    ("ADIO2", jnat (o2 (ADIO e))); ("ADIO3", jnat (o3 (ADIO e))); ("ADIO4", jnat (o4 (ADIO e)));
    ("ADIO5", jnat (o5 (ADIO e))); ("ADIO6", jnat (o6 (ADIO e))); ("ADIO7", jnat (o7 (ADIO e)));
    ("ADIO8", jnat (o8 (ADIO e))); ("ANS1", jnat (o1 (ANS e))); ("ANS2", jnat (o2 (ANS e)));
    ("ANS3", jnat (o3 (ANS e))); ("ANS4", jnat (o4 (ANS e))); ("ANS5", jnat (o5 (ANS e)));
    ("ANS6", jnat (o6 (ANS e))); ("ANS7", jnat (o7 (ANS e))); ("ANS8", jnat (o8 (ANS e)))]%string.
(** egts_sr_state_data.go *)
Definition state_sub_doc (e : state_data) : json -> Prop :=
  jstruct
   [("ST", jnat (State e)); ("MPSV", jnat (MPSV e)); ("BBV", jnat (BBV e)); ("IBV", jnat (IBV e));
    ("NMS", jtext (NMS e)); ("IBU", jtext (IBU e)); ("BBU", jtext (BBU e))]%string.
(** egts_sr_liquid_level_sensor.go *)
Definition liq_sub_doc (e : liquid) : json -> Prop :=
  jstruct
   [("LLSEF", jtext (LLSEF e)); ("LLSVU", jtext (LLSVU e)); ("RDF", jtext (RDF e)); ("LLSN", jnat (LLSN e));
    ("MADDR", jnat (MADDR e)); ("LLSD", jnat (LLSD e))]%string.
(** egts_sr_abs_cntr_data.go *)
Definition cntr_sub_doc (e : abs_cntr) : json -> Prop :=
  jstruct
   [("CN", jnat (CounterNumber e)); ("CNV", jnat (CounterValue e))]%string.
(** egts_sr_auth_info.go *)
Definition auth_sub_doc (e : auth_info) : json -> Prop :=
  jstruct
   [("UNM", jtext (UNM e)); ("UPSW", jtext (UPSW e)); ("SS", jtext (SSQ e))]%string.
(** egts_sr_counters_data.go *)
Definition counters_sub_doc (e : counters) : json -> Prop :=
  jstruct
   [("CFE1", jtext (o1 (CFE e))); ("CFE2", jtext (o2 (CFE e))); ("CFE3", jtext (o3 (CFE e)));
    ("CFE4", jtext (o4 (CFE e))); ("CFE5", jtext (o5 (CFE e))); ("CFE6", jtext (o6 (CFE e)));
    ("CFE7", jtext (o7 (CFE e))); ("CFE8", jtext (o8 (CFE e))); ("CN1", jnat (o1 (CN e)));
    ("CN2", jnat (o2 (CN e))); ("CN3", jnat (o3 (CN e))); ("CN4", jnat (o4 (CN e))); ("CN5", jnat (o5 (CN e)));
    ("CN6", jnat (o6 (CN e))); ("CN7", jnat (o7 (CN e))); ("CN8", jnat (o8 (CN e)))]%string.
(** egts_sr_abs_an_sensors_data.go *)
Definition absan_sub_doc (e : abs_an) : json -> Prop :=
  jstruct
   [("SensorNumber", jnat (SensorNumber e)); ("Value", jnat (Value e))]%string.
(** egts_sr_dispatcher_identity.go *)
Definition disp_sub_doc (e : disp_ident) : json -> Prop :=
  jstruct
   [("DT", jnat (DT e)); ("DID", jnat (DID e)); ("DSCR", jtext (DSCR e))]%string.

Definition sub_doc (d : srdata) : json -> Prop :=
  match d with
  | SRPos e => pos_sub_doc e
  | SRTerm e => term_sub_doc e
  | SRResp c r => resp_sub_doc c r
  | SRResult c => result_sub_doc c
  | SRExt e => ext_sub_doc e
  | SRAd e => ad_sub_doc e
  | SRState e => state_sub_doc e
  | SRLiquid e => liq_sub_doc e
  | SRAbsCntr e => cntr_sub_doc e
  | SRAuth e => auth_sub_doc e
  | SRCounters e => counters_sub_doc e
  | SRPlus m => jp m
  | SRAbsAn e => absan_sub_doc e
  | SRDisp e => disp_sub_doc e
  | SRNil => fun v => v = JNull
  end.
Definition rd_doc (rd : record_data) : json -> Prop :=
  jstruct [("SRT", jnat (SRT rd)); ("SRL", jnat (SRL rd)); ("SRD", sub_doc (SRD rd))]%string.
(** the subrecords: an array; a record without any has an empty array or null *)
Definition rds_doc (l : list record_data) (v : json) : Prop :=
  jarray rd_doc l v \/ (l = [] /\ v = JNull).
Definition sdr_doc (s : sdr) : json -> Prop :=
  jstruct
   [("RL", jnat (RL s)); ("RN", jnat (RN s)); ("SSOD", jtext (SSOD s)); ("RSOD", jtext (RSOD s)); ("GRP", jtext (GRP s));
    ("RPP", jtext (RPP s)); ("TMFE", jtext (TMFE s)); ("EVFE", jtext (EVFE s)); ("OBFE", jtext (OBFE s));
    ("OID", jnat (OID s)); ("EVID", jnat (EVID s)); ("TM", jnat (TM s)); ("SST", jnat (SST s)); ("RST", jnat (RST s));
    ("RD", rds_doc (RD s))]%string.
Definition frame_doc (f : frame) : json -> Prop :=
  match f with
  | FSds l => jarray sdr_doc l
  | FResp r => jstruct [("RPID", jnat (RPID r)); ("PR", jnat (PR r)); ("SDR", jopt (jarray sdr_doc) (SDRS r))]%string
  end.
Definition package_doc (p : package) : json -> Prop :=
  jstruct
   [("PRV", jnat (pPRV p)); ("SKID", jnat (pSKID p)); ("PRF", jtext (pPRF p)); ("RTE", jtext (pRTE p));
    ("ENA", jtext (pENA p)); ("CMP", jtext (pCMP p)); ("PR", jtext (pPR p)); ("HL", jnat (pHL p)); ("HE", jnat (pHE p));
    ("FDL", jnat (pFDL p)); ("PID", jnat (pPID p)); ("PT", jnat (pPT p)); ("PRA", jnat (pPRA p)); ("RCA", jnat (pRCA p));
    ("TTL", jnat (pTTL p)); ("HCS", jnat (pHCS p)); ("SFRD", jopt frame_doc (pSFRD p)); ("SFRCS", jnat (pSFRCS p))]%string.
End Describe.

(** ** EGTS-PLUS messages of a package *)
Definition set_messages {E : go_env} (l : list sdr) : list pb_msg :=
  flat_map (fun s => flat_map (fun rd => match SRD rd with SRPlus m => [m] | _ => [] end) (RD s)) l.
Definition messages {E : go_env} (p : package) : list pb_msg :=
  match pSFRD p with
  | Some (FSds l) => set_messages l
  | Some (FResp r) => match SDRS r with Some l => set_messages l | None => [] end
  | None => []
  end.

(** ** The texts a client sends: in the identity, login and dispatcher
    subrecords.  (All other text in a document is made of the digits 0 and 1.) *)
Definition sub_texts {E : go_env} (d : srdata) : list gostr :=
  match d with
  | SRTerm e => [IMEI e; IMSI e; LNGC e; MSISDN e]
  | SRAuth e => [UNM e; UPSW e; SSQ e]
  | SRDisp e => [DSCR e]
  | _ => []
  end.
Definition set_texts {E : go_env} (l : list sdr) : list gostr :=
  flat_map (fun s => flat_map (fun rd => sub_texts (SRD rd)) (RD s)) l.
Definition texts {E : go_env} (p : package) : list gostr :=
  match pSFRD p with
  | Some (FSds l) => set_texts l
  | Some (FResp r) => match SDRS r with Some l => set_texts l | None => [] end
  | None => []
  end.

(** ** What can keep a package from having a document *)
(** the records of a package *)
Definition records {E : go_env} (p : package) : list sdr :=
  match pSFRD p with
  | Some (FSds l) => l
  | Some (FResp r) => match SDRS r with Some l => l | None => [] end
  | None => []
  end.
(** An instant, in nanoseconds after 2010-01-01T00:00:00Z, from 0000-01-01 on
    (734138 days before) and before 10000-01-01 (2918287 days after). *)
Definition in_calendar (t : Z) : Prop :=
  (- 734138 * 86400000000000 <= t < 2918287 * 86400000000000)%Z.
