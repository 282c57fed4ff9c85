(** * PkgJson: Package.ToBytes (libs/egts/egts_pkg.go:227-230), that is
    encoding/json.Marshal of the package with the json tags of its structs.  No
    proofs here.  As in Json.v, what is modelled of encoding/json is its
    documented behaviour: fields in order under their tags, an interface or
    pointer as what it holds (null when nil), []byte as base64, time.Time as
    RFC 3339 text with the nanoseconds needed, an error for NaN, infinities and
    years that have not four digits.
    Modelled for packages as Decode leaves them where the model's types do not
    say it: SourceData is 0; the RecordDataSet of a record is nil only when the
    record ended the data (service_data_records.go:97-108), so an empty one is
    null in the last record of a set and [] in others; a ServiceDataSet is never
    nil; NetworkIdentifier is nil when absent.
    [ft] is the text of a finite float64, [pj] that of a protobuf message
    (egts_sr_egtsplus_data.go), both arbitrary. *)
From Coq Require Import Floats.SpecFloat Ascii String List.
From Verif Require Import GoBase Float64 SubRecords Records Package Storage Json.
Import ListNotations.
Local Open Scope N_scope.

(** ** encoding/base64.StdEncoding *)
Definition b64_char (v : N) : N :=
  if v <? 26 then 65 + v else if v <? 52 then 71 + v else if v <? 62 then v - 4
  else if v =? 62 then 43 else 47.
Fixpoint b64 (b : bytes) : gostr :=
  match b with
  | [] => []
  | [x] => [b64_char (x / 4); b64_char (x mod 4 * 16); 61; 61]
  | [x; y] => [b64_char (x / 4); b64_char (x mod 4 * 16 + y / 16); b64_char (y mod 16 * 4); 61]
  | x :: y :: z :: b' =>
      [b64_char (x / 4); b64_char (x mod 4 * 16 + y / 16); b64_char (y mod 16 * 4 + z / 64); b64_char (z mod 64)]
      ++ b64 b'
  end.
(** encodeByteSlice *)
Definition json_bytes (b : bytes) : gostr :=
  match b with [] => ltext "null" | _ => [34] ++ b64 b ++ [34] end.

(** ** time.Time.MarshalJSON for a UTC time: time.RFC3339Nano *)
(** ".999999999": nine digits without trailing zeros, nothing for 0 *)
Fixpoint drop_zeros (l : gostr) : gostr :=     (* of the reversed digits *)
  match l with c :: l' => if c =? 48 then drop_zeros l' else l | [] => [] end.
Definition time_fraction (t : Z) : gostr :=
  match rev (drop_zeros (rev (dec_digits 9 (t mod 1000000000)))) with [] => [] | d => 46 :: d end.
Definition json_time (t : Z) : option gostr :=
  let '(y, _, _) := civil_of_days (unix_of t / 86400)%Z in
  if (0 <=? y)%Z && (y <=? 9999)%Z
  then Some ([34] ++ removelast (rfc3339 t) ++ time_fraction t ++ [90; 34]) else None.

(** a slice that is not nil *)
Definition json_array (l : list gostr) : gostr := [91] ++ sep_by l ++ [93].

Section Marshal.
Context {E : go_env}.
Variable ft : f64 -> gostr.
Variable pj : pb_msg -> option gostr.

(** egts_sr_pos_data.go:13-34 *)
Definition json_pos (e : pos_data) : option gostr :=
  match json_time (NavigationTime e), json_float ft (Latitude e), json_float ft (Longitude e) with
  | Some t, Some la, Some lo =>
      Some (json_struct
        [("NTM", t); ("LAT", la); ("LONG", lo); ("ALTE", json_str (ALTE e)); ("LOHS", json_str (LOHS e));
         ("LAHS", json_str (LAHS e)); ("MV", json_str (MV e)); ("BB", json_str (BB e)); ("CS", json_str (CS e));
         ("FIX", json_str (FIX e)); ("VLD", json_str (VLD e)); ("DIRH", json_uint (DirectionHighestBit e));
         ("ALTS", json_uint (AltitudeSign e)); ("SPD", json_uint (Speed e)); ("DIR", json_uint (Direction e));
         ("ODM", json_uint (Odometer e)); ("DIN", json_uint (DigitalInputs e)); ("SRC", json_uint (Source e));
         ("ALT", json_uint (Altitude e)); ("SRCD", json_int 0)]%string)
  | _, _, _ => None
  end.

(** egts_sr_term_identity.go:12-29 *)
Definition json_term (e : term_ident) : gostr :=
  json_struct
    [("TID", json_uint (TID e)); ("MNE", json_str (MNE e)); ("BSE", json_str (BSE e)); ("NIDE", json_str (NIDE e));
     ("SSRA", json_str (SSRA e)); ("LNGCE", json_str (LNGCE e)); ("IMSIE", json_str (IMSIE e));
     ("IMEIE", json_str (IMEIE e)); ("HDIDE", json_str (HDIDE e)); ("HDID", json_uint (HDID e));
     ("IMEI", json_str (IMEI e)); ("IMSI", json_str (IMSI e)); ("LNGC", json_str (LNGC e));
     ("NID", json_bytes (NID e)); ("BS", json_uint (BS e)); ("MSISDN", json_str (MSISDN e))]%string.
(** egts_sr_response.go:11-14 *)
Definition json_resp (crn rst : N) : gostr :=
  json_struct [("CRN", json_uint crn); ("RST", json_uint rst)]%string.
(** egts_sr_result_code.go:10-12 *)
Definition json_result (c : N) : gostr := json_struct [("RCD", json_uint c)]%string.
(** egts_sr_ext_pos_data.go:12-23 *)
Definition json_ext (e : ext_pos) : gostr :=
  json_struct
    [("NSFE", json_str (NSFE e)); ("SFE", json_str (SFE e)); ("PFE", json_str (PFE e)); ("HFE", json_str (HFE e));
     ("VFE", json_str (VFE e)); ("VDOP", json_uint (VDOP e)); ("HDOP", json_uint (HDOP e));
     ("PDOP", json_uint (PDOP e)); ("SAT", json_uint (SAT e)); ("NS", json_uint (NS e))]%string.
(** egts_sr_ad_sensors_data.go:13-47 *)
Definition json_ad (e : ad_sensors) : gostr :=
  json_struct
    [("DIOE1", json_str (o1 (DIOE e))); ("DIOE2", json_str (o2 (DIOE e))); ("DIOE3", json_str (o3 (DIOE e)));
     ("DIOE4", json_str (o4 (DIOE e))); ("DIOE5", json_str (o5 (DIOE e))); ("DIOE6", json_str (o6 (DIOE e)));
     ("DIOE7", json_str (o7 (DIOE e))); ("DIOE8", json_str (o8 (DIOE e))); ("DOUT", json_uint (DOUT e));
     ("ASFE1", json_str (o1 (ASFE e))); ("ASFE2", json_str (o2 (ASFE e))); ("ASFE3", json_str (o3 (ASFE e)));
     ("ASFE4", json_str (o4 (ASFE e))); ("ASFE5", json_str (o5 (ASFE e))); ("ASFE6", json_str (o6 (ASFE e)));
     ("ASFE7", json_str (o7 (ASFE e))); ("ASFE8", json_str (o8 (ASFE e)));
     ("ADIO1", json_uint (o1 (ADIO e))); ("ADIO2", json_uint (o2 (ADIO e))); ("ADIO3", json_uint (o3 (ADIO e)));
     ("ADIO4", json_uint (o4 (ADIO e))); ("ADIO5", json_uint (o5 (ADIO e))); ("ADIO6", json_uint (o6 (ADIO e)));
     ("ADIO7", json_uint (o7 (ADIO e))); ("ADIO8", json_uint (o8 (ADIO e)));
     ("ANS1", json_uint (o1 (ANS e))); ("ANS2", json_uint (o2 (ANS e))); ("ANS3", json_uint (o3 (ANS e)));
     ("ANS4", json_uint (o4 (ANS e))); ("ANS5", json_uint (o5 (ANS e))); ("ANS6", json_uint (o6 (ANS e)));
     ("ANS7", json_uint (o7 (ANS e))); ("ANS8", json_uint (o8 (ANS e)))]%string.
(** egts_sr_state_data.go:12-20 *)
Definition json_state (e : state_data) : gostr :=
  json_struct
    [("ST", json_uint (State e)); ("MPSV", json_uint (MPSV e)); ("BBV", json_uint (BBV e)); ("IBV", json_uint (IBV e));
     ("NMS", json_str (NMS e)); ("IBU", json_str (IBU e)); ("BBU", json_str (BBU e))]%string.
(** egts_sr_liquid_level_sensor.go:12-19 *)
Definition json_liq (e : liquid) : gostr :=
  json_struct
    [("LLSEF", json_str (LLSEF e)); ("LLSVU", json_str (LLSVU e)); ("RDF", json_str (RDF e));
     ("LLSN", json_uint (LLSN e)); ("MADDR", json_uint (MADDR e)); ("LLSD", json_uint (LLSD e))]%string.
(** egts_sr_abs_cntr_data.go:12-15 *)
Definition json_cntr (e : abs_cntr) : gostr :=
  json_struct [("CN", json_uint (CounterNumber e)); ("CNV", json_uint (CounterValue e))]%string.
(** egts_sr_auth_info.go:12-16 *)
Definition json_auth (e : auth_info) : gostr :=
  json_struct [("UNM", json_str (UNM e)); ("UPSW", json_str (UPSW e)); ("SS", json_str (SSQ e))]%string.
(** egts_sr_counters_data.go:12-29 *)
Definition json_counters (e : counters) : gostr :=
  json_struct
    [("CFE1", json_str (o1 (CFE e))); ("CFE2", json_str (o2 (CFE e))); ("CFE3", json_str (o3 (CFE e)));
     ("CFE4", json_str (o4 (CFE e))); ("CFE5", json_str (o5 (CFE e))); ("CFE6", json_str (o6 (CFE e)));
     ("CFE7", json_str (o7 (CFE e))); ("CFE8", json_str (o8 (CFE e)));
     ("CN1", json_uint (o1 (CN e))); ("CN2", json_uint (o2 (CN e))); ("CN3", json_uint (o3 (CN e)));
     ("CN4", json_uint (o4 (CN e))); ("CN5", json_uint (o5 (CN e))); ("CN6", json_uint (o6 (CN e)));
     ("CN7", json_uint (o7 (CN e))); ("CN8", json_uint (o8 (CN e)))]%string.
(** egts_sr_abs_an_sensors_data.go:10-13 *)
Definition json_absan (e : abs_an) : gostr :=
  json_struct [("SensorNumber", json_uint (SensorNumber e)); ("Value", json_uint (Value e))]%string.
(** egts_sr_dispatcher_identity.go:12-16 *)
Definition json_disp (e : disp_ident) : gostr :=
  json_struct [("DT", json_uint (DT e)); ("DID", json_uint (DID e)); ("DSCR", json_str (DSCR e))]%string.

(** interfaceEncoder, ptrEncoder *)
Definition json_sr (d : srdata) : option gostr :=
  match d with
  | SRPos e => json_pos e
  | SRTerm e => Some (json_term e)
  | SRResp c r => Some (json_resp c r)
  | SRResult c => Some (json_result c)
  | SRExt e => Some (json_ext e)
  | SRAd e => Some (json_ad e)
  | SRState e => Some (json_state e)
  | SRLiquid e => Some (json_liq e)
  | SRAbsCntr e => Some (json_cntr e)
  | SRAuth e => Some (json_auth e)
  | SRCounters e => Some (json_counters e)
  | SRPlus m => pj m
  | SRAbsAn e => Some (json_absan e)
  | SRDisp e => Some (json_disp e)
  | SRNil => Some (ltext "null")
  end.

(** record_data.go:10-14 *)
Definition json_rd (rd : record_data) : option gostr :=
  match json_sr (SRD rd) with
  | Some t => Some (json_struct [("SRT", json_uint (SRT rd)); ("SRL", json_uint (SRL rd)); ("SRD", t)]%string)
  | None => None
  end.

(** service_data_records.go:11-27; [at_end]: the last record of its set *)
Definition json_sdr (at_end : bool) (s : sdr) : option gostr :=
  match all_some (map json_rd (RD s)) with
  | Some rd =>
      Some (json_struct
        [("RL", json_uint (RL s)); ("RN", json_uint (RN s)); ("SSOD", json_str (SSOD s)); ("RSOD", json_str (RSOD s));
         ("GRP", json_str (GRP s)); ("RPP", json_str (RPP s)); ("TMFE", json_str (TMFE s)); ("EVFE", json_str (EVFE s));
         ("OBFE", json_str (OBFE s)); ("OID", json_uint (OID s)); ("EVID", json_uint (EVID s)); ("TM", json_uint (TM s));
         ("SST", json_uint (SST s)); ("RST", json_uint (RST s));
         ("RD", if at_end then json_slice rd else json_array rd)]%string)
  | None => None
  end.
Fixpoint json_sdrs (l : list sdr) : list (option gostr) :=
  match l with
  | [] => []
  | s :: l' => json_sdr (match l' with [] => true | _ => false end) s :: json_sdrs l'
  end.
Definition json_sds (l : list sdr) : option gostr :=
  match all_some (json_sdrs l) with Some ts => Some (json_array ts) | None => None end.

(** egts_pt_response.go:10-14 *)
Definition json_frame (f : frame) : option gostr :=
  match f with
  | FSds l => json_sds l
  | FResp r =>
      match (match SDRS r with Some l => json_sds l | None => Some (ltext "null") end) with
      | Some t => Some (json_struct [("RPID", json_uint (RPID r)); ("PR", json_uint (PR r)); ("SDR", t)]%string)
      | None => None
      end
  end.

(** egts_pkg.go:14-33, 227-230 *)
Definition pkg_to_bytes (p : package) : option gostr :=
  match (match pSFRD p with Some f => json_frame f | None => Some (ltext "null") end) with
  | Some t =>
      Some (json_struct
        [("PRV", json_uint (pPRV p)); ("SKID", json_uint (pSKID p)); ("PRF", json_str (pPRF p));
         ("RTE", json_str (pRTE p)); ("ENA", json_str (pENA p)); ("CMP", json_str (pCMP p)); ("PR", json_str (pPR p));
         ("HL", json_uint (pHL p)); ("HE", json_uint (pHE p)); ("FDL", json_uint (pFDL p)); ("PID", json_uint (pPID p));
         ("PT", json_uint (pPT p)); ("PRA", json_uint (pPRA p)); ("RCA", json_uint (pRCA p)); ("TTL", json_uint (pTTL p));
         ("HCS", json_uint (pHCS p)); ("SFRD", t); ("SFRCS", json_uint (pSFRCS p))]%string)
  | None => None
  end.
End Marshal.
