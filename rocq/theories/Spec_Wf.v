(** * Spec_Wf: the values for which the codecs are expected to round-trip:
    every flag string has its documented width, every present field fits its
    wire width, every absent field is zero (empty). *)
From Verif Require Import GoBase Float64 SubRecords Records Package Spec_Bits.

Section Wf.
Context {E : go_env}.

(** EGTS_SR_POS_DATA: speed in whole km/h fits 14 bits in tenths; the direction
    byte carries the highest direction bit in bit 7 when that bit is set. *)
Definition wf_pos (e : pos_data) : bool :=
  bits_ok 1 (LOHS e) && bits_ok 1 (LAHS e) && bits_ok 1 (MV e) && bits_ok 1 (BB e)
  && bits_ok 1 (CS e) && bits_ok 1 (FIX e) && bits_ok 1 (VLD e)
  && (DirectionHighestBit e <? 2) && (AltitudeSign e <? 2) && (Speed e <=? 1638)
  && (Direction e <? 256) && (if DirectionHighestBit e =? 1 then 128 <=? Direction e else true)
  && (Odometer e <? 2 ^ 24) && (DigitalInputs e <? 256) && (Source e <? 256)
  && opt_num 3 (ALTE e) (Altitude e).

(** What the wire keeps of a position: time and coordinates quantised. *)
Definition quant_pos (e : pos_data) : pos_data :=
  {| NavigationTime := time_decode (time_encode (NavigationTime e));
     Latitude := coord_decode 90 (coord_encode 90 (Latitude e));
     Longitude := coord_decode 180 (coord_encode 180 (Longitude e));
     ALTE := ALTE e; LOHS := LOHS e; LAHS := LAHS e; MV := MV e;
     BB := BB e; CS := CS e; FIX := FIX e; VLD := VLD e;
     DirectionHighestBit := DirectionHighestBit e; AltitudeSign := AltitudeSign e;
     Speed := Speed e; Direction := Direction e; Odometer := Odometer e;
     DigitalInputs := DigitalInputs e; Source := Source e; Altitude := Altitude e |}.

Definition wf_ext (e : ext_pos) : bool :=
  opt_num 2 (VFE e) (VDOP e) && opt_num 2 (HFE e) (HDOP e) && opt_num 2 (PFE e) (PDOP e)
  && opt_num 1 (SFE e) (SAT e) && opt_num 2 (NSFE e) (NS e).

Definition wf_state (e : state_data) : bool :=
  byte_ok (State e) && byte_ok (MPSV e) && byte_ok (BBV e) && byte_ok (IBV e)
  && bits_ok 1 (NMS e) && bits_ok 1 (IBU e) && bits_ok 1 (BBU e).

Definition wf_liquid (e : liquid) : bool :=
  bits_ok 1 (LLSEF e) && bits_ok 2 (LLSVU e) && bits_ok 1 (RDF e)
  && (LLSN e <? 8) && (MADDR e <? 2 ^ 16) && (LLSD e <? 2 ^ 32).

Definition wf_abs_cntr (e : abs_cntr) : bool := byte_ok (CounterNumber e) && (CounterValue e <? 2 ^ 24).
Definition wf_abs_an (e : abs_an) : bool := byte_ok (SensorNumber e) && (Value e <? 2 ^ 24).

Definition wf_disp (e : disp_ident) : bool := byte_ok (DT e) && (DID e <? 2 ^ 32) && bytes_ok (DSCR e).

(** no NUL inside a string that is terminated by NUL *)
Definition nul_free (s : gostr) : bool := forallb (fun c => negb (c =? 0)) s.
Definition wf_auth (e : auth_info) : bool :=
  bytes_ok (UNM e) && bytes_ok (UPSW e) && bytes_ok (SSQ e)
  && nul_free (UNM e) && nul_free (UPSW e) && nul_free (SSQ e).

Definition wf_term (e : term_ident) : bool :=
  (TID e <? 2 ^ 32) && bits_ok 1 (SSRA e)
  && opt_num 2 (HDIDE e) (HDID e) && opt_bytes 15 (IMEIE e) (IMEI e)
  && opt_bytes 16 (IMSIE e) (IMSI e) && opt_bytes 3 (LNGCE e) (LNGC e)
  && opt_bytes 3 (NIDE e) (NID e) && opt_num 2 (BSE e) (BS e)
  && opt_bytes 15 (MNE e) (MSISDN e).

(** the full domains of the two flag-indexed subrecords *)
Definition full_counters (e : counters) : bool := all8 (opt_num 3) (CFE e) (CN e).
Definition full_ad (e : ad_sensors) : bool :=
  all8 (opt_num 1) (DIOE e) (ADIO e) && byte_ok (DOUT e) && all8 (opt_num 3) (ASFE e) (ANS e).

(** ... and the parts of them on which the code round-trips: no second counter,
    and analogue flags that read the same from both ends. *)
Definition wf_counters (e : counters) : bool := full_counters e && negb (is1 (o2 (CFE e))).
Definition flags_palindrome (f : oct gostr) : bool :=
  str_eqb (o1 f) (o8 f) && str_eqb (o2 f) (o7 f) && str_eqb (o3 f) (o6 f) && str_eqb (o4 f) (o5 f).
Definition wf_ad (e : ad_sensors) : bool := full_ad e && flags_palindrome (ASFE e).

(** An EGTS-PLUS message is well formed when the protobuf library itself
    round-trips it. *)
Definition wf_plus (m : pb_msg) : Prop :=
  exists b, pb_marshal m = Some b /\ bytes_ok b = true /\ pb_unmarshal b = Some m.

Definition wf_sr (d : srdata) : Prop :=
  match d with
  | SRPos e => wf_pos e = true
  | SRTerm e => wf_term e = true
  | SRResp crn rst => crn < 2 ^ 16 /\ rst < 256
  | SRResult c => c < 256
  | SRExt e => wf_ext e = true
  | SRAd e => wf_ad e = true
  | SRState e => wf_state e = true
  | SRLiquid e => wf_liquid e = true
  | SRAbsCntr e => wf_abs_cntr e = true
  | SRAuth e => wf_auth e = true
  | SRCounters e => wf_counters e = true
  | SRPlus m => wf_plus m
  | SRAbsAn e => wf_abs_an e = true
  | SRDisp e => wf_disp e = true
  | SRNil => False
  end.

Definition quant_sr (d : srdata) : srdata :=
  match d with SRPos e => SRPos (quant_pos e) | _ => d end.

(** The documented type code(s) of each subrecord (const_types.go:5-29). State
    data may also travel under the legacy code 20, with length 5. *)
Definition type_of (d : srdata) : N :=
  match d with
  | SRPos _ => 16 | SRTerm _ => 1 | SRResp _ _ => 0 | SRResult _ => 9 | SRExt _ => 17
  | SRAd _ => 18 | SRState _ => 21 | SRLiquid _ => 27 | SRAbsCntr _ => 25 | SRAuth _ => 7
  | SRCounters _ => 19 | SRPlus _ => 15 | SRAbsAn _ => 24 | SRDisp _ => 5 | SRNil => 0
  end.
(** What the counters decoder actually returns for a full-domain value: the
    second counter, when present, overwrites the first and is itself lost. *)
Definition counters_seen (e : counters) : counters :=
  {| CFE := CFE e;
     CN := mkOct (if is1 (o2 (CFE e)) then o2 (CN e) else o1 (CN e)) 0
                 (o3 (CN e)) (o4 (CN e)) (o5 (CN e)) (o6 (CN e)) (o7 (CN e)) (o8 (CN e)) |}.

End Wf.
