(** * SubRecords: the subrecord codecs libs/egts/egts_sr_*.go (except
    egts_sr_response.go, which is in Records.v because its decoder is
    mutually recursive with the record decoders).  No proofs here.

    Every Decode method is modelled on a fresh (zero-valued) receiver: that is
    how record_data.go:39-78 calls them.  Error texts are not modelled.
    Writes to a bytes.Buffer cannot fail and are modelled as concatenation. *)
From Verif Require Import GoBase Float64.

Section SubRecords.
Context {E : go_env}.

(** Reading a k-byte unsigned integer through the scratch buffer [tmp]
    (len tmp = k): `buf.Read(tmp); binary.LittleEndian.UintK(tmp)`.
    Returns the value, the new scratch buffer and the rest. *)
Definition read_le (tmp r : bytes) : res (N * bytes * bytes) :=
  '(tmp', r') <- reader_read tmp r ;; Ok (le_dec tmp', tmp', r').

(** The same behind an optional-field flag: `if flag == "1" { ... }`; the field
    keeps its current value [cur] otherwise. *)
Definition opt_le (flag : gostr) (cur : N) (tmp r : bytes) : res (N * bytes * bytes) :=
  if is1 flag then read_le tmp r else Ok (cur, tmp, r).
Definition opt_byte (flag : gostr) (cur : N) (r : bytes) : res (N * bytes) :=
  if is1 flag then read_byte r else Ok (cur, r).
(** An optional field read into a freshly made buffer of k bytes. *)
Definition opt_fresh (flag : gostr) (cur : bytes) (k : nat) (r : bytes) : res (bytes * bytes) :=
  if is1 flag then reader_read (zeros k) r else Ok (cur, r).
(** `if flag == "1" { write(b) }` *)
Definition opt_w (flag : gostr) (b : bytes) : bytes := if is1 flag then b else [].

(** flagBits[i:i+1] for the eight digits of a flag byte. *)
Definition fbit (i : nat) (flagBits : gostr) : gostr := substr i (S i) flagBits.

(** ** EGTS_SR_POS_DATA *)

(** egts_sr_pos_data.go:13-34.  NavigationTime is in nanoseconds since
    2010-01-01T00:00:00Z.  SourceData (int16) is never read or written by the
    code and is omitted. *)
Record pos_data := mkPos {
  NavigationTime : Z;
  Latitude : f64;
  Longitude : f64;
  ALTE : gostr; LOHS : gostr; LAHS : gostr; MV : gostr;
  BB : gostr; CS : gostr; FIX : gostr; VLD : gostr;
  DirectionHighestBit : N;   (* uint8 *)
  AltitudeSign : N;          (* uint8 *)
  Speed : N;                 (* uint16 *)
  Direction : N;             (* byte *)
  Odometer : N;              (* uint32 *)
  DigitalInputs : N;         (* byte *)
  Source : N;                (* byte *)
  Altitude : N               (* uint32 *)
}.

(** egts_sr_pos_data.go:37-130 *)
Definition pos_decode (content : bytes) : res pos_data :=
  '(t, tmp, r) <- read_le (zeros 4) content ;;             (* :47-52 *)
  '(la, tmp, r) <- read_le tmp r ;;                        (* :55-60 *)
  '(lo, tmp, r) <- read_le tmp r ;;                        (* :63-67 *)
  '(flags, r) <- read_byte r ;;                            (* :70-81 *)
  let fb := fmt_b 8 flags in
  '(spd, _, r) <- read_le (zeros 2) r ;;                   (* :84-88 *)
  let dirh := N.land (N.shiftr spd 15) 1 in                (* :89 *)
  let alts := N.land (N.shiftr spd 14) 1 in                (* :90 *)
  speed <- parse16 (skipn 2 (fmt_b 16 spd)) ;;             (* :92-95 *)
  '(dir, r) <- read_byte r ;;                              (* :100-102 *)
  '(odm, _, r) <- read_le (zeros 3) r ;;                   (* :105-110 *)
  '(din, r) <- read_byte r ;;                              (* :112 *)
  '(src, r) <- read_byte r ;;                              (* :116 *)
  '(alt, _, r) <- opt_le (fbit 0 fb) 0 (zeros 4) r ;;      (* :120-126 *)
  Ok {| NavigationTime := time_decode t;
        Latitude := coord_decode 90 la;
        Longitude := coord_decode 180 lo;
        ALTE := fbit 0 fb; LOHS := fbit 1 fb; LAHS := fbit 2 fb; MV := fbit 3 fb;
        BB := fbit 4 fb; CS := fbit 5 fb; FIX := fbit 6 fb; VLD := fbit 7 fb;
        DirectionHighestBit := dirh;
        AltitudeSign := alts;
        Speed := speed / 10;                               (* :98 *)
        Direction := N.lor dir (u8 (N.shiftl dirh 7));     (* :103 *)
        Odometer := odm;
        DigitalInputs := din;
        Source := src;
        Altitude := alt |}.

(** egts_sr_pos_data.go:168-169: e.Speed*10 | uint16(DIRH)<<15 | uint16(ALTS)<<14 *)
Definition pos_speed_word (e : pos_data) : N :=
  N.lor (N.lor (u16 (Speed e * 10)) (u16 (N.shiftl (DirectionHighestBit e) 15)))
        (u16 (N.shiftl (AltitudeSign e) 14)).

(** egts_sr_pos_data.go:133-206 *)
Definition pos_encode (e : pos_data) : res bytes :=
  flags <- parse8 (ALTE e ++ LOHS e ++ LAHS e ++ MV e ++ BB e ++ CS e ++ FIX e ++ VLD e) ;;
  Ok (le_enc 4 (time_encode (NavigationTime e))            (* :142-145 *)
      ++ le_enc 4 (coord_encode 90 (Latitude e))           (* :148 *)
      ++ le_enc 4 (coord_encode 180 (Longitude e))         (* :153 *)
      ++ [flags]                                           (* :158-165 *)
      ++ le_enc 2 (pos_speed_word e)                       (* :168-174 *)
      ++ [N.ldiff (Direction e) (u8 (N.shiftl (DirectionHighestBit e) 7))]  (* :176 *)
      ++ le_enc 3 (Odometer e)                             (* :181-185 *)
      ++ [DigitalInputs e] ++ [Source e]                   (* :187-193 *)
      ++ opt_w (ALTE e) (le_enc 3 (Altitude e))).          (* :195-201 *)

(** ** EGTS_SR_EXT_POS_DATA *)

(** egts_sr_ext_pos_data.go:12-23 *)
Record ext_pos := mkExt {
  NSFE : gostr; SFE : gostr; PFE : gostr; HFE : gostr; VFE : gostr;
  VDOP : N; HDOP : N; PDOP : N; SAT : N; NS : N
}.

(** egts_sr_ext_pos_data.go:26-81: one two-byte scratch buffer is shared by
    VDOP, HDOP, PDOP and NS. *)
Definition ext_decode (content : bytes) : res ext_pos :=
  '(flags, r) <- read_byte content ;;
  let fb := fmt_b 8 flags in
  '(vdop, tmp, r) <- opt_le (fbit 7 fb) 0 (zeros 2) r ;;
  '(hdop, tmp, r) <- opt_le (fbit 6 fb) 0 tmp r ;;
  '(pdop, tmp, r) <- opt_le (fbit 5 fb) 0 tmp r ;;
  '(sat, r) <- opt_byte (fbit 4 fb) 0 r ;;
  '(ns, _, r) <- opt_le (fbit 3 fb) 0 tmp r ;;
  Ok {| NSFE := fbit 3 fb; SFE := fbit 4 fb; PFE := fbit 5 fb; HFE := fbit 6 fb;
        VFE := fbit 7 fb;
        VDOP := vdop; HDOP := hdop; PDOP := pdop; SAT := sat; NS := ns |}.

(** egts_sr_ext_pos_data.go:84-136 *)
Definition ext_encode (e : ext_pos) : res bytes :=
  flags <- parse8 ([ch0; ch0; ch0] ++ NSFE e ++ SFE e ++ PFE e ++ HFE e ++ VFE e) ;;
  Ok ([flags]
      ++ opt_w (VFE e) (le_enc 2 (VDOP e))
      ++ opt_w (HFE e) (le_enc 2 (HDOP e))
      ++ opt_w (PFE e) (le_enc 2 (PDOP e))
      ++ opt_w (SFE e) [SAT e]
      ++ opt_w (NSFE e) (le_enc 2 (NS e))).

(** ** EGTS_SR_STATE_DATA *)

(** egts_sr_state_data.go:12-20 *)
Record state_data := mkState {
  State : N; MPSV : N; BBV : N; IBV : N; NMS : gostr; IBU : gostr; BBU : gostr
}.

(** egts_sr_state_data.go:23-55 *)
Definition state_decode (content : bytes) : res state_data :=
  '(st, r) <- read_byte content ;;
  '(mp, r) <- read_byte r ;;
  '(bb, r) <- read_byte r ;;
  '(ib, r) <- read_byte r ;;
  '(flags, r) <- read_byte r ;;
  let fb := fmt_b 8 flags in
  Ok {| State := st; MPSV := mp; BBV := bb; IBV := ib;
        NMS := fbit 5 fb; IBU := fbit 6 fb; BBU := fbit 7 fb |}.

(** egts_sr_state_data.go:58-93 *)
Definition state_encode (e : state_data) : res bytes :=
  flags <- parse8 ([ch0; ch0; ch0; ch0; ch0] ++ NMS e ++ IBU e ++ BBU e) ;;
  Ok ([State e] ++ [MPSV e] ++ [BBV e] ++ [IBV e] ++ [flags]).

(** ** EGTS_SR_LIQUID_LEVEL_SENSOR *)

(** egts_sr_liquid_level_sensor.go:12-19 *)
Record liquid := mkLiquid {
  LLSEF : gostr; LLSVU : gostr; RDF : gostr; LLSN : N; MADDR : N; LLSD : N
}.

(** egts_sr_liquid_level_sensor.go:22-57 *)
Definition liquid_decode (content : bytes) : res liquid :=
  '(flags, r) <- read_byte content ;;
  let fb := fmt_b 8 flags in
  num <- parse8 (skipn 5 fb) ;;
  '(addr, _, r) <- read_le (zeros 2) r ;;
  '(data, _, r) <- read_le (zeros 4) r ;;
  Ok {| LLSEF := fbit 1 fb; LLSVU := substr 2 4 fb; RDF := fbit 4 fb;
        LLSN := num; MADDR := addr; LLSD := data |}.

(** egts_sr_liquid_level_sensor.go:60-89 *)
Definition liquid_encode (e : liquid) : res bytes :=
  flags <- parse8 (s0 ++ LLSEF e ++ LLSVU e ++ RDF e ++ fmt_b 3 (LLSN e)) ;;
  Ok ([flags] ++ le_enc 2 (MADDR e) ++ le_enc 4 (LLSD e)).

(** ** EGTS_SR_ABS_CNTR_DATA *)

(** egts_sr_abs_cntr_data.go:12-15 *)
Record abs_cntr := mkAbsCntr { CounterNumber : N; CounterValue : N }.

(** egts_sr_abs_cntr_data.go:18-37 *)
Definition abs_cntr_decode (content : bytes) : res abs_cntr :=
  '(n, r) <- read_byte content ;;
  '(v, _, r) <- read_le (zeros 3) r ;;
  Ok {| CounterNumber := n; CounterValue := v |}.

(** egts_sr_abs_cntr_data.go:40-59 *)
Definition abs_cntr_encode (e : abs_cntr) : res bytes :=
  Ok ([CounterNumber e] ++ le_enc 3 (CounterValue e)).

(** ** EGTS_SR_ABS_AN_SENS_DATA *)

(** egts_sr_abs_an_sensors_data.go:10-13 *)
Record abs_an := mkAbsAn { SensorNumber : N; Value : N }.

(** egts_sr_abs_an_sensors_data.go:16-23: after the length check content[0]
    and LittleEndian.Uint32(content) (first four bytes) cannot panic. *)
Definition abs_an_decode (content : bytes) : res abs_an :=
  if blen content <? 4 then Err
  else Ok {| SensorNumber := nth 0 content 0;
             Value := N.shiftr (le_dec (firstn 4 content)) 8 |}.

(** egts_sr_abs_an_sensors_data.go:26-33 *)
Definition abs_an_encode (e : abs_an) : res bytes :=
  Ok [u8 (SensorNumber e); u8 (Value e); u8 (N.shiftr (Value e) 8);
      u8 (N.shiftr (Value e) 16)].

(** ** EGTS_SR_RESULT_CODE: egts_sr_result_code.go:15-26, 29-42 *)
Definition result_decode (content : bytes) : res N :=
  '(c, r) <- read_byte content ;; Ok c.
Definition result_encode (c : N) : res bytes := Ok [c].

(** ** EGTS_SR_DISPATCHER_IDENTITY *)

(** egts_sr_dispatcher_identity.go:12-16 *)
Record disp_ident := mkDisp { DT : N; DID : N; DSCR : gostr }.

(** egts_sr_dispatcher_identity.go:19-37 (a bytes.Buffer, not a Reader) *)
Definition disp_decode (content : bytes) : res disp_ident :=
  '(dt, r) <- read_byte content ;;
  '(b, r) <- buffer_read (zeros 4) r ;;
  Ok {| DT := dt; DID := le_dec b; DSCR := r |}.

(** egts_sr_dispatcher_identity.go:40-61 *)
Definition disp_encode (e : disp_ident) : res bytes :=
  Ok ([DT e] ++ le_enc 4 (DID e) ++ DSCR e).

(** ** EGTS_SR_AUTH_INFO *)

(** egts_sr_auth_info.go:12-16 *)
Record auth_info := mkAuth { UNM : gostr; UPSW : gostr; SSQ : gostr }.

(** egts_sr_auth_info.go:19-49 *)
Definition auth_decode (content : bytes) : res auth_info :=
  '(u, r) <- read_string 0 content ;;
  '(p, r) <- read_string 0 r ;;
  match r with
  | [] => Ok {| UNM := u; UPSW := p; SSQ := [] |}
  | _ :: _ => '(s, _) <- read_string 0 r ;; Ok {| UNM := u; UPSW := p; SSQ := s |}
  end.

(** egts_sr_auth_info.go:52-74 *)
Definition auth_encode (e : auth_info) : res bytes :=
  Ok (UNM e ++ [0] ++ UPSW e ++ [0]
      ++ match SSQ e with [] => [] | _ :: _ => SSQ e ++ [0] end).

(** ** EGTS_SR_TERM_IDENTITY *)

(** egts_sr_term_identity.go:12-29 *)
Record term_ident := mkTerm {
  TID : N;
  MNE : gostr; BSE : gostr; NIDE : gostr; SSRA : gostr;
  LNGCE : gostr; IMSIE : gostr; IMEIE : gostr; HDIDE : gostr;
  HDID : N; IMEI : gostr; IMSI : gostr; LNGC : gostr;
  NID : bytes; BS : N; MSISDN : gostr
}.

(** egts_sr_term_identity.go:32-115; every optional field is read into a
    freshly made buffer. *)
Definition term_decode (content : bytes) : res term_ident :=
  '(tid, _, r) <- read_le (zeros 4) content ;;
  '(flags, r) <- read_byte r ;;
  let fb := fmt_b 8 flags in
  '(hdid, r) <- opt_fresh (fbit 7 fb) [] 2 r ;;
  '(imei, r) <- opt_fresh (fbit 6 fb) [] 15 r ;;
  '(imsi, r) <- opt_fresh (fbit 5 fb) [] 16 r ;;
  '(lngc, r) <- opt_fresh (fbit 4 fb) [] 3 r ;;
  '(nid, r) <- opt_fresh (fbit 2 fb) [] 3 r ;;
  '(bs, r) <- opt_fresh (fbit 1 fb) [] 2 r ;;
  '(mn, r) <- opt_fresh (fbit 0 fb) [] 15 r ;;
  Ok {| TID := tid;
        MNE := fbit 0 fb; BSE := fbit 1 fb; NIDE := fbit 2 fb; SSRA := fbit 3 fb;
        LNGCE := fbit 4 fb; IMSIE := fbit 5 fb; IMEIE := fbit 6 fb; HDIDE := fbit 7 fb;
        HDID := le_dec hdid; IMEI := imei; IMSI := imsi; LNGC := lngc;
        NID := nid; BS := le_dec bs; MSISDN := mn |}.

(** egts_sr_term_identity.go:146-149, 157-160: zero padding up to k bytes. *)
Definition pad_to (k : nat) (s : bytes) : bytes := s ++ zeros (k - length s).

(** egts_sr_term_identity.go:118-189.  The error of ParseUint (:130) is
    overwritten by that of WriteByte (:131), so a bad flag string is written as
    the value ParseUint returned (0 or 255). *)
Definition term_encode (e : term_ident) : res bytes :=
  let flags := fst (parse_uint 255 (MNE e ++ BSE e ++ NIDE e ++ SSRA e
                                    ++ LNGCE e ++ IMSIE e ++ IMEIE e ++ HDIDE e)) in
  Ok (le_enc 4 (TID e) ++ [flags]
      ++ opt_w (HDIDE e) (le_enc 2 (HDID e))
      ++ opt_w (IMEIE e) (pad_to 15 (IMEI e))
      ++ opt_w (IMSIE e) (pad_to 16 (IMSI e))
      ++ opt_w (LNGCE e) (LNGC e)
      ++ opt_w (NIDE e) (NID e)
      ++ opt_w (BSE e) (le_enc 2 (BS e))
      ++ opt_w (MNE e) (MSISDN e)).

(** ** EGTS_SR_COUNTERS_DATA *)

(** egts_sr_counters_data.go:12-29 *)
Record counters := mkCounters { CFE : oct gostr; CN : oct N }.

(** flagBits[7:], flagBits[6:7], ..., flagBits[:1] into fields 1 .. 8. *)
Definition flags_low_first (fb : gostr) : oct gostr :=
  mkOct (fbit 7 fb) (fbit 6 fb) (fbit 5 fb) (fbit 4 fb)
        (fbit 3 fb) (fbit 2 fb) (fbit 1 fb) (fbit 0 fb).
(** X8 + X7 + ... + X1 *)
Definition concat_high_first (o : oct gostr) : gostr :=
  o8 o ++ o7 o ++ o6 o ++ o5 o ++ o4 o ++ o3 o ++ o2 o ++ o1 o.
(** X1 + X2 + ... + X8 *)
Definition concat_low_first (o : oct gostr) : gostr :=
  o1 o ++ o2 o ++ o3 o ++ o4 o ++ o5 o ++ o6 o ++ o7 o ++ o8 o.

(** egts_sr_counters_data.go:32-119.  As in the source (:68) the value of the
    second counter is stored in Counter1, Counter2 stays 0; one three-byte
    scratch buffer is shared by all counters. *)
Definition counters_decode (content : bytes) : res counters :=
  '(flags, r) <- read_byte content ;;
  let f := flags_low_first (fmt_b 8 flags) in
  '(c1, tmp, r) <- opt_le (o1 f) 0 (zeros 3) r ;;
  '(c1, tmp, r) <- opt_le (o2 f) c1 tmp r ;;               (* :63-69 *)
  '(c3, tmp, r) <- opt_le (o3 f) 0 tmp r ;;
  '(c4, tmp, r) <- opt_le (o4 f) 0 tmp r ;;
  '(c5, tmp, r) <- opt_le (o5 f) 0 tmp r ;;
  '(c6, tmp, r) <- opt_le (o6 f) 0 tmp r ;;
  '(c7, tmp, r) <- opt_le (o7 f) 0 tmp r ;;
  '(c8, tmp, r) <- opt_le (o8 f) 0 tmp r ;;
  Ok {| CFE := f; CN := mkOct c1 0 c3 c4 c5 c6 c7 c8 |}.

(** the eight optional three-byte values (egts_sr_counters_data.go:145-200 and
    egts_sr_ad_sensors_data.go:301-356) *)
Definition write_opt3 (f : oct gostr) (v : oct N) : bytes :=
  opt_w (o1 f) (le_enc 3 (o1 v)) ++ opt_w (o2 f) (le_enc 3 (o2 v))
  ++ opt_w (o3 f) (le_enc 3 (o3 v)) ++ opt_w (o4 f) (le_enc 3 (o4 v))
  ++ opt_w (o5 f) (le_enc 3 (o5 v)) ++ opt_w (o6 f) (le_enc 3 (o6 v))
  ++ opt_w (o7 f) (le_enc 3 (o7 v)) ++ opt_w (o8 f) (le_enc 3 (o8 v)).

(** egts_sr_counters_data.go:122-205 *)
Definition counters_encode (e : counters) : res bytes :=
  flags <- parse8 (concat_high_first (CFE e)) ;;
  Ok ([flags] ++ write_opt3 (CFE e) (CN e)).

(** ** EGTS_SR_AD_SENSORS_DATA *)

(** egts_sr_ad_sensors_data.go:13-47 *)
Record ad_sensors := mkAd {
  DIOE : oct gostr; DOUT : N; ASFE : oct gostr; ADIO : oct N; ANS : oct N
}.

(** egts_sr_ad_sensors_data.go:50-204 *)
Definition ad_decode (content : bytes) : res ad_sensors :=
  '(flags, r) <- read_byte content ;;
  let d := flags_low_first (fmt_b 8 flags) in              (* :64-71 *)
  '(dout, r) <- read_byte r ;;
  '(flags2, r) <- read_byte r ;;
  let a := flags_low_first (fmt_b 8 flags2) in             (* :82-89 *)
  '(d1, r) <- opt_byte (o1 d) 0 r ;;
  '(d2, r) <- opt_byte (o2 d) 0 r ;;
  '(d3, r) <- opt_byte (o3 d) 0 r ;;
  '(d4, r) <- opt_byte (o4 d) 0 r ;;
  '(d5, r) <- opt_byte (o5 d) 0 r ;;
  '(d6, r) <- opt_byte (o6 d) 0 r ;;
  '(d7, r) <- opt_byte (o7 d) 0 r ;;
  '(d8, r) <- opt_byte (o8 d) 0 r ;;
  '(a1, tmp, r) <- opt_le (o1 a) 0 (zeros 3) r ;;
  '(a2, tmp, r) <- opt_le (o2 a) 0 tmp r ;;
  '(a3, tmp, r) <- opt_le (o3 a) 0 tmp r ;;
  '(a4, tmp, r) <- opt_le (o4 a) 0 tmp r ;;
  '(a5, tmp, r) <- opt_le (o5 a) 0 tmp r ;;
  '(a6, tmp, r) <- opt_le (o6 a) 0 tmp r ;;
  '(a7, tmp, r) <- opt_le (o7 a) 0 tmp r ;;
  '(a8, tmp, r) <- opt_le (o8 a) 0 tmp r ;;
  Ok {| DIOE := d; DOUT := dout; ASFE := a;
        ADIO := mkOct d1 d2 d3 d4 d5 d6 d7 d8;
        ANS := mkOct a1 a2 a3 a4 a5 a6 a7 a8 |}.

(** egts_sr_ad_sensors_data.go:207-360.  As in the source the discrete flags
    are concatenated 8..1 (:216-223) and the analogue flags 1..8 (:237-244). *)
Definition ad_encode (e : ad_sensors) : res bytes :=
  flags <- parse8 (concat_high_first (DIOE e)) ;;
  flags2 <- parse8 (concat_low_first (ASFE e)) ;;
  Ok ([flags] ++ [DOUT e] ++ [flags2]
      ++ opt_w (o1 (DIOE e)) [o1 (ADIO e)] ++ opt_w (o2 (DIOE e)) [o2 (ADIO e)]
      ++ opt_w (o3 (DIOE e)) [o3 (ADIO e)] ++ opt_w (o4 (DIOE e)) [o4 (ADIO e)]
      ++ opt_w (o5 (DIOE e)) [o5 (ADIO e)] ++ opt_w (o6 (DIOE e)) [o6 (ADIO e)]
      ++ opt_w (o7 (DIOE e)) [o7 (ADIO e)] ++ opt_w (o8 (DIOE e)) [o8 (ADIO e)]
      ++ write_opt3 (ASFE e) (ANS e)).

(** ** EGTS_SR_EGTS_PLUS_DATA: egts_sr_egtsplus_data.go:241-247 delegate to the
    protobuf library (oracle). *)
Definition plus_decode (content : bytes) : res pb_msg :=
  match pb_unmarshal content with Some m => Ok m | None => Err end.
Definition plus_encode (m : pb_msg) : res bytes :=
  match pb_marshal m with Some b => Ok b | None => Err end.

End SubRecords.
