(** * Reuse: the decoders with a receiver that has been used before.
    [SubRecords.v] and [Records.v] model Decode on a new structure; here the
    structure already holds [o].  Only the decoders that leave a field of the
    receiver untouched differ; the others (egts_sr_state_data.go:23-55,
    egts_sr_liquid_level_sensor.go:22-57, egts_sr_abs_cntr_data.go:18-37,
    egts_sr_abs_an_sensors_data.go:16-23, egts_sr_dispatcher_identity.go:19-37,
    egts_sr_response.go:17-38, egts_sr_result_code.go:15-27) assign every field,
    and proto.Unmarshal resets the message first.  SourceData is not modelled. *)
From Verif Require Import GoBase Float64 SubRecords Records.

Section Reuse.
Context {E : go_env}.

(** egts_sr_pos_data.go:37-130; Altitude is assigned in :120-126 only. *)
Definition pos_decode_into (o : pos_data) (content : bytes) : res pos_data :=
  '(t, tmp, r) <- read_le (zeros 4) content ;;
  '(la, tmp, r) <- read_le tmp r ;;
  '(lo, tmp, r) <- read_le tmp r ;;
  '(flags, r) <- read_byte r ;;
  let fb := fmt_b 8 flags in
  '(spd, _, r) <- read_le (zeros 2) r ;;
  let dirh := N.land (N.shiftr spd 15) 1 in
  let alts := N.land (N.shiftr spd 14) 1 in
  speed <- parse16 (skipn 2 (fmt_b 16 spd)) ;;
  '(dir, r) <- read_byte r ;;
  '(odm, _, r) <- read_le (zeros 3) r ;;
  '(din, r) <- read_byte r ;;
  '(src, r) <- read_byte r ;;
  '(alt, _, r) <- opt_le (fbit 0 fb) (Altitude o) (zeros 4) r ;;
  Ok {| NavigationTime := time_decode t;
        Latitude := coord_decode 90 la;
        Longitude := coord_decode 180 lo;
        ALTE := fbit 0 fb; LOHS := fbit 1 fb; LAHS := fbit 2 fb; MV := fbit 3 fb;
        BB := fbit 4 fb; CS := fbit 5 fb; FIX := fbit 6 fb; VLD := fbit 7 fb;
        DirectionHighestBit := dirh;
        AltitudeSign := alts;
        Speed := speed / 10;
        Direction := N.lor dir (u8 (N.shiftl dirh 7));
        Odometer := odm;
        DigitalInputs := din;
        Source := src;
        Altitude := alt |}.

(** egts_sr_ext_pos_data.go:26-81 *)
Definition ext_decode_into (o : ext_pos) (content : bytes) : res ext_pos :=
  '(flags, r) <- read_byte content ;;
  let fb := fmt_b 8 flags in
  '(vdop, tmp, r) <- opt_le (fbit 7 fb) (VDOP o) (zeros 2) r ;;
  '(hdop, tmp, r) <- opt_le (fbit 6 fb) (HDOP o) tmp r ;;
  '(pdop, tmp, r) <- opt_le (fbit 5 fb) (PDOP o) tmp r ;;
  '(sat, r) <- opt_byte (fbit 4 fb) (SAT o) r ;;
  '(ns, _, r) <- opt_le (fbit 3 fb) (NS o) tmp r ;;
  Ok {| NSFE := fbit 3 fb; SFE := fbit 4 fb; PFE := fbit 5 fb; HFE := fbit 6 fb;
        VFE := fbit 7 fb;
        VDOP := vdop; HDOP := hdop; PDOP := pdop; SAT := sat; NS := ns |}.

(** egts_sr_term_identity.go:32-115 *)
Definition opt_u16 (flag : gostr) (cur : N) (r : bytes) : res (N * bytes) :=
  if is1 flag then '(b, r') <- reader_read (zeros 2) r ;; Ok (le_dec b, r') else Ok (cur, r).
Definition term_decode_into (o : term_ident) (content : bytes) : res term_ident :=
  '(tid, _, r) <- read_le (zeros 4) content ;;
  '(flags, r) <- read_byte r ;;
  let fb := fmt_b 8 flags in
  '(hdid, r) <- opt_u16 (fbit 7 fb) (HDID o) r ;;
  '(imei, r) <- opt_fresh (fbit 6 fb) (IMEI o) 15 r ;;
  '(imsi, r) <- opt_fresh (fbit 5 fb) (IMSI o) 16 r ;;
  '(lngc, r) <- opt_fresh (fbit 4 fb) (LNGC o) 3 r ;;
  '(nid, r) <- opt_fresh (fbit 2 fb) (NID o) 3 r ;;
  '(bs, r) <- opt_u16 (fbit 1 fb) (BS o) r ;;
  '(mn, r) <- opt_fresh (fbit 0 fb) (MSISDN o) 15 r ;;
  Ok {| TID := tid;
        MNE := fbit 0 fb; BSE := fbit 1 fb; NIDE := fbit 2 fb; SSRA := fbit 3 fb;
        LNGCE := fbit 4 fb; IMSIE := fbit 5 fb; IMEIE := fbit 6 fb; HDIDE := fbit 7 fb;
        HDID := hdid; IMEI := imei; IMSI := imsi; LNGC := lngc;
        NID := nid; BS := bs; MSISDN := mn |}.

(** egts_sr_counters_data.go:32-119; Counter2 is never assigned. *)
Definition counters_decode_into (o : counters) (content : bytes) : res counters :=
  '(flags, r) <- read_byte content ;;
  let f := flags_low_first (fmt_b 8 flags) in
  '(c1, tmp, r) <- opt_le (o1 f) (o1 (CN o)) (zeros 3) r ;;
  '(c1, tmp, r) <- opt_le (o2 f) c1 tmp r ;;
  '(c3, tmp, r) <- opt_le (o3 f) (o3 (CN o)) tmp r ;;
  '(c4, tmp, r) <- opt_le (o4 f) (o4 (CN o)) tmp r ;;
  '(c5, tmp, r) <- opt_le (o5 f) (o5 (CN o)) tmp r ;;
  '(c6, tmp, r) <- opt_le (o6 f) (o6 (CN o)) tmp r ;;
  '(c7, tmp, r) <- opt_le (o7 f) (o7 (CN o)) tmp r ;;
  '(c8, tmp, r) <- opt_le (o8 f) (o8 (CN o)) tmp r ;;
  Ok {| CFE := f; CN := mkOct c1 (o2 (CN o)) c3 c4 c5 c6 c7 c8 |}.

(** egts_sr_ad_sensors_data.go:50-204 *)
Definition ad_decode_into (o : ad_sensors) (content : bytes) : res ad_sensors :=
  '(flags, r) <- read_byte content ;;
  let d := flags_low_first (fmt_b 8 flags) in
  '(dout, r) <- read_byte r ;;
  '(flags2, r) <- read_byte r ;;
  let a := flags_low_first (fmt_b 8 flags2) in
  '(d1, r) <- opt_byte (o1 d) (o1 (ADIO o)) r ;;
  '(d2, r) <- opt_byte (o2 d) (o2 (ADIO o)) r ;;
  '(d3, r) <- opt_byte (o3 d) (o3 (ADIO o)) r ;;
  '(d4, r) <- opt_byte (o4 d) (o4 (ADIO o)) r ;;
  '(d5, r) <- opt_byte (o5 d) (o5 (ADIO o)) r ;;
  '(d6, r) <- opt_byte (o6 d) (o6 (ADIO o)) r ;;
  '(d7, r) <- opt_byte (o7 d) (o7 (ADIO o)) r ;;
  '(d8, r) <- opt_byte (o8 d) (o8 (ADIO o)) r ;;
  '(a1, tmp, r) <- opt_le (o1 a) (o1 (ANS o)) (zeros 3) r ;;
  '(a2, tmp, r) <- opt_le (o2 a) (o2 (ANS o)) tmp r ;;
  '(a3, tmp, r) <- opt_le (o3 a) (o3 (ANS o)) tmp r ;;
  '(a4, tmp, r) <- opt_le (o4 a) (o4 (ANS o)) tmp r ;;
  '(a5, tmp, r) <- opt_le (o5 a) (o5 (ANS o)) tmp r ;;
  '(a6, tmp, r) <- opt_le (o6 a) (o6 (ANS o)) tmp r ;;
  '(a7, tmp, r) <- opt_le (o7 a) (o7 (ANS o)) tmp r ;;
  '(a8, tmp, r) <- opt_le (o8 a) (o8 (ANS o)) tmp r ;;
  Ok {| DIOE := d; DOUT := dout; ASFE := a;
        ADIO := mkOct d1 d2 d3 d4 d5 d6 d7 d8;
        ANS := mkOct a1 a2 a3 a4 a5 a6 a7 a8 |}.

(** egts_sr_auth_info.go:19-49 *)
Definition auth_decode_into (o : auth_info) (content : bytes) : res auth_info :=
  '(u, r) <- read_string 0 content ;;
  '(p, r) <- read_string 0 r ;;
  match r with
  | [] => Ok {| UNM := u; UPSW := p; SSQ := SSQ o |}
  | _ :: _ => '(s, _) <- read_string 0 r ;; Ok {| UNM := u; UPSW := p; SSQ := s |}
  end.

(** egts_pt_response.go:17-42; SDR is assigned when something follows only. *)
Definition ptr_decode_into (o : pt_response) (content : bytes) : res pt_response :=
  '(b, r) <- buffer_read (zeros 2) content ;;
  '(pr, r) <- read_byte r ;;
  match r with
  | [] => Ok {| RPID := le_dec b; PR := pr; SDRS := SDRS o |}
  | _ :: _ => s <- sds_decode r ;; Ok {| RPID := le_dec b; PR := pr; SDRS := Some s |}
  end.

(** record_data.go:20-87, service_data_records.go:33-113: what is decoded is
    appended to what is there. *)
Definition rds_decode_into (o : list record_data) (b : bytes) : res (list record_data) :=
  l <- rds_decode b ;; Ok (o ++ l).

(** Decode through the BinaryData interface: the structure keeps its type. *)
Definition sr_decode_into (o : srdata) (content : bytes) : res srdata :=
  match o with
  | SRPos e => rmap SRPos (pos_decode_into e content)
  | SRTerm e => rmap SRTerm (term_decode_into e content)
  | SRResp _ _ => srresp_decode content
  | SRResult _ => rmap SRResult (result_decode content)
  | SRExt e => rmap SRExt (ext_decode_into e content)
  | SRAd e => rmap SRAd (ad_decode_into e content)
  | SRState _ => rmap SRState (state_decode content)
  | SRLiquid _ => rmap SRLiquid (liquid_decode content)
  | SRAbsCntr _ => rmap SRAbsCntr (abs_cntr_decode content)
  | SRAuth e => rmap SRAuth (auth_decode_into e content)
  | SRCounters e => rmap SRCounters (counters_decode_into e content)
  | SRPlus _ => rmap SRPlus (plus_decode content)
  | SRAbsAn _ => rmap SRAbsAn (abs_an_decode content)
  | SRDisp _ => rmap SRDisp (disp_decode content)
  | SRNil => Panic
  end.

End Reuse.
