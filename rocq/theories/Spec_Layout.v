(** * Spec_Layout: where the EGTS standard puts each field of a subrecord and of
    a record, by byte offset and bit number.  Independent of the decoders. *)
From Verif Require Import GoBase Float64 SubRecords Records Package Spec_Bits Spec_Wf Spec_Rec Spec_Pkg Spec_Crc.

(** The [w]-byte little-endian number at offset [off]. *)
Fixpoint num_at (b : bytes) (off w : nat) : N :=
  match w with
  | O => 0
  | S w' => nth off b 0 + 256 * num_at b (S off) w'
  end.
(** Bit [k] of byte [off], as "0" or "1". *)
Definition flag_at (b : bytes) (off : nat) (k : N) : gostr := bit_str (N.testbit (nth off b 0) k).
(** [w] bytes at offset [off]. *)
Definition str_at (b : bytes) (off w : nat) : bytes := firstn w (skipn off b).

(** A field that is on the wire only when its flag is "1": a number of [w]
    bytes, or a string of [w] bytes; when absent it is 0, or empty. *)
Inductive field :=
| Num (flag : gostr) (w : nat) (v : N)
| Str (flag : gostr) (w : nat) (s : bytes).
Definition field_size (f : field) : nat :=
  match f with
  | Num flag w _ => if is1 flag then w else 0
  | Str flag w _ => if is1 flag then w else 0
  end.
Definition field_at (b : bytes) (off : nat) (f : field) : Prop :=
  match f with
  | Num flag w v => v = if is1 flag then num_at b off w else 0
  | Str flag w s => s = if is1 flag then str_at b off w else []
  end.
(** The fields follow one another from [off], and what is announced is there. *)
Fixpoint fields_from (b : bytes) (off : nat) (l : list field) : Prop :=
  match l with
  | [] => (off <= length b)%nat
  | f :: l' => field_at b off f /\ fields_from b (off + field_size f) l'
  end.

Section Layout.
Context {E : go_env}.

(** EGTS_SR_POS_DATA: the first 21 bytes.  Speed is in the low 14 bits of a word,
    in tenths of km/h; then the altitude sign; then the highest bit of the
    heading. *)
Definition pos_fields (b : bytes) (e : pos_data) : Prop :=
  NavigationTime e = (Z.of_N (num_at b 0 4) * 1000000000)%Z /\
  Latitude e = coord_decode 90 (num_at b 4 4) /\
  Longitude e = coord_decode 180 (num_at b 8 4) /\
  ALTE e = flag_at b 12 7 /\ LOHS e = flag_at b 12 6 /\ LAHS e = flag_at b 12 5 /\ MV e = flag_at b 12 4 /\
  BB e = flag_at b 12 3 /\ CS e = flag_at b 12 2 /\ FIX e = flag_at b 12 1 /\ VLD e = flag_at b 12 0 /\
  Speed e = (num_at b 13 2 mod 2 ^ 14) / 10 /\
  AltitudeSign e = (num_at b 13 2 / 2 ^ 14) mod 2 /\
  DirectionHighestBit e = num_at b 13 2 / 2 ^ 15 /\
  Direction e = N.lor (nth 15 b 0) (128 * DirectionHighestBit e) /\
  Odometer e = num_at b 16 3 /\
  DigitalInputs e = nth 19 b 0 /\
  Source e = nth 20 b 0.
(** Three more bytes when ALTE (bit 7 of byte 12) is set; the optional source
    data that may follow is not part of this. *)
Definition pos_layout (b : bytes) (e : pos_data) : Prop :=
  length b = (if N.testbit (nth 12 b 0) 7 then 24%nat else 21%nat) /\
  pos_fields b e /\
  Altitude e = (if N.testbit (nth 12 b 0) 7 then num_at b 21 3 else 0).
(** The heading on the wire, in degrees: nine bits, the highest one in the speed
    word. *)
Definition heading (b : bytes) : N := nth 15 b 0 + 256 * (num_at b 13 2 / 2 ^ 15).

(** EGTS_SR_EXT_POS_DATA *)
Definition ext_layout (b : bytes) (e : ext_pos) : Prop :=
  b <> [] /\
  VFE e = flag_at b 0 0 /\ HFE e = flag_at b 0 1 /\ PFE e = flag_at b 0 2 /\ SFE e = flag_at b 0 3 /\
  NSFE e = flag_at b 0 4 /\
  fields_from b 1 [Num (VFE e) 2 (VDOP e); Num (HFE e) 2 (HDOP e); Num (PFE e) 2 (PDOP e);
                   Num (SFE e) 1 (SAT e); Num (NSFE e) 2 (NS e)].

(** EGTS_SR_STATE_DATA *)
Definition state_layout (b : bytes) (e : state_data) : Prop :=
  (5 <= length b)%nat /\
  State e = nth 0 b 0 /\ MPSV e = nth 1 b 0 /\ BBV e = nth 2 b 0 /\ IBV e = nth 3 b 0 /\
  BBU e = flag_at b 4 0 /\ IBU e = flag_at b 4 1 /\ NMS e = flag_at b 4 2.

(** EGTS_SR_LIQUID_LEVEL_SENSOR *)
Definition liquid_layout (b : bytes) (e : liquid) : Prop :=
  (7 <= length b)%nat /\
  LLSEF e = flag_at b 0 6 /\ LLSVU e = flag_at b 0 5 ++ flag_at b 0 4 /\ RDF e = flag_at b 0 3 /\
  LLSN e = nth 0 b 0 mod 8 /\ MADDR e = num_at b 1 2 /\ LLSD e = num_at b 3 4.

(** EGTS_SR_ABS_CNTR_DATA, EGTS_SR_ABS_AN_SENS_DATA *)
Definition abs_cntr_layout (b : bytes) (e : abs_cntr) : Prop :=
  (4 <= length b)%nat /\ CounterNumber e = nth 0 b 0 /\ CounterValue e = num_at b 1 3.
Definition abs_an_layout (b : bytes) (e : abs_an) : Prop :=
  (4 <= length b)%nat /\ SensorNumber e = nth 0 b 0 /\ Value e = num_at b 1 3.

(** EGTS_SR_DISPATCHER_IDENTITY *)
Definition disp_layout (b : bytes) (e : disp_ident) : Prop :=
  (5 <= length b)%nat /\ DT e = nth 0 b 0 /\ DID e = num_at b 1 4 /\ DSCR e = skipn 5 b.

(** EGTS_SR_AUTH_INFO: strings ended by a zero byte, the third one optional. *)
Definition auth_layout (b : bytes) (e : auth_info) : Prop :=
  nul_free (UNM e) = true /\ nul_free (UPSW e) = true /\ nul_free (SSQ e) = true /\
  ((b = UNM e ++ [0] ++ UPSW e ++ [0] /\ SSQ e = []) \/
   exists rest, b = UNM e ++ [0] ++ UPSW e ++ [0] ++ SSQ e ++ [0] ++ rest).

(** EGTS_SR_TERM_IDENTITY *)
Definition term_layout (b : bytes) (e : term_ident) : Prop :=
  (5 <= length b)%nat /\ TID e = num_at b 0 4 /\
  HDIDE e = flag_at b 4 0 /\ IMEIE e = flag_at b 4 1 /\ IMSIE e = flag_at b 4 2 /\ LNGCE e = flag_at b 4 3 /\
  SSRA e = flag_at b 4 4 /\ NIDE e = flag_at b 4 5 /\ BSE e = flag_at b 4 6 /\ MNE e = flag_at b 4 7 /\
  fields_from b 5 [Num (HDIDE e) 2 (HDID e); Str (IMEIE e) 15 (IMEI e); Str (IMSIE e) 16 (IMSI e);
                   Str (LNGCE e) 3 (LNGC e); Str (NIDE e) 3 (NID e); Num (BSE e) 2 (BS e);
                   Str (MNE e) 15 (MSISDN e)].

(** Eight flags, field i in bit i-1. *)
Definition flags8_at (b : bytes) (off : nat) : oct gostr :=
  mkOct (flag_at b off 0) (flag_at b off 1) (flag_at b off 2) (flag_at b off 3)
        (flag_at b off 4) (flag_at b off 5) (flag_at b off 6) (flag_at b off 7).
Definition fields8 (w : nat) (f : oct gostr) (v : oct N) : list field :=
  [Num (o1 f) w (o1 v); Num (o2 f) w (o2 v); Num (o3 f) w (o3 v); Num (o4 f) w (o4 v);
   Num (o5 f) w (o5 v); Num (o6 f) w (o6 v); Num (o7 f) w (o7 v); Num (o8 f) w (o8 v)].

(** EGTS_SR_COUNTERS_DATA *)
Definition counters_layout (b : bytes) (e : counters) : Prop :=
  b <> [] /\ CFE e = flags8_at b 0 /\ fields_from b 1 (fields8 3 (CFE e) (CN e)).
(** EGTS_SR_AD_SENSORS_DATA *)
Definition ad_layout (b : bytes) (e : ad_sensors) : Prop :=
  (3 <= length b)%nat /\ DIOE e = flags8_at b 0 /\ DOUT e = nth 1 b 0 /\ ASFE e = flags8_at b 2 /\
  fields_from b 3 (fields8 1 (DIOE e) (ADIO e) ++ fields8 3 (ASFE e) (ANS e)).

(** What the bytes [b] of a subrecord of type [t] mean. *)
Definition means (t : N) (b : bytes) (d : srdata) : Prop :=
  match d with
  | SRResp crn rst => t = 0 /\ length b = 3%nat /\ crn = num_at b 0 2 /\ rst = nth 2 b 0
  | SRTerm e => t = 1 /\ term_layout b e
  | SRDisp e => t = 5 /\ disp_layout b e
  | SRAuth e => t = 7 /\ auth_layout b e
  | SRResult c => t = 9 /\ b <> [] /\ c = nth 0 b 0
  | SRPlus m => t = 15 /\ pb_unmarshal b = Some m
  | SRPos e => t = 16 /\ pos_layout b e
  | SRExt e => t = 17 /\ ext_layout b e
  | SRAd e => t = 18 /\ ad_layout b e
  | SRCounters e => t = 19 /\ counters_layout b e /\ o2 (CFE e) = s0
  | SRState e => (t = 21 \/ (t = 20 /\ length b = 5%nat)) /\ state_layout b e
  | SRAbsAn e => t = 24 /\ abs_an_layout b e
  | SRAbsCntr e => t = 25 /\ abs_cntr_layout b e
  | SRLiquid e => t = 27 /\ liquid_layout b e
  | SRNil => False
  end.

(** How many bytes a subrecord of type [t] beginning with [b] takes at least. *)
Definition opt_size (b : bytes) (off : nat) (k : N) (w : nat) : nat :=
  if N.testbit (nth off b 0) k then w else 0%nat.
Definition opt_sizes8 (b : bytes) (off w : nat) : nat :=
  (opt_size b off 0 w + opt_size b off 1 w + opt_size b off 2 w + opt_size b off 3 w +
   opt_size b off 4 w + opt_size b off 5 w + opt_size b off 6 w + opt_size b off 7 w)%nat.
Definition sub_size (t : N) (b : bytes) : option nat :=
  match t with
  | 1 => Some (5 + opt_size b 4 0 2 + opt_size b 4 1 15 + opt_size b 4 2 16 + opt_size b 4 3 3
                 + opt_size b 4 5 3 + opt_size b 4 6 2 + opt_size b 4 7 15)%nat
  | 5 => Some 5%nat
  | 9 => Some 1%nat
  | 16 => Some (21 + opt_size b 12 7 3)%nat
  | 17 => Some (1 + opt_size b 0 0 2 + opt_size b 0 1 2 + opt_size b 0 2 2 + opt_size b 0 3 1
                  + opt_size b 0 4 2)%nat
  | 18 => Some (3 + opt_sizes8 b 0 1 + opt_sizes8 b 2 3)%nat
  | 19 => Some (1 + opt_sizes8 b 0 3)%nat
  | 21 => Some 5%nat
  | 24 => Some 4%nat
  | 25 => Some 4%nat
  | 27 => Some 7%nat
  | _ => None
  end.

(** A sequence of subrecords: type byte, two-byte length, that many bytes. *)
Inductive subs_of : bytes -> list record_data -> Prop :=
| subs_nil : subs_of [] []
| subs_cons t len b rest d l :
    len = blen b -> len < 2 ^ 16 -> means t b d -> subs_of rest l ->
    subs_of ([t] ++ [len mod 256; len / 256] ++ b ++ rest)
            ({| SRT := t; SRL := len; SRD := d |} :: l).

(** A record header [h]: record length, record number, flags, the optional
    fields, source and recipient service. *)
Definition header_layout (h : bytes) (s : sdr) : Prop :=
  RL s = num_at h 0 2 /\ RN s = num_at h 2 2 /\
  SSOD s = flag_at h 4 7 /\ RSOD s = flag_at h 4 6 /\ GRP s = flag_at h 4 5 /\
  RPP s = flag_at h 4 4 ++ flag_at h 4 3 /\
  TMFE s = flag_at h 4 2 /\ EVFE s = flag_at h 4 1 /\ OBFE s = flag_at h 4 0 /\
  fields_from h 5 [Num (OBFE s) 4 (OID s); Num (EVFE s) 4 (EVID s); Num (TMFE s) 4 (TM s);
                   Num s1 1 (SST s); Num s1 1 (RST s)] /\
  length h = (7 + field_size (Num (OBFE s) 4 0%N) + field_size (Num (EVFE s) 4 0%N)
              + field_size (Num (TMFE s) 4 0%N))%nat.

(** A sequence of records: header, then as many bytes of subrecords as the
    header says. *)
Inductive records_of : bytes -> list sdr -> Prop :=
| records_nil : records_of [] []
| records_cons h body rest s l :
    header_layout h s -> RL s = blen body -> subs_of body (RD s) -> records_of rest l ->
    records_of (h ++ body ++ rest) (s :: l).

(** A confirmation packet's frame: packet number, result, records. *)
Definition response_of (b : bytes) (p : pt_response) : Prop :=
  exists lo hi pr rest, b = [lo; hi; pr] ++ rest /\ RPID p = lo + 256 * hi /\ PR p = pr /\
  match SDRS p with None => rest = [] | Some l => rest <> [] /\ records_of rest l end.

(** The frame of a packet of type [pt]. *)
Definition frame_means (pt : N) (b : bytes) (f : frame) : Prop :=
  match f with
  | FSds l => pt = 1 /\ records_of b l
  | FResp p => pt = 0 /\ response_of b p
  end.

(** [b] is one EGTS packet carrying [p]: the header fields are where
    [header_agrees] puts them, the declared lengths are the true ones, the header
    checksum is the CRC-8 of the header bytes before it, the frame is followed by
    its CRC-16, low byte first, and the frame means what [p] holds.  Header
    and frame together are below 2^16 bytes (the standard allows 65535 bytes for
    the whole packet). *)
Definition is_packet (b : bytes) (p : package) : Prop :=
  decl_hl b = std_hl b /\
  length b = (frame_pos b + N.to_nat (decl_fdl b) + 2)%nat /\ blen b < 2 ^ 16 + 2 /\
  header_agrees b p /\
  (routed b = false -> pPRA p = 0 /\ pRCA p = 0 /\ pTTL p = 0) /\
  is_crc 8 poly8 0xFF (firstn (hcs_pos b) b) (byte_at b (hcs_pos b)) /\
  is_crc 16 poly16 0xFFFF (frame_of b) (sfrcs_of b) /\
  exists f, pSFRD p = Some f /\ frame_means (pPT p) (frame_of b) f.

End Layout.
