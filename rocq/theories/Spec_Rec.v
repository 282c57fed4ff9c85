(** * Spec_Rec: well-formed records, responses and packages, and what a round
    trip is expected to fill in. *)
From Verif Require Import GoBase Float64 SubRecords Records Package Spec_Bits Spec_Wf.

Section SpecRec.
Context {E : go_env}.

(** A well-formed subrecord entry: the value is well formed; the type code is
    its EGTS code or left 0 (not for the dispatcher identity, whose code the
    encoder cannot infer) or, for state data, the legacy 20; the length is the
    true one, below 2^16, or left 0. *)
Definition wf_rd (rd : record_data) : Prop :=
  wf_sr (SRD rd) /\
  (SRT rd = type_of (SRD rd)
   \/ (SRT rd = 0 /\ match SRD rd with SRDisp _ => False | _ => True end)
   \/ (SRT rd = 20 /\ match SRD rd with SRState _ => True | _ => False end)) /\
  exists b, sr_encode (SRD rd) = Ok b /\ blen b < 2 ^ 16 /\ (SRL rd = 0 \/ SRL rd = blen b).

(** [rd'] is [rd] with type and length filled in and positions quantised. *)
Definition filled_rd (rd rd' : record_data) : Prop :=
  SRT rd' = (if SRT rd =? 0 then type_of (SRD rd) else SRT rd) /\
  SRD rd' = quant_sr (SRD rd) /\
  exists b, sr_encode (SRD rd) = Ok b /\ SRL rd' = blen b.

Definition wf_sdr (s : sdr) : Prop :=
  RN s < 2 ^ 16 /\ SST s < 256 /\ RST s < 256 /\
  bits_ok 1 (SSOD s) = true /\ bits_ok 1 (RSOD s) = true /\ bits_ok 1 (GRP s) = true /\
  bits_ok 2 (RPP s) = true /\
  opt_num 4 (TMFE s) (TM s) = true /\ opt_num 4 (EVFE s) (EVID s) = true /\
  opt_num 4 (OBFE s) (OID s) = true /\
  Forall wf_rd (RD s) /\
  exists b, rds_encode (RD s) = Ok b /\ blen b < 2 ^ 16 /\ (RL s = 0 \/ RL s = blen b).

(** Every field of the record is kept, the record length is the true one, the
    subrecords are kept with their headers filled in. *)
Definition filled_sdr (s s' : sdr) : Prop :=
  RN s' = RN s /\ SSOD s' = SSOD s /\ RSOD s' = RSOD s /\ GRP s' = GRP s /\ RPP s' = RPP s /\
  TMFE s' = TMFE s /\ EVFE s' = EVFE s /\ OBFE s' = OBFE s /\
  OID s' = OID s /\ EVID s' = EVID s /\ TM s' = TM s /\ SST s' = SST s /\ RST s' = RST s /\
  Forall2 filled_rd (RD s) (RD s') /\
  exists b, rds_encode (RD s) = Ok b /\ RL s' = blen b.

Definition wf_ptr (p : pt_response) : Prop :=
  RPID p < 2 ^ 16 /\ PR p < 256 /\
  match SDRS p with None => True | Some l => l <> [] /\ Forall wf_sdr l end.
Definition filled_ptr (p p' : pt_response) : Prop :=
  RPID p' = RPID p /\ PR p' = PR p /\
  match SDRS p, SDRS p' with
  | None, None => True
  | Some l, Some l' => Forall2 filled_sdr l l'
  | _, _ => False
  end.

Definition wf_frame (f : frame) : Prop :=
  match f with FSds l => Forall wf_sdr l | FResp p => wf_ptr p end.
Definition filled_frame (f f' : frame) : Prop :=
  match f, f' with
  | FSds l, FSds l' => Forall2 filled_sdr l l'
  | FResp p, FResp p' => filled_ptr p p'
  | _, _ => False
  end.
Definition frame_type (f : frame) : N := match f with FSds _ => 1 | FResp _ => 0 end.

(** A package that can be sent: flag strings of the documented widths, fields
    in range, a non-empty frame of the declared type whose body and header
    together stay below 2^16. *)
Definition wf_pkg (p : package) : Prop :=
  pPRV p < 256 /\ pSKID p < 256 /\
  bits_ok 2 (pPRF p) = true /\ bits_ok 1 (pRTE p) = true /\ bits_ok 2 (pENA p) = true /\
  bits_ok 1 (pCMP p) = true /\ bits_ok 2 (pPR p) = true /\
  pHE p < 256 /\ pPID p < 2 ^ 16 /\
  (pHL p = 0 \/ pHL p = (if is1 (pRTE p) then 16 else 11)) /\
  (if is1 (pRTE p) then pPRA p < 2 ^ 16 /\ pRCA p < 2 ^ 16 /\ pTTL p < 256
   else pPRA p = 0 /\ pRCA p = 0 /\ pTTL p = 0) /\
  exists f, pSFRD p = Some f /\ wf_frame f /\ pPT p = frame_type f /\
    exists body, frame_encode (Some f) = Ok body /\ body <> [] /\
      blen body + (if is1 (pRTE p) then 16 else 11) < 2 ^ 16.
(** The widest last field of each subrecord, minus one: how many bytes of it can
    be missing without the decoder noticing. *)
Definition slack (d : srdata) : nat :=
  match d with
  | SRPos _ => 2 | SRTerm _ => 15 | SRExt _ => 1 | SRAd _ => 2 | SRCounters _ => 2
  | SRLiquid _ => 3 | SRAbsCntr _ => 2 | SRDisp _ => 3
  | _ => 0
  end.

(** Length() against Encode(): the number of bytes modulo 2^16, 0 on error, and
    the same panic on a nil subrecord. *)
Definition length_matches (enc : res bytes) (len : res N) : Prop :=
  match enc with
  | Ok b => len = Ok (blen b mod 2 ^ 16)
  | Err => len = Ok 0
  | Panic => len = Panic
  | Fuel => False
  end.
(** No subrecord is the nil interface. *)
Definition no_nil_rd (rd : record_data) : Prop := SRD rd <> SRNil.
Definition no_nil_sdr (s : sdr) : Prop := Forall no_nil_rd (RD s).

(** A complete record header declaring [rl] bytes of subrecords: RL, RN, flags,
    the optional fields announced by flag bits 0, 1 and 2 (object id, event id,
    time), source and recipient service. *)
Definition record_header (h : bytes) (rl : N) : Prop :=
  exists rn fl opts sst rst,
    h = le_enc 2 rl ++ le_enc 2 rn ++ [fl] ++ opts ++ [sst; rst] /\
    rl < 2 ^ 16 /\ fl < 256 /\
    length opts = ((if N.testbit fl 0 then 4 else 0) + (if N.testbit fl 1 then 4 else 0)
                   + (if N.testbit fl 2 then 4 else 0))%nat.

(** Positions whose time and coordinates are already on the wire grid: encoding
    the quantised value gives the same wire numbers. *)
Definition stable_pos (e : pos_data) : Prop :=
  time_encode (NavigationTime (quant_pos e)) = time_encode (NavigationTime e) /\
  coord_encode 90 (Latitude (quant_pos e)) = coord_encode 90 (Latitude e) /\
  coord_encode 180 (Longitude (quant_pos e)) = coord_encode 180 (Longitude e).

Definition stable_sr (d : srdata) : Prop := match d with SRPos e => stable_pos e | _ => True end.

Definition stable_sdr (s : sdr) : Prop := Forall (fun rd => stable_sr (SRD rd)) (RD s).

Definition stable_frame (f : frame) : Prop :=
  match f with
  | FSds l => Forall stable_sdr l
  | FResp p => match SDRS p with None => True | Some l => Forall stable_sdr l end
  end.

End SpecRec.
