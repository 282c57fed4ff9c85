(** * Spec_Given: packages that come back from the wire as they were given. *)
From Verif Require Import GoBase Crc Float64 SubRecords Records Package Spec_Bits Spec_Wf Spec_Rec Spec_Pkg Spec_Flags Spec_Verdict.

Section SpecGiven.
Context {E : go_env}.

(** The subrecord's header is right or left to Encode: its type code (0 cannot
    be left for the dispatcher identity) and its length, below 2^16. *)
Definition headed_rd (rd : record_data) : Prop :=
  (SRT rd = type_of (SRD rd) \/ (SRT rd = 0 /\ match SRD rd with SRDisp _ => False | _ => True end)) /\
  exists b, sr_encode (SRD rd) = Ok b /\ blen b < 2 ^ 16 /\ (SRL rd = 0 \/ SRL rd = blen b).
(** [rd'] is [rd] with its header filled in. *)
Definition completed_rd (rd rd' : record_data) : Prop :=
  SRD rd' = SRD rd /\ SRT rd' = type_of (SRD rd) /\
  exists b, sr_encode (SRD rd) = Ok b /\ SRL rd' = blen b.

(** A record: the numbers fit their Go types, the length is right or left 0. *)
Definition headed_sdr (s : sdr) : Prop :=
  RN s < 2 ^ 16 /\ SST s < 256 /\ RST s < 256 /\ OID s < 2 ^ 32 /\ EVID s < 2 ^ 32 /\ TM s < 2 ^ 32 /\
  Forall headed_rd (RD s) /\
  exists b, rds_encode (RD s) = Ok b /\ blen b < 2 ^ 16 /\ (RL s = 0 \/ RL s = blen b).
Definition completed_sdr (s s' : sdr) : Prop :=
  RN s' = RN s /\ sdr_flag_strings s' = sdr_flag_strings s /\
  OID s' = OID s /\ EVID s' = EVID s /\ TM s' = TM s /\ SST s' = SST s /\ RST s' = RST s /\
  Forall2 completed_rd (RD s) (RD s') /\
  exists b, rds_encode (RD s) = Ok b /\ RL s' = blen b.
(** What it takes: flag strings of the documented widths, a number that the
    flags announce as absent is 0, every subrecord survives (C117). *)
Definition returns_sdr (s : sdr) : Prop :=
  documented_widths sdr_widths (sdr_flag_strings s) /\
  (OBFE s = s0 -> OID s = 0) /\ (EVFE s = s0 -> EVID s = 0) /\ (TMFE s = s0 -> TM s = 0) /\
  Forall (fun rd => survives (SRD rd)) (RD s).

Definition headed_frame (f : frame) : Prop :=
  match f with
  | FSds l => Forall headed_sdr l
  | FResp p => RPID p < 2 ^ 16 /\ PR p < 256 /\ match SDRS p with Some l => Forall headed_sdr l | None => True end
  end.
Definition completed_frame (f f' : frame) : Prop :=
  match f, f' with
  | FSds l, FSds l' => Forall2 completed_sdr l l'
  | FResp p, FResp p' => RPID p' = RPID p /\ PR p' = PR p /\
      match SDRS p, SDRS p' with
      | None, None => True
      | Some l, Some l' => Forall2 completed_sdr l l'
      | _, _ => False
      end
  | _, _ => False
  end.
(** An empty record set in a response is written as none at all. *)
Definition returns_frame (f : frame) : Prop :=
  match f with
  | FSds l => Forall returns_sdr l
  | FResp p => match SDRS p with Some l => l <> [] /\ Forall returns_sdr l | None => True end
  end.

(** [p'] is [p] with the lengths and checksums filled in. *)
Definition completed_pkg (p p' : package) : Prop :=
  pPRV p' = pPRV p /\ pSKID p' = pSKID p /\ pPRF p' = pPRF p /\ pRTE p' = pRTE p /\
  pENA p' = pENA p /\ pCMP p' = pCMP p /\ pPR p' = pPR p /\ pHE p' = pHE p /\
  pPID p' = pPID p /\ pPT p' = pPT p /\ pPRA p' = pPRA p /\ pRCA p' = pRCA p /\ pTTL p' = pTTL p /\
  exists f f', pSFRD p = Some f /\ pSFRD p' = Some f' /\ completed_frame f f'.
(** What it takes: without routing the three routing fields are 0; the frame is
    of the announced type, not empty, fits, and comes back. *)
Definition returns_pkg (p : package) : Prop :=
  (pRTE p = s0 -> pPRA p = 0 /\ pRCA p = 0 /\ pTTL p = 0) /\
  exists f body, pSFRD p = Some f /\ frame_encode (Some f) = Ok body /\ pPT p = frame_type f /\
    body <> [] /\ blen body + (if is1 (pRTE p) then 16 else 11) < 2 ^ 16 /\ returns_frame f.

End SpecGiven.
