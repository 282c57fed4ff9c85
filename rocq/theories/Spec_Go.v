(** * Spec_Go: values of the Go types: what the type system guarantees of any
    struct (bytes below 256, strings of bytes).  Only the fields that the
    encoders write as single bytes or copy verbatim matter here. *)
From Verif Require Import GoBase Float64 SubRecords Records Package Spec_Bits.

Section Go.
Context {E : go_env}.

Definition go_oct (o : oct N) : bool :=
  byte_ok (o1 o) && byte_ok (o2 o) && byte_ok (o3 o) && byte_ok (o4 o)
  && byte_ok (o5 o) && byte_ok (o6 o) && byte_ok (o7 o) && byte_ok (o8 o).

Definition go_sr (d : srdata) : Prop :=
  match d with
  | SRPos e => byte_ok (Direction e) && byte_ok (DigitalInputs e) && byte_ok (Source e) = true
  | SRTerm e => bytes_ok (IMEI e) && bytes_ok (IMSI e) && bytes_ok (LNGC e) && bytes_ok (NID e)
                && bytes_ok (MSISDN e) = true
  | SRResp _ rst => byte_ok rst = true
  | SRResult c => byte_ok c = true
  | SRExt e => byte_ok (SAT e) = true
  | SRAd e => byte_ok (DOUT e) && go_oct (ADIO e) = true
  | SRState e => byte_ok (State e) && byte_ok (MPSV e) && byte_ok (BBV e) && byte_ok (IBV e) = true
  | SRLiquid _ => True
  | SRAbsCntr e => byte_ok (CounterNumber e) = true
  | SRAuth e => bytes_ok (UNM e) && bytes_ok (UPSW e) && bytes_ok (SSQ e) = true
  | SRCounters _ => True
  | SRPlus m => forall b, pb_marshal m = Some b -> bytes_ok b = true
  | SRAbsAn _ => True
  | SRDisp e => byte_ok (DT e) && bytes_ok (DSCR e) = true
  | SRNil => True
  end.
Definition go_rd (rd : record_data) : Prop := byte_ok (SRT rd) = true /\ go_sr (SRD rd).
Definition go_sdr (s : sdr) : Prop :=
  byte_ok (SST s) = true /\ byte_ok (RST s) = true /\ Forall go_rd (RD s).
Definition go_frame (f : frame) : Prop :=
  match f with
  | FSds l => Forall go_sdr l
  | FResp p => byte_ok (PR p) = true /\ match SDRS p with None => True | Some l => Forall go_sdr l end
  end.
Definition go_pkg (p : package) : Prop :=
  byte_ok (pPRV p) = true /\ byte_ok (pSKID p) = true /\ byte_ok (pHL p) = true /\ byte_ok (pHE p) = true /\
  byte_ok (pPT p) = true /\ byte_ok (pTTL p) = true /\
  match pSFRD p with None => True | Some f => go_frame f end.
(** Whatever the protobuf library parsed, it can marshal. *)
Definition pb_total : Prop :=
  forall b m, bytes_ok b = true -> pb_unmarshal b = Some m -> exists b', pb_marshal m = Some b'.

(** The protobuf library marshals to bytes. *)
Definition pb_bytes : Prop := forall m b, pb_marshal m = Some b -> bytes_ok b = true.

End Go.
