(** * Records: record_data.go, service_data_records.go, egts_sr_response.go,
    egts_pt_response.go.  No proofs here. *)
From Verif Require Import GoBase Float64 SubRecords.

Section Records.
Context {E : go_env}.

(** The dynamic type and value of a BinaryData interface holding a subrecord
    (const_types.go, binary_data.go).  [SRNil] is the nil interface.  Other
    user-defined implementations of BinaryData are not modelled. *)
Inductive srdata :=
| SRPos (e : pos_data)
| SRTerm (e : term_ident)
| SRResp (crn rst : N)          (* egts_sr_response.go:11-14 *)
| SRResult (code : N)
| SRExt (e : ext_pos)
| SRAd (e : ad_sensors)
| SRState (e : state_data)
| SRLiquid (e : liquid)
| SRAbsCntr (e : abs_cntr)
| SRAuth (e : auth_info)
| SRCounters (e : counters)
| SRPlus (m : pb_msg)
| SRAbsAn (e : abs_an)
| SRDisp (e : disp_ident)
| SRNil.

(** record_data.go:10-14 *)
Record record_data := mkRD { SRT : N; SRL : N; SRD : srdata }.

(** service_data_records.go:11-27 *)
Record sdr := mkSDR {
  RL : N; RN : N;
  SSOD : gostr; RSOD : gostr; GRP : gostr; RPP : gostr;
  TMFE : gostr; EVFE : gostr; OBFE : gostr;
  OID : N; EVID : N; TM : N; SST : N; RST : N;
  RD : list record_data
}.

(** ** Decoding *)

Section RdsLoop.
(** the decoder of one subrecord: SRT, SRL, bytes *)
Variable dec : N -> N -> bytes -> res srdata.

(** record_data.go:25-84.  Every iteration consumes at least the type byte, so
    [fuel] = length of the input suffices. *)
Fixpoint rds_loop (fuel : nat) (r : bytes) : res (list record_data) :=
  match r with
  | [] => Ok []
  | _ :: _ =>
      match fuel with
      | O => Fuel
      | S fuel' =>
          '(t, r) <- read_byte r ;;                        (* :27 *)
          '(lb, r) <- buffer_read (zeros 2) r ;;           (* :31-35 *)
          let len := le_dec lb in
          let '(sub, r) := buffer_next len r in            (* :37 *)
          d <- dec t len sub ;;                            (* :39-82 *)
          l <- rds_loop fuel' r ;;
          Ok ({| SRT := t; SRL := len; SRD := d |} :: l)
      end
  end.
End RdsLoop.

Section SdsLoop.
(** the decoder of a record's data section *)
Variable rdsdec : bytes -> res (list record_data).

(** service_data_records.go:65-87: an optional 4-byte field. *)
Definition opt4 (flag : gostr) (r : bytes) : res (N * bytes) :=
  if is1 flag then '(b, r') <- reader_read (zeros 4) r ;; Ok (le_dec b, r')
  else Ok (0, r).

(** service_data_records.go:41-108: one record. *)
Definition sdr_decode (r : bytes) : res (sdr * bytes) :=
  '(b, r) <- reader_read (zeros 2) r ;;                    (* :43 *)
  let rl := le_dec b in
  '(b, r) <- reader_read b r ;;                            (* :48, same tmpIntBuf *)
  let rn := le_dec b in
  '(flags, r) <- read_byte r ;;                            (* :53 *)
  let fb := fmt_b 8 flags in
  '(oid, r) <- opt4 (fbit 7 fb) r ;;                       (* :65-71 *)
  '(evid, r) <- opt4 (fbit 6 fb) r ;;                      (* :73-79 *)
  '(tm, r) <- opt4 (fbit 5 fb) r ;;                        (* :81-87 *)
  '(sst, r) <- read_byte r ;;                              (* :89 *)
  '(rst, r) <- read_byte r ;;                              (* :93 *)
  '(rd, r) <- match r with                                 (* :97-108 *)
              | [] => Ok ([], [])
              | _ :: _ =>
                  '(rb, r') <- reader_read (zeros (N.to_nat rl)) r ;;
                  rd <- rdsdec rb ;; Ok (rd, r')
              end ;;
  Ok ({| RL := rl; RN := rn;
         SSOD := fbit 0 fb; RSOD := fbit 1 fb; GRP := fbit 2 fb;
         RPP := substr 3 5 fb; TMFE := fbit 5 fb; EVFE := fbit 6 fb;
         OBFE := fbit 7 fb;
         OID := oid; EVID := evid; TM := tm; SST := sst; RST := rst; RD := rd |}, r).

(** service_data_records.go:40-111: every iteration consumes at least one byte. *)
Fixpoint sds_loop (fuel : nat) (r : bytes) : res (list sdr) :=
  match r with
  | [] => Ok []
  | _ :: _ =>
      match fuel with
      | O => Fuel
      | S fuel' =>
          '(s, r) <- sdr_decode r ;;
          l <- sds_loop fuel' r ;;
          Ok (s :: l)
      end
  end.
End SdsLoop.

(** egts_sr_response.go:17-38.  The ServiceDataSet decoded from the rest (:33-36)
    is dropped, but its error is returned. *)
Definition response_decode (sdsdec : bytes -> res (list sdr)) (content : bytes) : res srdata :=
  '(b, r) <- buffer_read (zeros 2) content ;;
  '(st, r) <- read_byte r ;;
  _ <- sdsdec r ;;
  Ok (SRResp (le_dec b) st).

Definition rmap {A B} (f : A -> B) (x : res A) : res B := a <- x ;; Ok (f a).

(** record_data.go:39-82: the type switch and the call of Decode. [depth] bounds
    the nesting of confirmation subrecords. *)
Fixpoint sub_decode (depth : nat) (t len : N) (b : bytes) {struct depth} : res srdata :=
  match depth with
  | O => Fuel
  | S d =>
      let rds := fun rb => rds_loop (sub_decode d) (length rb) rb in
      let sds := fun sb => sds_loop rds (length sb) sb in
      if t =? 16 then rmap SRPos (pos_decode b)
      else if t =? 1 then rmap SRTerm (term_decode b)
      else if t =? 0 then response_decode sds b
      else if t =? 9 then rmap SRResult (result_decode b)
      else if t =? 17 then rmap SRExt (ext_decode b)
      else if t =? 18 then rmap SRAd (ad_decode b)
      else if t =? 20 then
        if len =? 5 then rmap SRState (state_decode b) else Err    (* :52-59 *)
      else if t =? 21 then rmap SRState (state_decode b)
      else if t =? 27 then rmap SRLiquid (liquid_decode b)
      else if t =? 25 then rmap SRAbsCntr (abs_cntr_decode b)
      else if t =? 7 then rmap SRAuth (auth_decode b)
      else if t =? 19 then rmap SRCounters (counters_decode b)
      else if t =? 15 then rmap SRPlus (plus_decode b)
      else if t =? 24 then rmap SRAbsAn (abs_an_decode b)
      else if t =? 5 then rmap SRDisp (disp_decode b)
      else Err                                                     (* :76-77 *)
  end.

(** RecordDataSet.Decode on an empty receiver (record_data.go:20-87), with
    nesting bound [depth]. *)
Definition rds_decode_d (depth : nat) (b : bytes) : res (list record_data) :=
  rds_loop (sub_decode depth) (length b) b.
(** ServiceDataSet.Decode on an empty receiver (service_data_records.go:33-113). *)
Definition sds_decode_d (depth : nat) (b : bytes) : res (list sdr) :=
  sds_loop (rds_decode_d depth) (length b) b.

(** The nesting bound used: proved to be enough for every input. *)
Definition depth_for (b : bytes) : nat := S (S (length b)).

Definition rds_decode (b : bytes) : res (list record_data) := rds_decode_d (depth_for b) b.
Definition sds_decode (b : bytes) : res (list sdr) := sds_decode_d (depth_for b) b.
(** SrResponse.Decode (egts_sr_response.go:17-38) *)
Definition srresp_decode (b : bytes) : res srdata := response_decode sds_decode b.

(** ServiceDataSet.Decode on a receiver that already holds [s]
    (service_data_records.go:110 appends). *)
Definition sds_decode_into (s : list sdr) (b : bytes) : res (list sdr) :=
  l <- sds_decode b ;; Ok (s ++ l).

(** egts_pt_response.go:10-14.  SDR is a BinaryData: nil or a ServiceDataSet. *)
Record pt_response := mkPtR { RPID : N; PR : N; SDRS : option (list sdr) }.

(** egts_pt_response.go:17-42, fresh receiver *)
Definition ptr_decode (content : bytes) : res pt_response :=
  '(b, r) <- buffer_read (zeros 2) content ;;
  '(pr, r) <- read_byte r ;;
  match r with
  | [] => Ok {| RPID := le_dec b; PR := pr; SDRS := None |}
  | _ :: _ => s <- sds_decode r ;; Ok {| RPID := le_dec b; PR := pr; SDRS := Some s |}
  end.

(** ** Encoding *)

(** egts_sr_response.go:41-58 *)
Definition srresp_encode (crn rst : N) : res bytes := Ok (le_enc 2 crn ++ [rst]).

(** The dynamic dispatch of BinaryData.Encode; a nil interface panics. *)
Definition sr_encode (d : srdata) : res bytes :=
  match d with
  | SRPos e => pos_encode e
  | SRTerm e => term_encode e
  | SRResp c s => srresp_encode c s
  | SRResult c => result_encode c
  | SRExt e => ext_encode e
  | SRAd e => ad_encode e
  | SRState e => state_encode e
  | SRLiquid e => liquid_encode e
  | SRAbsCntr e => abs_cntr_encode e
  | SRAuth e => auth_encode e
  | SRCounters e => counters_encode e
  | SRPlus m => plus_encode m
  | SRAbsAn e => abs_an_encode e
  | SRDisp e => disp_encode e
  | SRNil => Panic
  end.

(** The Length methods (each egts_sr_*.go, last function): the length of
    Encode() as uint16, 0 on error; egts_sr_abs_an_sensors_data.go:36 is the
    constant 4. *)
Definition sr_length (d : srdata) : res N :=
  match d with
  | SRAbsAn _ => Ok 4
  | _ => length_of (sr_encode d)
  end.

(** record_data.go:98-129: the type code inferred from the dynamic type.
    SrDispatcherIdentity is not in the switch. *)
Definition infer_type (d : srdata) : res N :=
  match d with
  | SRPos _ => Ok 16
  | SRTerm _ => Ok 1
  | SRResp _ _ => Ok 0
  | SRResult _ => Ok 9
  | SRExt _ => Ok 17
  | SRAd _ => Ok 18
  | SRState _ => Ok 21
  | SRLiquid _ => Ok 27
  | SRAbsCntr _ => Ok 25
  | SRAuth _ => Ok 7
  | SRCounters _ => Ok 19
  | SRPlus _ => Ok 15
  | SRAbsAn _ => Ok 24
  | SRDisp _ | SRNil => Err
  end.

(** record_data.go:97-147: one subrecord. [rd] is a copy, so the lengths filled
    in are not stored back. *)
Definition rd_encode (rd : record_data) : res bytes :=
  t <- (if SRT rd =? 0 then infer_type (SRD rd) else Ok (SRT rd)) ;;
  len <- (if SRL rd =? 0 then sr_length (SRD rd) else Ok (SRL rd)) ;;
  b <- sr_encode (SRD rd) ;;
  Ok ([t] ++ le_enc 2 len ++ b).

(** record_data.go:90-152 *)
Fixpoint rds_encode (l : list record_data) : res bytes :=
  match l with
  | [] => Ok []
  | rd :: l' => b <- rd_encode rd ;; b' <- rds_encode l' ;; Ok (b ++ b')
  end.
(** record_data.go:155-165 *)
Definition rds_length (l : list record_data) : res N := length_of (rds_encode l).

(** service_data_records.go:124-178: one record ([sdr] is a copy). *)
Definition sdr_encode (s : sdr) : res bytes :=
  rd <- rds_encode (RD s) ;;
  let rl := if RL s =? 0 then u16 (blen rd) else RL s in
  flags <- parse8 (SSOD s ++ RSOD s ++ GRP s ++ RPP s ++ TMFE s ++ EVFE s ++ OBFE s) ;;
  Ok (le_enc 2 rl ++ le_enc 2 (RN s) ++ [flags]
      ++ opt_w (OBFE s) (le_enc 4 (OID s))
      ++ opt_w (EVFE s) (le_enc 4 (EVID s))
      ++ opt_w (TMFE s) (le_enc 4 (TM s))
      ++ [SST s] ++ [RST s] ++ rd).

(** service_data_records.go:116-183 *)
Fixpoint sds_encode (l : list sdr) : res bytes :=
  match l with
  | [] => Ok []
  | s :: l' => b <- sdr_encode s ;; b' <- sds_encode l' ;; Ok (b ++ b')
  end.
(** service_data_records.go:186-196 *)
Definition sds_length (l : list sdr) : res N := length_of (sds_encode l).

(** egts_pt_response.go:45-70 *)
Definition ptr_encode (p : pt_response) : res bytes :=
  s <- match SDRS p with Some l => sds_encode l | None => Ok [] end ;;
  Ok (le_enc 2 (RPID p) ++ [PR p] ++ s).
(** egts_pt_response.go:73-83 *)
Definition ptr_length (p : pt_response) : res N := length_of (ptr_encode p).

End Records.
