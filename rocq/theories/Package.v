(** * Package: libs/egts/egts_pkg.go.  No proofs here. *)
From Verif Require Import GoBase Crc Float64 SubRecords Records.

Section Package.
Context {E : go_env}.

(** The dynamic type and value of Package.ServicesFrameData; [None] is nil.
    Other implementations of BinaryData are not modelled. *)
Inductive frame :=
| FSds (l : list sdr)
| FResp (p : pt_response).

(** egts_pkg.go:14-33 *)
Record package := mkPkg {
  pPRV : N;
  pSKID : N;
  pPRF : gostr;
  pRTE : gostr;
  pENA : gostr;
  pCMP : gostr;
  pPR : gostr;
  pHL : N;
  pHE : N;
  pFDL : N;
  pPID : N;
  pPT : N;
  pPRA : N;
  pRCA : N;
  pTTL : N;
  pHCS : N;
  pSFRD : option frame;
  pSFRCS : N
}.

(** Package{} *)
Definition pkg0 : package :=
  {| pPRV := 0;
     pSKID := 0;
     pPRF := [];
     pRTE := [];
     pENA := [];
     pCMP := [];
     pPR := [];
     pHL := 0;
     pHE := 0;
     pFDL := 0;
     pPID := 0;
     pPT := 0;
     pPRA := 0;
     pRCA := 0;
     pTTL := 0;
     pHCS := 0;
     pSFRD := None;
     pSFRCS := 0 |}.

(** Field assignments p.X = v. *)
Definition set_PRV (v : N) (p : package) : package :=
  mkPkg v (pSKID p) (pPRF p) (pRTE p) (pENA p) (pCMP p) (pPR p) (pHL p) (pHE p) (pFDL p) (pPID p) (pPT p) (pPRA p) (pRCA p) (pTTL p) (pHCS p) (pSFRD p) (pSFRCS p).
Definition set_SKID (v : N) (p : package) : package :=
  mkPkg (pPRV p) v (pPRF p) (pRTE p) (pENA p) (pCMP p) (pPR p) (pHL p) (pHE p) (pFDL p) (pPID p) (pPT p) (pPRA p) (pRCA p) (pTTL p) (pHCS p) (pSFRD p) (pSFRCS p).
Definition set_PRF (v : gostr) (p : package) : package :=
  mkPkg (pPRV p) (pSKID p) v (pRTE p) (pENA p) (pCMP p) (pPR p) (pHL p) (pHE p) (pFDL p) (pPID p) (pPT p) (pPRA p) (pRCA p) (pTTL p) (pHCS p) (pSFRD p) (pSFRCS p).
Definition set_RTE (v : gostr) (p : package) : package :=
  mkPkg (pPRV p) (pSKID p) (pPRF p) v (pENA p) (pCMP p) (pPR p) (pHL p) (pHE p) (pFDL p) (pPID p) (pPT p) (pPRA p) (pRCA p) (pTTL p) (pHCS p) (pSFRD p) (pSFRCS p).
Definition set_ENA (v : gostr) (p : package) : package :=
  mkPkg (pPRV p) (pSKID p) (pPRF p) (pRTE p) v (pCMP p) (pPR p) (pHL p) (pHE p) (pFDL p) (pPID p) (pPT p) (pPRA p) (pRCA p) (pTTL p) (pHCS p) (pSFRD p) (pSFRCS p).
Definition set_CMP (v : gostr) (p : package) : package :=
  mkPkg (pPRV p) (pSKID p) (pPRF p) (pRTE p) (pENA p) v (pPR p) (pHL p) (pHE p) (pFDL p) (pPID p) (pPT p) (pPRA p) (pRCA p) (pTTL p) (pHCS p) (pSFRD p) (pSFRCS p).
Definition set_PR (v : gostr) (p : package) : package :=
  mkPkg (pPRV p) (pSKID p) (pPRF p) (pRTE p) (pENA p) (pCMP p) v (pHL p) (pHE p) (pFDL p) (pPID p) (pPT p) (pPRA p) (pRCA p) (pTTL p) (pHCS p) (pSFRD p) (pSFRCS p).
Definition set_HL (v : N) (p : package) : package :=
  mkPkg (pPRV p) (pSKID p) (pPRF p) (pRTE p) (pENA p) (pCMP p) (pPR p) v (pHE p) (pFDL p) (pPID p) (pPT p) (pPRA p) (pRCA p) (pTTL p) (pHCS p) (pSFRD p) (pSFRCS p).
Definition set_HE (v : N) (p : package) : package :=
  mkPkg (pPRV p) (pSKID p) (pPRF p) (pRTE p) (pENA p) (pCMP p) (pPR p) (pHL p) v (pFDL p) (pPID p) (pPT p) (pPRA p) (pRCA p) (pTTL p) (pHCS p) (pSFRD p) (pSFRCS p).
Definition set_FDL (v : N) (p : package) : package :=
  mkPkg (pPRV p) (pSKID p) (pPRF p) (pRTE p) (pENA p) (pCMP p) (pPR p) (pHL p) (pHE p) v (pPID p) (pPT p) (pPRA p) (pRCA p) (pTTL p) (pHCS p) (pSFRD p) (pSFRCS p).
Definition set_PID (v : N) (p : package) : package :=
  mkPkg (pPRV p) (pSKID p) (pPRF p) (pRTE p) (pENA p) (pCMP p) (pPR p) (pHL p) (pHE p) (pFDL p) v (pPT p) (pPRA p) (pRCA p) (pTTL p) (pHCS p) (pSFRD p) (pSFRCS p).
Definition set_PT (v : N) (p : package) : package :=
  mkPkg (pPRV p) (pSKID p) (pPRF p) (pRTE p) (pENA p) (pCMP p) (pPR p) (pHL p) (pHE p) (pFDL p) (pPID p) v (pPRA p) (pRCA p) (pTTL p) (pHCS p) (pSFRD p) (pSFRCS p).
Definition set_PRA (v : N) (p : package) : package :=
  mkPkg (pPRV p) (pSKID p) (pPRF p) (pRTE p) (pENA p) (pCMP p) (pPR p) (pHL p) (pHE p) (pFDL p) (pPID p) (pPT p) v (pRCA p) (pTTL p) (pHCS p) (pSFRD p) (pSFRCS p).
Definition set_RCA (v : N) (p : package) : package :=
  mkPkg (pPRV p) (pSKID p) (pPRF p) (pRTE p) (pENA p) (pCMP p) (pPR p) (pHL p) (pHE p) (pFDL p) (pPID p) (pPT p) (pPRA p) v (pTTL p) (pHCS p) (pSFRD p) (pSFRCS p).
Definition set_TTL (v : N) (p : package) : package :=
  mkPkg (pPRV p) (pSKID p) (pPRF p) (pRTE p) (pENA p) (pCMP p) (pPR p) (pHL p) (pHE p) (pFDL p) (pPID p) (pPT p) (pPRA p) (pRCA p) v (pHCS p) (pSFRD p) (pSFRCS p).
Definition set_HCS (v : N) (p : package) : package :=
  mkPkg (pPRV p) (pSKID p) (pPRF p) (pRTE p) (pENA p) (pCMP p) (pPR p) (pHL p) (pHE p) (pFDL p) (pPID p) (pPT p) (pPRA p) (pRCA p) (pTTL p) v (pSFRD p) (pSFRCS p).
Definition set_SFRD (v : option frame) (p : package) : package :=
  mkPkg (pPRV p) (pSKID p) (pPRF p) (pRTE p) (pENA p) (pCMP p) (pPR p) (pHL p) (pHE p) (pFDL p) (pPID p) (pPT p) (pPRA p) (pRCA p) (pTTL p) (pHCS p) v (pSFRCS p).
Definition set_SFRCS (v : N) (p : package) : package :=
  mkPkg (pPRV p) (pSKID p) (pPRF p) (pRTE p) (pENA p) (pCMP p) (pPR p) (pHL p) (pHE p) (pFDL p) (pPID p) (pPT p) (pPRA p) (pRCA p) (pTTL p) (pHCS p) (pSFRD p) v.

(** What Package.Decode does: return (code, err != nil), or panic. *)
Inductive dec_out :=
| DRet (code : N) (err : bool)
| DPanic
| DFuel.

(** errors.go *)
Definition pcOk : N := 0.
Definition pcDecryptError : N := 129.
Definition pcIncHeaderform : N := 131.
Definition pcIncDataform : N := 132.
Definition pcUnsType : N := 133.
Definition pcHeaderCrcError : N := 137.
Definition pcDataCrcError : N := 138.

(** const_types.go:58-61 *)
Definition PtResponsePacket : N := 0.
Definition PtAppdataPacket : N := 1.

(** Continue with the value of a fallible step, or return (p, code, err). *)
Definition stepP {A} (x : res A) (p : package) (code : N)
    (k : A -> package * dec_out) : package * dec_out :=
  match x with
  | Ok a => k a
  | Err => (p, DRet code true)
  | Panic => (p, DPanic)
  | Fuel => (p, DFuel)
  end.

(** The assignment `p.X, err = buf.ReadByte()` stores 0 on error. *)
Definition byteP (r : bytes) (set : N -> package -> package) (p : package) (code : N)
    (k : package -> bytes -> package * dec_out) : package * dec_out :=
  match r with
  | [] => (set 0 p, DRet code true)
  | b :: r' => k (set b p) r'
  end.

(** egts_pkg.go:54-59 *)
Definition set_flags (flags : N) (p : package) : package :=
  let fb := fmt_b 8 flags in
  set_PR (skipn 6 fb) (set_CMP (fbit 5 fb) (set_ENA (substr 3 5 fb)
    (set_RTE (fbit 2 fb) (set_PRF (substr 0 2 fb) p)))).

(** egts_pkg.go:112-125: choose the frame type and decode it.  The field is
    assigned before decoding; on a decoding error it holds a partial value,
    which is modelled by the empty frame of that type. *)
Definition frame_decode (pt : N) (b : bytes) : res frame :=
  if pt =? PtAppdataPacket then rmap FSds (sds_decode b)
  else rmap FResp (ptr_decode b).
Definition frame_empty (pt : N) : frame :=
  if pt =? PtAppdataPacket then FSds [] else FResp {| RPID := 0; PR := 0; SDRS := None |}.

(** egts_pkg.go:108-136: body.  [tmp] part of the reader state is [r]. *)
Definition decode_body (content : slice) (p : package) (r : bytes) : package * dec_out :=
  stepP (reader_read (zeros (N.to_nat (pFDL p))) r) p pcIncDataform (fun x =>   (* :108-111 *)
  let '(fb, r) := x in
  if negb ((pPT p =? PtAppdataPacket) || (pPT p =? PtResponsePacket))
  then (p, DRet pcUnsType true)                                                 (* :119-120 *)
  else
  let p := set_SFRD (Some (frame_empty (pPT p))) p in
  stepP (frame_decode (pPT p) fb) p pcDecryptError (fun f =>                    (* :123-125 *)
  let p := set_SFRD (Some f) p in
  stepP (reader_read (zeros 2) r) p pcDecryptError (fun x =>                    (* :127-130 *)
  let p := set_SFRCS (le_dec (fst x)) p in                                      (* :131 *)
  (* :133: content[HL : uint16(HL)+FDL], the bound is computed in uint16 *)
  stepP (reslice content (pHL p) (u16 (pHL p + pFDL p))) p pcHeaderCrcError (fun body =>
  if pSFRCS p =? crc16 body then (p, DRet pcOk false)                           (* :136 *)
  else (p, DRet pcHeaderCrcError true))))).                                     (* :134 *)

(** egts_pkg.go:100-106: header checksum; HL-1 is computed in a byte. *)
Definition decode_hcs (content : slice) (p : package) (r : bytes) : package * dec_out :=
  byteP r set_HCS p pcIncHeaderform (fun p r =>
  stepP (reslice content 0 (u8 (pHL p + 255))) p pcHeaderCrcError (fun h =>
  if pHCS p =? crc8 h then decode_body content p r
  else (p, DRet pcHeaderCrcError true))).

(** egts_pkg.go:36-137: p.Decode(content). *)
Definition pkg_decode (p : package) (content : slice) : package * dec_out :=
  let err := pcIncHeaderform in
  let r := sl_data content in
  byteP r set_PRV p err (fun p r =>                              (* :42 *)
  byteP r set_SKID p err (fun p r =>                             (* :46 *)
  stepP (read_byte r) p err (fun x => let '(flags, r) := x in    (* :51 *)
  let p := set_flags flags p in
  byteP r set_HL p err (fun p r =>                               (* :61 *)
  byteP r set_HE p err (fun p r =>                               (* :65 *)
  stepP (reader_read (zeros 2) r) p err (fun x =>                (* :69-73 *)
  let '(tmp, r) := x in
  let p := set_FDL (le_dec tmp) p in
  stepP (reader_read tmp r) p err (fun x =>                      (* :75-78 *)
  let '(tmp, r) := x in
  let p := set_PID (le_dec tmp) p in
  byteP r set_PT p err (fun p r =>                               (* :80 *)
  if is1 (pRTE p) then                                           (* :84-98 *)
    stepP (reader_read tmp r) p err (fun x =>
    let '(tmp, r) := x in
    let p := set_PRA (le_dec tmp) p in
    stepP (reader_read tmp r) p err (fun x =>
    let '(tmp, r) := x in
    let p := set_RCA (le_dec tmp) p in
    byteP r set_TTL p err (fun p r => decode_hcs content p r)))
  else decode_hcs content p r)))))))).

(** ** Encode *)

(** egts_pkg.go:180-186 *)
Definition frame_encode (f : option frame) : res bytes :=
  match f with
  | None => Ok []
  | Some (FSds l) => sds_encode l
  | Some (FResp p) => ptr_encode p
  end.

(** egts_pkg.go:140-225: the package after the call (HeaderLength and
    FrameDataLength are assigned) and the bytes. *)
Definition pkg_encode (p : package) : package * res bytes :=
  match parse8 (pPRF p ++ pRTE p ++ pENA p ++ pCMP p ++ pPR p) with   (* :156-159 *)
  | Ok flags =>
      let hl := if pHL p =? 0
                then if is1 (pRTE p) then 16 else 11                   (* :165-170 *)
                else pHL p in
      let p := set_HL hl p in
      match frame_encode (pSFRD p) with                                (* :180-186 *)
      | Ok sfrd =>
          let p := set_FDL (u16 (blen sfrd)) p in                      (* :187 *)
          let hdr := [pPRV p] ++ [pSKID p] ++ [flags] ++ [hl] ++ [pHE p]
                     ++ le_enc 2 (pFDL p) ++ le_enc 2 (pPID p) ++ [pPT p]
                     ++ (if is1 (pRTE p)                               (* :200-212 *)
                         then le_enc 2 (pPRA p) ++ le_enc 2 (pRCA p) ++ [pTTL p]
                         else []) in
          let hdr := hdr ++ [crc8 hdr] in                              (* :214 *)
          let body := if 0 <? pFDL p                                   (* :216-221 *)
                      then sfrd ++ le_enc 2 (crc16 sfrd) else [] in
          (p, Ok (hdr ++ body))
      | Err => (p, Err)
      | Panic => (p, Panic)
      | Fuel => (p, Fuel)
      end
  | Err => (p, Err)
  | Panic => (p, Panic)
  | Fuel => (p, Fuel)
  end.

End Package.
