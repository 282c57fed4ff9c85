(** * Spec_Log: the operator's view of the receiver. *)
From Verif Require Import GoBase Crc Float64 SubRecords Records Package Storage Server Config Logbook
  Spec_Bits Spec_Wf Spec_Rec Spec_Pkg Spec_Server Spec_Stream.

Section SpecLog.
Context {E : go_env}.

(** What was done, without the log; and the log without what was done. *)
Definition acts_of (ds : list doing) : list action :=
  flat_map (fun d => match d with DoAct a => [a] | DoLog _ => [] end) ds.
Definition lines_of (ds : list doing) : list line :=
  flat_map (fun d => match d with DoLog l => [l] | DoAct _ => [] end) ds.
(** The lines that appear when the given level is configured. *)
Definition appears (set : log_level) (l : line) : bool :=
  match set, line_level l with
  | ErrorLevel, ErrorLevel => true
  | WarnLevel, (ErrorLevel | WarnLevel) => true
  | InfoLevel, (ErrorLevel | WarnLevel | InfoLevel) => true
  | DebugLevel, _ => true
  | _, _ => false
  end.
Definition shown_at (set : log_level) (ds : list doing) : list line := filter (appears set) (lines_of ds).

(** What a packet leaves in the log at WARN level; [o] is how the Save of its
    record ended. *)
Inductive troubles : save_out -> bytes -> list line -> Prop :=
| tr_refused o u p code : pkg_decode pkg0 (mkSlice u (room u)) = (p, DRet code true) ->
    troubles o u [LnRefused]
| tr_failed u p l : pkg_decode pkg0 (mkSlice u (room u)) = (p, DRet 0 false) ->
    pPT p = 1 -> pSFRD p = Some (FSds l) -> confirms l = false -> positions l <> [] ->
    troubles SvErr u [LnSaveErr]
| tr_stored o u p l : pkg_decode pkg0 (mkSlice u (room u)) = (p, DRet 0 false) ->
    pPT p = 1 -> pSFRD p = Some (FSds l) -> confirms l = false -> positions l <> [] -> o <> SvErr ->
    troubles o u []
| tr_nothing o u p l : pkg_decode pkg0 (mkSlice u (room u)) = (p, DRet 0 false) ->
    pPT p = 1 -> pSFRD p = Some (FSds l) -> confirms l = true \/ positions l = [] ->
    troubles o u []
| tr_confirmation o u p : pkg_decode pkg0 (mkSlice u (room u)) = (p, DRet 0 false) -> pPT p = 0 ->
    troubles o u [].

(** What the end of the input leaves there. *)
Definition header_missing (s : bytes) (e : conn_end) : list line :=
  match e, s with
  | COpen, _ => []
  | CEof, [] => [LnTimeout]
  | _, _ => [LnReadErr]
  end.
Definition body_missing (e : conn_end) : list line := match e with COpen => [] | _ => [LnBodyErr] end.

(** [noted out i s e ls]: from the stream [s], which ends with [e] and begins
    with packet number [i] of the connection, the log receives [ls]. *)
Inductive noted (out : nat -> save_out) : nat -> bytes -> conn_end -> list line -> Prop :=
| nt_no_header i s e : (length s < 10)%nat -> noted out i s e (header_missing s e)
| nt_not_egts i s e : (10 <= length s)%nat -> byte_at s 0 <> 1 -> noted out i s e [LnAlien]
| nt_cut i s e : (10 <= length s)%nat -> byte_at s 0 = 1 -> blen s < unit_len s -> noted out i s e (body_missing e)
| nt_dies i u s e : a_unit u -> deadly u -> noted out i (u ++ s) e []
| nt_next i u s e ls ls' : a_unit u -> ~ deadly u -> troubles (out i) u ls -> noted out (S i) s e ls' ->
    noted out i (u ++ s) e (ls ++ ls').

(** The records of a packet that are looked at: up to one that confirms a record
    of ours.  The service numbers that a packet leaves in the log at INFO level. *)
Fixpoint heard (l : list sdr) : list sdr :=
  match l with
  | [] => []
  | s :: l' => s :: (if confirms [s] then [] else heard l')
  end.
Definition services (b : bytes) : list N :=
  match pkg_decode pkg0 (mkSlice b []) with
  | (p, DRet 0 false) =>
      match pSFRD p with
      | Some (FSds l) => if pPT p =? 1 then map SST (heard l) else []
      | _ => []
      end
  | _ => []
  end.
Definition service_of (x : line) : list N := match x with LnService n => [n] | _ => [] end.

(** What a packet leaves in the log at INFO level: the services that are looked
    at, then its troubles.  What a connection leaves there, after the line that
    tells of it. *)
Inductive news (o : save_out) (u : bytes) : list line -> Prop :=
| nw_other ls : troubles o u ls ->
    (forall p l, pkg_decode pkg0 (mkSlice u (room u)) = (p, DRet 0 false) -> pSFRD p = Some (FSds l) -> pPT p <> 1) -> news o u ls
| nw_data p l ls : troubles o u ls -> pkg_decode pkg0 (mkSlice u (room u)) = (p, DRet 0 false) ->
    pPT p = 1 -> pSFRD p = Some (FSds l) -> news o u (map LnService (map SST (heard l)) ++ ls).
Inductive told (out : nat -> save_out) : nat -> bytes -> conn_end -> list line -> Prop :=
| td_no_header i s e : (length s < 10)%nat -> told out i s e (header_missing s e)
| td_not_egts i s e : (10 <= length s)%nat -> byte_at s 0 <> 1 -> told out i s e [LnAlien]
| td_cut i s e : (10 <= length s)%nat -> byte_at s 0 = 1 -> blen s < unit_len s -> told out i s e (body_missing e)
| td_dies i u s e : a_unit u -> deadly u -> told out i (u ++ s) e []
| td_next i u s e ls ls' : a_unit u -> ~ deadly u -> news (out i) u ls -> told out (S i) s e ls' ->
    told out i (u ++ s) e (ls ++ ls').

(** ** Credentials *)

(** The same records except for user name, password and sequence in
    EGTS_SR_AUTH_INFO. *)
Definition same_but_login (d d' : srdata) : Prop :=
  match d, d' with SRAuth _, SRAuth _ => True | _, _ => d = d' end.
Definition alike_sdr (s s' : sdr) : Prop :=
  RN s' = RN s /\ OID s' = OID s /\ SST s' = SST s /\
  Forall2 (fun rd rd' => same_but_login (SRD rd) (SRD rd')) (RD s) (RD s').
Definition alike_packet (b b' : bytes) : Prop :=
  b' = b \/
  exists p p' l l', decodes_to b p /\ decodes_to b' p' /\ pPID p' = pPID p /\ pPT p = 1 /\ pPT p' = 1 /\
    pSFRD p = Some (FSds l) /\ pSFRD p' = Some (FSds l') /\ Forall2 alike_sdr l l'.

End SpecLog.
