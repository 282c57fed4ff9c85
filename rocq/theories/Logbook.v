(** * Logbook: what cli/receiver/server/server.go writes to the log (logrus), in
    the order in which it happens between the actions of Server.v.  No proofs
    here.  The texts of the lines are represented by constructors; the fields
    "ip" and "err" (peer address, error text) are not modelled. *)
From Verif Require Import GoBase Crc Float64 SubRecords Records Package Storage Server Config.

Section Logbook.
Context {E : go_env}.

(** The kinds of subrecord that are mentioned (server.go:170-270). *)
Inductive sub_kind := KdAuth | KdResponse | KdTerm | KdPos | KdExt | KdAd | KdAbsAn | KdAbsCntr | KdLiquid.

Inductive line :=
| LnConnected                  (* :70 *)
| LnAlien                      (* :91 *)
| LnBodyErr                    (* :104 *)
| LnTimeout                    (* :112 *)
| LnReadErr                    (* :115 *)
| LnReceived                   (* :120 *)
| LnRefused                    (* :126 *)
| LnReplyErr                   (* :130, :301 *)
| LnAppData                    (* :140 *)
| LnService (s : N)            (* :163 *)
| LnSub (k : sub_kind)         (* :170-:270 *)
| LnCodeErr                    (* :172, :181 *)
| LnSaveErr                    (* :295 *)
| LnReply (b : bytes)          (* :306 *)
| LnCode (b : bytes)           (* :310 *)
| LnResponse.                  (* :313 *)

(** The level at which each is logged. *)
Definition line_level (l : line) : log_level :=
  match l with
  | LnConnected | LnService _ => InfoLevel
  | LnAlien | LnTimeout => WarnLevel
  | LnBodyErr | LnReadErr | LnRefused | LnReplyErr | LnCodeErr | LnSaveErr => ErrorLevel
  | LnReceived | LnAppData | LnSub _ | LnReply _ | LnCode _ | LnResponse => DebugLevel
  end.
(** logrus: the numbers of the levels; a line is written if its level is at most
    the one set with SetLevel (main.go:25). *)
Definition level_rank (l : log_level) : N :=
  match l with ErrorLevel => 2 | WarnLevel => 3 | InfoLevel => 4 | DebugLevel => 5 end.
Definition enabled (set l : log_level) : bool := level_rank l <=? level_rank set.

Inductive doing := DoLog (l : line) | DoAct (a : action).

(** server.go:168-289: the lines for the subrecords of a record.  [saved] is
    isPkgSave. *)
Fixpoint subs_lines (pid : N) (saved : bool) (l : list record_data) : list line * bool :=
  match l with
  | [] => ([], saved)
  | rd :: l' =>
      let code := match create_sr_result_code pid 0 with Ok _ => [] | _ => [LnCodeErr] end in
      let go (here : list line) (saved : bool) :=
        let '(ls, sv) := subs_lines pid saved l' in (here ++ ls, sv) in
      match SRD rd with
      | SRAuth _ => go (LnSub KdAuth :: code) saved
      | SRResp _ _ => ([LnSub KdResponse], saved)                        (* :175-176 *)
      | SRTerm _ => go (LnSub KdTerm :: code) saved
      | SRPos _ => go (if saved then [] else [LnSub KdPos]) true         (* :187-189 *)
      | SRExt _ => go [LnSub KdExt] saved
      | SRAd _ => go [LnSub KdAd] saved
      | SRAbsAn _ => go [LnSub KdAbsAn] saved
      | SRAbsCntr _ => go [LnSub KdAbsCntr] saved
      | SRLiquid _ => go [LnSub KdLiquid] saved
      | SRResult _ | SRState _ | SRCounters _ | SRPlus _ | SRDisp _ | SRNil => go [] saved
      end
  end.
Definition leaves (l : list record_data) : bool :=
  existsb (fun rd => match SRD rd with SRResp _ _ => true | _ => false end) l.
(** server.go:151-291 *)
Fixpoint recs_lines (pid : N) (saved : bool) (l : list sdr) : list line :=
  match l with
  | [] => []
  | rec :: l' =>
      let '(ls, sv) := subs_lines pid saved (RD rec) in
      LnService (SST rec) :: ls ++ (if leaves (RD rec) then [] else recs_lines pid sv l')
  end.

(** server.go:293-311; [o] is how Repository.Save ends, if it is called. *)
Definition reply_doings (o : save_out) (pid code : N) (st : app_st) : list doing :=
  (if ap_save st then DoAct (ASave (ap_exp st)) :: match o with SvErr => [DoLog LnSaveErr] | _ => [] end else [])
  ++ match create_pt_response pid code (ap_service st) (ap_resps st) with
     | Ok resp =>
         [DoAct (AWrite resp); DoLog (LnReply resp)]
         ++ match ap_rescode st with
            | [] => []
            | _ :: _ => [DoAct (AWrite (ap_rescode st)); DoLog (LnCode (ap_rescode st))]
            end
     | _ => [DoLog LnReplyErr]
     end.
(** server.go:119-315; [None]: the process dies (then nothing more is logged
    here; the Go runtime writes the panic itself). *)
Definition process_doings (o : save_out) (recv : slice) : option (list doing) :=
  let '(p, out) := pkg_decode pkg0 recv in
  match process recv with
  | PActs _ =>
      Some (DoLog LnReceived ::
      match out with
      | DRet code true =>
          DoLog LnRefused ::
          match create_pt_response (pPID p) code 0 [] with
          | Ok resp => [DoAct (AWrite resp)]
          | _ => [DoLog LnReplyErr]
          end
      | DRet code false =>
          if pPT p =? PtAppdataPacket then
            DoLog LnAppData ::
            match pSFRD p with
            | Some (FSds l) =>
                map DoLog (recs_lines (pPID p) false l) ++
                match recs_loop (pPID p) (app_init (pPID p)) l with
                | Some st => reply_doings o (pPID p) code st
                | None => []
                end
            | _ => []
            end
          else if pPT p =? PtResponsePacket then [DoLog LnResponse] else []
      | _ => []
      end)
  | _ => None
  end.

(** server.go:72-316.  [out i]: how the Save of the [i]-th packet read from this
    connection ends, if there is one; storages that panic are not considered
    here. *)
Fixpoint conn_doings (out : nat -> save_out) (fuel i : nat) (c : conn_in) : list doing * conn_fin :=
  match fuel with
  | O => ([], FinFuel)
  | S fuel' =>
      match read_full header_len c with
      | RFull hdr rest =>
          if negb (nth 0 hdr 0 =? 1) then ([DoLog LnAlien], FinClosed)
          else
            match read_full (N.to_nat (tail_len hdr)) (mkIn rest (ci_end c)) with
            | RFull tl rest' =>
                match process_doings (out i) (recv_slice hdr tl) with
                | Some ds => let '(l, f) := conn_doings out fuel' (S i) (mkIn rest' (ci_end c)) in (ds ++ l, f)
                | None => ([], FinCrashed)
                end
            | RBlocked => ([], FinBlocked)
            | _ => ([DoLog LnBodyErr], FinClosed)
            end
      | REof => ([DoLog LnTimeout], FinClosed)
      | RBlocked => ([], FinBlocked)
      | _ => ([DoLog LnReadErr], FinClosed)
      end
  end.
Definition conn_diary (out : nat -> save_out) (c : conn_in) : list doing * conn_fin :=
  let '(l, f) := conn_doings out (S (length (concat (ci_chunks c)))) 0 c in (DoLog LnConnected :: l, f).

End Logbook.

(** default.go:14-22: what LogConnector.Save writes (at Info level, default.go:20)
    for a message whose JSON is [msg]; nothing if there is none. *)
Definition log_export (set : log_level) (msg : option bytes) : list bytes :=
  match msg with
  | Some b => if enabled set InfoLevel then [b] else []
  | None => []
  end.
