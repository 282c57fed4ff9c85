(** * Server: cli/receiver/server/server.go.  No proofs here. *)
From Verif Require Import GoBase Crc Float64 SubRecords Records Package Storage.

Section Server.
Context {E : go_env}.

(** ** Replies *)

(** server.go:336-349 and 384-397: the single record of a reply. *)
Definition reply_sdr (len service : N) (rds : list record_data) : sdr :=
  {| RL := len; RN := 1;
     SSOD := s0; RSOD := s0; GRP := s1; RPP := [ch0; ch0];
     TMFE := s0; EVFE := s0; OBFE := s0;
     OID := 0; EVID := 0; TM := 0; SST := service; RST := service; RD := rds |}.

(** server.go:353-367 and 400-414: the package of a reply. *)
Definition reply_pkg (fdl pid : N) (f : frame) : package :=
  {| pPRV := 1; pSKID := 0; pPRF := [ch0; ch0]; pRTE := s0; pENA := [ch0; ch0];
     pCMP := s0; pPR := [ch0; ch0]; pHL := 11; pHE := 0; pFDL := fdl;
     pPID := u16 (pid + 1); pPT := PtResponsePacket;
     pPRA := 0; pRCA := 0; pTTL := 0; pHCS := 0; pSFRD := Some f; pSFRCS := 0 |}.

(** server.go:328-370.  [rds = []] is the nil RecordDataSet. *)
Definition create_pt_response (pid code service : N) (rds : list record_data) : res bytes :=
  sdrs <- match rds with
          | [] => Ok None
          | _ :: _ => len <- rds_length rds ;; Ok (Some [reply_sdr len service rds])
          end ;;
  let sec := {| RPID := pid; PR := code; SDRS := sdrs |} in
  fdl <- ptr_length sec ;;
  snd (pkg_encode (reply_pkg fdl pid (FResp sec))).

(** server.go:372-417.  As in the source, the packet type is PT_RESPONSE while
    the body is a ServiceDataSet. *)
Definition create_sr_result_code (pid code : N) : res bytes :=
  let rds := [{| SRT := 9; SRL := 1; SRD := SRResult code |}] in
  len <- rds_length rds ;;
  let sfd := [reply_sdr len 1 rds] in
  fdl <- sds_length sfd ;;
  snd (pkg_encode (reply_pkg fdl pid (FSds sfd))).

(** ** Processing one decoded application-data packet *)

(** The local variables of the loop at server.go:138-291. *)
Record app_st := mkApp {
  ap_exp : nav_record;                 (* exportPacket *)
  ap_save : bool;                      (* isPkgSave *)
  ap_resps : list record_data;         (* srResponsesRecord *)
  ap_service : N;                      (* serviceType *)
  ap_rescode : bytes                   (* srResultCodePkg, [] = nil *)
}.

Definition set_exp (n : nav_record) (s : app_st) : app_st :=
  mkApp n (ap_save s) (ap_resps s) (ap_service s) (ap_rescode s).

(** Assignments to single fields of exportPacket. *)
Definition nr_set_imei (v : gostr) (n : nav_record) : nav_record :=
  mkNav (nrServerID n) v (nrClientID n) (nrPacketID n) (nrNavTs n) (nrAn n) (nrLiq n) (nrLocs n) (nrCount n).
Definition nr_set_client (v : N) (n : nav_record) : nav_record :=
  mkNav (nrServerID n) (nrIMEI n) v (nrPacketID n) (nrNavTs n) (nrAn n) (nrLiq n) (nrLocs n) (nrCount n).
Definition nr_set_pid (v : N) (n : nav_record) : nav_record :=
  mkNav (nrServerID n) (nrIMEI n) (nrClientID n) v (nrNavTs n) (nrAn n) (nrLiq n) (nrLocs n) (nrCount n).
Definition nr_add_loc (ts : Z) (l : loc_state) (n : nav_record) : nav_record :=
  mkNav (nrServerID n) (nrIMEI n) (nrClientID n) (nrPacketID n) ts (nrAn n) (nrLiq n) (nrLocs n ++ [l]) (nrCount n + 1).
Definition nr_add_an (l : list an_sensor) (n : nav_record) : nav_record :=
  mkNav (nrServerID n) (nrIMEI n) (nrClientID n) (nrPacketID n) (nrNavTs n) (nrAn n ++ l) (nrLiq n) (nrLocs n) (nrCount n).
Definition nr_add_liq (l : liquid_sensor) (n : nav_record) : nav_record :=
  mkNav (nrServerID n) (nrIMEI n) (nrClientID n) (nrPacketID n) (nrNavTs n) (nrAn n) (nrLiq n ++ [l]) (nrLocs n) (nrCount n).

(** server.go:197-202 *)
Definition loc_of (e : pos_data) : loc_state :=
  {| lsLat := Latitude e; lsLng := Longitude e; lsSpeed := Speed e;
     lsNavDt := rfc3339 (NavigationTime e) |}.

(** server.go:218-243: one optional analogue reading. *)
Definition an_opt (flag : gostr) (i v : N) : list an_sensor :=
  if is1 flag then [{| anNumber := i; anValue := v |}] else [].
Definition an_of_ad (e : ad_sensors) : list an_sensor :=
  let f := ASFE e in let v := ANS e in
  an_opt (o1 f) 1 (o1 v) ++ an_opt (o2 f) 2 (o2 v) ++ an_opt (o3 f) 3 (o3 v)
  ++ an_opt (o4 f) 4 (o4 v) ++ an_opt (o5 f) 5 (o5 v) ++ an_opt (o6 f) 6 (o6 v)
  ++ an_opt (o7 f) 7 (o7 v) ++ an_opt (o8 f) 8 (o8 v).

(** server.go:273-285; float64(x)/10 for litres. *)
Definition liq_of (e : liquid) : liquid_sensor :=
  let mm := if str_eqb (LLSVU e) [ch0; ch0] || str_eqb (LLSVU e) [ch0; ch1]
            then LLSD e else 0 in
  let l := if str_eqb (LLSVU e) [ch1; ch0]
           then f_div (f_of_N (LLSD e)) (f_of_N 10) else f_of_N 0 in
  {| lqNumber := LLSN e; lqModule := MADDR e; lqError := LLSEF e; lqUnit := LLSVU e;
     lqMm := mm; lqL := l |}.

(** server.go:251-268: counters 110 and 111, with packetIDBytes ([ids], always
    four bytes). *)
Definition cntr_step (e : abs_cntr) (ids : bytes) (n : nav_record) : bytes * nav_record :=
  if CounterNumber e =? 110 then
    (be_enc 4 (CounterValue e), nr_set_pid (CounterValue e) n)
  else if CounterNumber e =? 111 then
    let ids' := firstn 3 ids ++ [nth 3 (be_enc 4 (CounterValue e)) 0] in
    (ids', nr_set_pid (le_dec ids') n)
  else (ids, n).

(** The result of createSrResultCode stored in srResultCodePkg (server.go:171,
    180): nil when it returned an error. *)
Definition rescode_pkg (pid : N) : bytes :=
  match create_sr_result_code pid 0 with Ok b => b | _ => [] end.

(** server.go:167-289: the subrecords of one record; [None] is `goto Received`
    (line 176). *)
Fixpoint subs_loop (pid : N) (ids : bytes) (st : app_st) (l : list record_data)
  : option app_st :=
  match l with
  | [] => Some st
  | rd :: l' =>
      match SRD rd with
      | SRAuth _ =>
          subs_loop pid ids (mkApp (ap_exp st) (ap_save st) (ap_resps st) (ap_service st)
                                   (rescode_pkg pid)) l'
      | SRResp _ _ => None
      | SRTerm e =>
          subs_loop pid ids (mkApp (nr_set_imei (IMEI e) (ap_exp st)) (ap_save st)
                                   (ap_resps st) (ap_service st) (rescode_pkg pid)) l'
      | SRPos e =>
          subs_loop pid ids (mkApp (nr_add_loc (unix_of (NavigationTime e)) (loc_of e) (ap_exp st))
                                   true (ap_resps st) (ap_service st) (ap_rescode st)) l'
      | SRAd e =>
          subs_loop pid ids (set_exp (nr_add_an (an_of_ad e) (ap_exp st)) st) l'
      | SRAbsAn e =>
          subs_loop pid ids
            (set_exp (nr_add_an [{| anNumber := SensorNumber e; anValue := Value e |}] (ap_exp st)) st) l'
      | SRAbsCntr e =>
          let '(ids', n) := cntr_step e ids (ap_exp st) in
          subs_loop pid ids' (set_exp n st) l'
      | SRLiquid e =>
          subs_loop pid ids (set_exp (nr_add_liq (liq_of e) (ap_exp st)) st) l'
      | SRResult _ | SRExt _ | SRState _ | SRCounters _ | SRPlus _ | SRDisp _ | SRNil =>
          subs_loop pid ids st l'
      end
  end.

(** server.go:151-291: the records. *)
Fixpoint recs_loop (pid : N) (st : app_st) (l : list sdr) : option app_st :=
  match l with
  | [] => Some st
  | rec :: l' =>
      let st := mkApp (nr_set_client (OID rec) (ap_exp st)) (ap_save st)
                      (ap_resps st ++ [{| SRT := 0; SRL := 3; SRD := SRResp (RN rec) 0 |}])
                      (SST rec) (ap_rescode st) in
      match subs_loop pid (zeros 4) st (RD rec) with
      | Some st => recs_loop pid st l'
      | None => None
      end
  end.

(** "EGTS_GATE0" (server.go:321) *)
Definition server_id : gostr := [69;71;84;83;95;71;65;84;69;48].

(** server.go:142-149 *)
Definition app_init (pid : N) : app_st :=
  {| ap_exp := {| nrServerID := server_id; nrIMEI := []; nrClientID := 0; nrPacketID := pid;
                  nrNavTs := 0; nrAn := []; nrLiq := []; nrLocs := []; nrCount := 0 |};
     ap_save := false; ap_resps := []; ap_service := 0; ap_rescode := [] |}.

(** ** Observable actions of a connection *)
Inductive action :=
| AWrite (b : bytes)          (* conn.Write(b) *)
| ASave (n : nav_record).     (* s.store.Save(&n) *)

Inductive presult :=
| PActs (l : list action)
| PCrash                      (* a panic: nothing recovers it, the process dies *)
| PFuel.

(** server.go:299-311 *)
Definition app_reply (pid code : N) (st : app_st) : presult :=
  match create_pt_response pid code (ap_service st) (ap_resps st) with
  | Ok resp =>
      PActs ((if ap_save st then [ASave (ap_exp st)] else [])
             ++ [AWrite resp]
             ++ match ap_rescode st with [] => [] | _ :: _ => [AWrite (ap_rescode st)] end)
  | Err => PActs (if ap_save st then [ASave (ap_exp st)] else [])
  | Panic => PCrash
  | Fuel => PFuel
  end.

(** server.go:123-315: everything done with one received packet, except that
    an error of Save is only logged (:294-296) and a panic of Save stops the
    process (see [run_acts]). *)
Definition process (recv : slice) : presult :=
  let '(p, out) := pkg_decode pkg0 recv in
  match out with
  | DRet code true =>                                                     (* :125-136 *)
      match create_pt_response (pPID p) code 0 [] with
      | Ok resp => PActs [AWrite resp]
      | Err => PActs []
      | Panic => PCrash
      | Fuel => PFuel
      end
  | DRet code false =>
      if pPT p =? PtAppdataPacket then                                    (* :139 *)
        match pSFRD p with
        | Some (FSds l) =>
            match recs_loop (pPID p) (app_init (pPID p)) l with
            | Some st => app_reply (pPID p) code st
            | None => PActs []                                            (* :176 *)
            end
        | _ => PCrash                                     (* failed type assertion, :151 *)
        end
      else PActs []                                                       (* :312-314 *)
  | DPanic => PCrash
  | DFuel => PFuel
  end.

(** ** Reading from the connection *)

(** The peer's side of a TCP connection: the chunks that successive conn.Read
    calls can see, then the end: orderly close, an error, or silence forever. *)
Inductive conn_end := CEof | CErr | COpen.
Record conn_in := mkIn { ci_chunks : list bytes; ci_end : conn_end }.

Inductive read_out :=
| RFull (b : bytes) (rest : list bytes)
| REof                         (* io.EOF: nothing read *)
| RUnexpected                  (* io.ErrUnexpectedEOF *)
| RError
| RBlocked.

(** io.ReadFull(conn, buf) with n bytes still to read and [acc] read so far;
    conn.Read returns what is available of the current chunk. *)
Fixpoint read_full_from (e : conn_end) (n : nat) (acc : bytes) (chunks : list bytes) : read_out :=
  match chunks with
  | [] =>
      match n with
      | O => RFull acc []
      | S _ => match e with
               | CEof => match acc with [] => REof | _ :: _ => RUnexpected end
               | CErr => RError
               | COpen => RBlocked
               end
      end
  | c :: cs =>
      match n with
      | O => RFull acc chunks
      | S _ =>
          if (length c <? n)%nat then read_full_from e (n - length c) (acc ++ c) cs
          else RFull (acc ++ firstn n c) (skipn n c :: cs)
      end
  end.
Definition read_full (n : nat) (c : conn_in) : read_out :=
  read_full_from (ci_end c) n [] (ci_chunks c).

(** server.go:14-17 *)
Definition header_len : nat := 10.

(** server.go:96-102: the number of bytes to read after the 10-byte header, in
    uint16 arithmetic. *)
Definition tail_len (hdr : bytes) : N :=
  let body := le_dec (firstn 2 (skipn 5 hdr)) in
  let hl := nth 3 hdr 0 in
  let pkg := if 0 <? body then u16 (hl + u16 (body + 2)) else hl in
  u16 (pkg + 65526).            (* pkgLen - 10 *)

(** server.go:109: append(headerBuf, buf...).  headerBuf has capacity 10; an
    empty buf leaves it as it is. *)
Definition recv_slice (hdr tl : bytes) : slice :=
  {| sl_data := hdr ++ tl;
     sl_spare := match tl with [] => [] | _ :: _ => append_spare (length (hdr ++ tl)) end |}.

(** ** One iteration of the loop server.go:72-316 *)
Inductive step_out :=
| SPacket (acts : list action) (rest : list bytes)   (* packet handled, loop continues *)
| SClosed                                            (* handler returned *)
| SBlockedRead                                       (* waiting for data forever *)
| SCrashed
| SFuel.

Definition conn_step (c : conn_in) : step_out :=
  match read_full header_len c with
  | RFull hdr rest =>
      if negb (nth 0 hdr 0 =? 1) then SClosed                        (* :90-93 *)
      else
        match read_full (N.to_nat (tail_len hdr)) (mkIn rest (ci_end c)) with
        | RFull tl rest' =>
            match process (recv_slice hdr tl) with
            | PActs acts => SPacket acts rest'
            | PCrash => SCrashed
            | PFuel => SFuel
            end
        | RBlocked => SBlockedRead
        | _ => SClosed                                               (* :103-106 *)
        end
  | REof => SClosed                (* :110-113, after waiting for the timer *)
  | RBlocked => SBlockedRead
  | _ => SClosed                                                     (* :114-116 *)
  end.

(** The whole life of a connection alone, with storages that never panic:
    the actions performed and how it ends. *)
Inductive conn_fin := FinClosed | FinBlocked | FinCrashed | FinFuel.
Fixpoint conn_run (fuel : nat) (c : conn_in) : list action * conn_fin :=
  match fuel with
  | O => ([], FinFuel)
  | S fuel' =>
      match conn_step c with
      | SPacket acts rest =>
          let '(l, f) := conn_run fuel' (mkIn rest (ci_end c)) in (acts ++ l, f)
      | SClosed => ([], FinClosed)
      | SBlockedRead => ([], FinBlocked)
      | SCrashed => ([], FinCrashed)
      | SFuel => ([], FinFuel)
      end
  end.
(** Each iteration consumes at least ten bytes. *)
Definition conn_exec (c : conn_in) : list action * conn_fin :=
  conn_run (S (length (concat (ci_chunks c)))) c.

(** ** Many connections: handleConn goroutines sharing the repository *)

Record conn_state := mkCs {
  cs_in : conn_in;               (* unread input *)
  cs_pend : list action;         (* actions still to perform for the current packet *)
  cs_at : nat;                   (* inside Repository.Save: the next storage to call *)
  cs_done : bool                 (* handler returned *)
}.

(** What the goroutine of a connection is seen to do: a write to the
    connection, a call of storage number [k] (with its outcome), and the return
    of Repository.Save (with its outcome). *)
Inductive event :=
| EWrite (b : bytes)
| ECall (k : nat) (n : nav_record) (o : save_out)
| ESaved (n : nav_record) (o : save_out).

Record global := mkG {
  g_conns : list conn_state;
  g_trace : list (nat * event);                (* connection and event, oldest first *)
  g_crashed : bool
}.

(** Everything storage [k] was handed, oldest first. *)
Definition history (k : nat) (tr : list (nat * event)) : list nav_record :=
  flat_map (fun x => match snd x with
                     | ECall k' n _ => if Nat.eqb k k' then [n] else []
                     | _ => []
                     end) tr.

Fixpoint upd {A} (i : nat) (x : A) (l : list A) : list A :=
  match i, l with
  | _, [] => []
  | O, _ :: l' => x :: l'
  | S i', y :: l' => y :: upd i' x l'
  end.

(** One scheduling step of goroutine [i] (server.go:37-44 starts one goroutine
    per connection; the repository is shared and has no lock): call the next
    storage of the Save in progress (store.go:48-55) or return from Save,
    perform the next write, or read and decode the next packet. *)
Definition gstep (stores : list saver) (i : nat) (g : global) : global :=
  if g_crashed g then g else
  match nth_error (g_conns g) i with
  | None => g
  | Some cs =>
      if cs_done cs then g else
      match cs_pend cs with
      | AWrite b :: pend =>
          mkG (upd i (mkCs (cs_in cs) pend 0 false) (g_conns g))
              (g_trace g ++ [(i, EWrite b)]) false
      | ASave n :: pend =>
          match nth_error stores (cs_at cs) with
          | None =>                                     (* the loop over r.storages is over *)
              mkG (upd i (mkCs (cs_in cs) pend 0 false) (g_conns g))
                  (g_trace g ++ [(i, ESaved n SvOk)]) false
          | Some s =>
              match s (history (cs_at cs) (g_trace g) ++ [n]) with
              | SvOk =>
                  mkG (upd i (mkCs (cs_in cs) (ASave n :: pend) (S (cs_at cs)) false) (g_conns g))
                      (g_trace g ++ [(i, ECall (cs_at cs) n SvOk)]) false
              | SvErr =>                                (* store.go:51: return err *)
                  mkG (upd i (mkCs (cs_in cs) pend 0 false) (g_conns g))
                      (g_trace g ++ [(i, ECall (cs_at cs) n SvErr); (i, ESaved n SvErr)]) false
              | SvPanic =>
                  mkG (g_conns g) (g_trace g ++ [(i, ECall (cs_at cs) n SvPanic)]) true
              end
          end
      | [] =>
          match conn_step (cs_in cs) with
          | SPacket acts rest =>
              mkG (upd i (mkCs (mkIn rest (ci_end (cs_in cs))) acts 0 false) (g_conns g))
                  (g_trace g) false
          | SClosed => mkG (upd i (mkCs (cs_in cs) [] 0 true) (g_conns g)) (g_trace g) false
          | SBlockedRead => g
          | SCrashed | SFuel => mkG (g_conns g) (g_trace g) true
          end
      end
  end.

Definition grun (stores : list saver) (sched : list nat) (g : global) : global :=
  fold_left (fun g i => gstep stores i g) sched g.

Definition ginit (conns : list conn_in) : global :=
  {| g_conns := map (fun c => mkCs c [] 0 false) conns;
     g_trace := [];
     g_crashed := false |}.

End Server.

(** ** Timing of one connection (server.go:79-117) *)

(** The read loop as a timed machine: [TReading] is blocked in the ReadFull of
    the header, with connTimer created at the top of the loop (:79) or reset by
    the last header (:87); [TEofWait d] waits on <-connTimer.C (:111) until time
    [d]; the handler has no read deadline. *)
Inductive tstate := TReading (timer_at : Z) | TEofWait (deadline : Z) | TClosed.
Inductive tevent := TPacket | TEof | TTick.   (* TTick: time passes, nothing arrives *)
Definition tstep (ttl : Z) (now : Z) (s : tstate) (e : tevent) : tstate :=
  match s, e with
  | TReading _, TPacket => TReading (now + ttl)      (* :79/:87: timer restarted *)
  | TReading d, TEof => TEofWait d                   (* :110-111 *)
  | TReading d, TTick => TReading d                  (* nobody reads connTimer.C *)
  | TEofWait d, _ => if (d <=? now)%Z then TClosed else TEofWait d
  | TClosed, _ => TClosed
  end.
(** events carry their time *)
Definition trun (ttl : Z) (s : tstate) (evs : list (Z * tevent)) : tstate :=
  fold_left (fun s ev => tstep ttl (fst ev) s (snd ev)) evs s.

(** ** The accept loop (server.go:27-53) *)
(** Run executes net.Listen and then the loop; Stop closes the listener if there
    is one. *)
Inductive lstate := LIdle | LRunning | LReturned | LFatal.
Record lsys := mkL {
  l_run : lstate;          (* where Run is *)
  l_open : option bool;    (* s.l: nil, or open / closed *)
  l_conns : nat;           (* go handleConn *)
  l_errors : nat }.        (* "Ошибка соединения" *)
(** What happens: Run is called and Listen succeeds or not; one Accept of the
    loop returns a connection or an error (a closed listener only gives errors);
    Stop is called. *)
Inductive levent := LStart (ok : bool) | LAccept (ok : bool) | LStop.
Definition lstep (s : lsys) (e : levent) : lsys :=
  match e with
  | LStart ok =>                                                   (* :27-34 *)
      match l_run s with
      | LIdle => if ok then mkL LRunning (Some true) (l_conns s) (l_errors s)
                 else mkL LFatal (l_open s) (l_conns s) (l_errors s)   (* log.Fatalf exits *)
      | _ => s
      end
  | LAccept ok =>                                                  (* :36-43 *)
      match l_run s, l_open s with
      | LRunning, Some true => if ok then mkL LRunning (l_open s) (S (l_conns s)) (l_errors s)
                               else mkL LRunning (l_open s) (l_conns s) (S (l_errors s))
      | LRunning, _ => mkL LRunning (l_open s) (l_conns s) (S (l_errors s))
      | _, _ => s
      end
  | LStop =>                                                       (* :47-53 *)
      match l_open s with
      | Some _ => mkL (l_run s) (Some false) (l_conns s) (l_errors s)
      | None => s
      end
  end.
Definition lrun (evs : list levent) : lsys := fold_left lstep evs (mkL LIdle None 0 0).
