(** * Listen: Server.Run and Server.Stop (cli/receiver/server/server.go:27-53).
    No proofs here.  Simplified: Run and Stop are interleaved at whole calls of
    Listen, Accept, Close (the field s.l is unsynchronised in the code; a torn
    read is not modelled); what a connection's goroutine does is Server.v. *)
From Verif Require Import GoBase.

(** s.l: nil, a listener, or a listener that was closed *)
Inductive listener := LsNil | LsOpen | LsClosed.
(** Where the goroutine of Run is: before net.Listen, in the loop, returned, or
    the process was ended by log.Fatalf. *)
Inductive run_pc := RcStart | RcLoop | RcReturned | RcFatal.
(** A turn of Run with what the operating system answers (Listen: whether the
    address could be bound; Accept: a connection or an error), or a call of
    Stop (with whether closing the listener works). *)
Inductive turn := TListen (ok : bool) | TAccept (c : option nat) | TStop (ok : bool).
Inductive note := NtServe (c : nat)        (* go s.handleConn(conn) *)
                | NtError                  (* the error is logged *)
                | NtStop (ok : bool).      (* Stop returned nil, or an error *)
Record lserver := mkLs { ls_l : listener; ls_pc : run_pc; ls_notes : list note }.
Definition lserver0 : lserver := mkLs LsNil RcStart [].

Definition lnote (n : note) (s : lserver) : lserver := mkLs (ls_l s) (ls_pc s) (ls_notes s ++ [n]).
Definition lstep (s : lserver) (t : turn) : lserver :=
  match ls_pc s, t with
  | RcFatal, _ => s                                       (* the process is gone *)
  | RcStart, TListen ok =>                                (* :30-33 *)
      if ok then mkLs LsOpen RcLoop (ls_notes s) else mkLs (ls_l s) RcFatal (ls_notes s)
  | RcLoop, TAccept c =>                                  (* :37-44 *)
      match ls_l s, c with
      | LsOpen, Some c => lnote (NtServe c) s
      | _, _ => lnote NtError s                           (* Accept on a closed listener fails *)
      end
  | _, TStop ok =>                                        (* :47-53 *)
      match ls_l s with
      | LsNil => lnote (NtStop true) s
      | LsOpen => lnote (NtStop ok) (if ok then mkLs LsClosed (ls_pc s) (ls_notes s) else s)
      | LsClosed => lnote (NtStop false) s                (* use of closed network connection *)
      end
  | _, _ => s                                             (* not Run's next call *)
  end.
Definition lrun (ts : list turn) : lserver := fold_left lstep ts lserver0.
