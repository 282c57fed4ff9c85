(** * Reply: the replies of server.go that do not arrive.  No proofs here.

    handleConn ignores what conn.Write returns (server.go:133, 304, 309:
    [_, _ = conn.Write(...)]), and never sets a write deadline: a Write that
    fails goes unnoticed, one that blocks holds the goroutine.  [Server.v] gives
    the actions of a connection; here they are performed against a peer of which
    every Write is delivered, fails, or blocks for ever. *)
From Verif Require Import GoBase Float64 SubRecords Records Package Storage Server.

(** What becomes of one conn.Write. *)
Inductive write_out := WDone | WFailed | WBlocked.

(** What is seen of the goroutine. *)
Inductive done :=
| DSent (b : bytes)          (* delivered *)
| DLost (b : bytes)          (* the Write failed: nothing is done about it *)
| DSaved (n : nav_record).   (* store.Save was called *)

Section Reply.
Context {E : go_env}.
(** what the network makes of a Write of [b] after [sent] has been delivered *)
Variable wr : list bytes -> bytes -> write_out.

(** The actions [acts], performed in order (server.go:133, 291-295, 304, 309);
    and whether the goroutine is blocked in a Write in the end.  A Write that
    fails or blocks is taken to deliver nothing. *)
Fixpoint perform (sent : list bytes) (acts : list action) : list done * bool :=
  match acts with
  | [] => ([], false)
  | ASave n :: l => let '(d, stuck) := perform sent l in (DSaved n :: d, stuck)
  | AWrite b :: l =>
      match wr sent b with
      | WDone => let '(d, stuck) := perform (sent ++ [b]) l in (DSent b :: d, stuck)
      | WFailed => let '(d, stuck) := perform sent l in (DLost b :: d, stuck)
      | WBlocked => ([], true)
      end
  end.

(** A whole connection (server.go:58-319); None: it never gets to its end,
    because it is blocked in a Write. *)
Definition replied (c : conn_in) : list done * option conn_fin :=
  let '(acts, f) := conn_exec c in
  let '(d, stuck) := perform [] acts in (d, if stuck then None else Some f).
End Reply.

(** A peer that reads [room] bytes at most, counting what the buffers on the way
    hold: a Write that does not fit blocks. *)
Definition reads_only (room : N) (sent : list bytes) (b : bytes) : write_out :=
  if blen (concat sent) + blen b <=? room then WDone else WBlocked.
