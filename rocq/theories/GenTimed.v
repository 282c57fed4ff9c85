(** * GenTimed: cli/packet-gen/main.go with its clock: the -timeout flag and the
    one Read of the acknowledgement.  No proofs here. *)
From Verif Require Import GoBase Float64 SubRecords Records Package PacketGen.

(** int64 arithmetic: the value of [z] after wrapping around *)
Definition z_i64 (z : Z) : Z := ((z + 2 ^ 63) mod 2 ^ 64 - 2 ^ 63)%Z.

(** main.go:53, 61: the flag; without it the variable keeps its default. *)
Definition flag_timeout (flag : option Z) : Z := match flag with Some n => n | None => 0%Z end.
(** main.go:179: time.Duration(ackTimeout) * time.Second, in nanoseconds *)
Definition ack_wait (flag : option Z) : Z := z_i64 (flag_timeout flag * 1000000000).

(** What the peer sends, as the program can see it: nothing at all, or [first]
    available in the socket [at_] nanoseconds after the deadline was set (0:
    already there).  Bytes that arrive later are not in [first]. *)
Inductive answer := Silent | Answer (at_ : Z) (first : bytes).

(** main.go:177-184: one conn.Read into 1024 bytes, with the deadline
    time.Now().Add(wait).  A deadline that is not in the future makes Read fail
    without looking at the socket (internal/poll: prepareRead comes first);
    otherwise Read returns the first bytes to arrive before it.  No bytes: the
    peer has closed, io.EOF.  The rest of the buffer is zero. *)
Definition read_ack (wait : Z) (a : answer) : gen_net :=
  if (wait <=? 0)%Z then NetFail
  else match a with
       | Silent => NetFail
       | Answer t b =>
           if (wait <=? t)%Z then NetFail
           else match b with
                | [] => NetFail
                | _ :: _ => NetAck (firstn 1024 b) (repeat 0%N (1024 - length b))
                end
       end.

Section GenTimed.
Context {E : go_env}.
(** main.go:44-225; [net] is what the network does with the bytes sent: None, it
    cannot be resolved, dialled or written to. *)
Definition gen_program (pid oid liquid : Z) (ts : gostr) (lat lon : f64) (timeout : option Z)
    (parse : gostr -> option Z) (net : bytes -> option answer) : gen_out :=
  gen_main pid oid liquid ts lat lon parse
    (fun b => match net b with None => NetFail | Some a => read_ack (ack_wait timeout) a end).
End GenTimed.
