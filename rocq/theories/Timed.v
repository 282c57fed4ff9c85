(** * Timed: one connection with the times at which things happen. *)
From Verif Require Import GoBase Crc Float64 SubRecords Records Package Storage Server.

Section Timed.
Context {E : go_env}.

(** What the peer sends, byte by byte with the time of arrival, and the end of
    the input with its time (meaningless for [COpen]).  Times are integers
    (nanoseconds). *)
Record timed_in := mkTin { ti_data : list (Z * N); ti_end : conn_end; ti_at : Z }.

(** io.ReadFull(conn, buf) with len(buf) = n, called at time [now]: it returns
    when the last of the bytes is there, or at the end of the input.  ([CErr]:
    the connection breaks.) *)
Inductive timed_read :=
| TrFull (t : Z) (b : bytes) (rest : list (Z * N))
| TrEof (t : Z)                                    (* io.EOF: not one byte read *)
| TrErr (t : Z)                                    (* any other error *)
| TrBlocked.                                       (* no answer yet *)
Definition read_timed (n : nat) (now : Z) (data : list (Z * N)) (e : conn_end) (at_ : Z) : timed_read :=
  if (n <=? length data)%nat
  then TrFull (fold_left Z.max (map fst (firstn n data)) now) (map snd (firstn n data)) (skipn n data)
  else match e with
       | COpen => TrBlocked
       | CEof => match data with [] => TrEof (Z.max now at_) | _ :: _ => TrErr (Z.max now at_) end
       | CErr => TrErr (Z.max now at_)
       end.

(** A timer made by time.NewTimer (server.go:79) and, if the header arrived,
    reset (server.go:87); nothing ever stops one. *)
Record timer := mkTimer { tm_made : Z; tm_reset : option Z }.

(** How it stands with the handler in the end. *)
Inductive timed_end :=
| TeOpen                                           (* waits for data, or would for ever *)
| TeClosed (t : Z)                                 (* returned, and closed the connection (:58), at t *)
| TeCrashed (t : Z)
| TeFuel.

Record timed_out := mkTout { to_timers : list timer; to_acts : list (Z * list action); to_end : timed_end }.
Definition tcons (tm : timer) (t : Z) (acts : list action) (o : timed_out) : timed_out :=
  mkTout (tm :: to_timers o) ((t, acts) :: to_acts o) (to_end o).

(** server.go:72-316.  [dur i]: how long the handler is busy with the [i]-th
    packet (decoding, storages, writing the reply); the actions of a packet are
    noted with the time at which its last byte was there. *)
Fixpoint timed_run (dur : nat -> Z) (ttl : Z) (fuel i : nat) (now : Z) (data : list (Z * N)) (e : conn_end) (at_ : Z)
  : timed_out :=
  match fuel with
  | O => mkTout [] [] TeFuel
  | S fuel' =>
      match read_timed header_len now data e at_ with                    (* :82-83 *)
      | TrFull h hdr rest =>
          let tm := mkTimer now (Some h) in                              (* :79, :87 *)
          if negb (nth 0 hdr 0 =? 1)%N then mkTout [tm] [] (TeClosed h)  (* :90-93 *)
          else
            match read_timed (N.to_nat (tail_len hdr)) h rest e at_ with (* :102-103 *)
            | TrFull b tl rest' =>
                match process (recv_slice hdr tl) with
                | PActs acts => tcons tm b acts (timed_run dur ttl fuel' (S i) (b + dur i) rest' e at_)
                | PCrash => mkTout [tm] [] (TeCrashed b)
                | PFuel => mkTout [tm] [] TeFuel
                end
            | TrBlocked => mkTout [tm] [] TeOpen
            | TrEof t | TrErr t => mkTout [tm] [] (TeClosed t)           (* :103-106 *)
            end
      | TrEof t => mkTout [mkTimer now None] [] (TeClosed (Z.max t (now + ttl)))   (* :110-113 *)
      | TrErr t => mkTout [mkTimer now None] [] (TeClosed t)             (* :114-116 *)
      | TrBlocked => mkTout [mkTimer now None] [] TeOpen
      end
  end.
(** handleConn started at time [t0], with s.ttl = [ttl]. *)
Definition timed_exec (dur : nat -> Z) (ttl t0 : Z) (c : timed_in) : timed_out :=
  timed_run dur ttl (S (length (ti_data c))) 0 t0 (ti_data c) (ti_end c) (ti_at c).

(** server.go:120: ReceivedDt, the wall clock's reading (nanoseconds since 2010,
    the handler's own clock) when a packet is complete, as text. *)
Definition received_dts (o : timed_out) : list gostr := map (fun x => rfc3339 (fst x)) (to_acts o).

End Timed.
