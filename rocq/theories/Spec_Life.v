(** * Spec_Life: what it means that a backend connection is in use or lost. *)
From Coq Require Import String List.
From Verif Require Import GoBase Float64 Storage Connectors Lifecycle Listen Spec_Storage.

(** The connector [o] still knows the open handle [h]. *)
Definition holds (o : obj) (h : handle) : Prop := o_conn o = Some (h_id h) \/ o_chan o = Some (h_id h).

(** Everything open is known to [o]. *)
Definition nothing_lost (st : obj * world) : Prop := forall h, In h (w_open (snd st)) -> holds (fst st) h.
(** Nothing that [o] knows is open. *)
Definition idle (st : obj * world) : Prop := forall h, In h (w_open (snd st)) -> ~ holds (fst st) h.

(** A section of the configuration whose opening fails half way: the broker
    accepts the connection but gives no channel; the database driver accepts
    the settings but the server does not answer; the redis settings have no
    queue. *)
Definition half_open (first second : lib_call -> bool) (k : store_kind) (m : list (gostr * gostr)) : Prop :=
  match k with
  | KRabbit => let url := text "amqp://" ++ setting m "user" ++ text ":" ++ setting m "password" ++ text "@"
                          ++ setting m "host" ++ text ":" ++ setting m "port" ++ text "/" in
      first (LAmqpDial url) = true /\ second (LAmqpChannel url) = false
  | KPostgres => let dsn := text "dbname=" ++ setting m "database" ++ text " host=" ++ setting m "host" ++ text " port=" ++ setting m "port"
                            ++ text " user=" ++ setting m "user" ++ text " password=" ++ setting m "password" ++ text " sslmode=" ++ setting m "sslmode" in
      first (LPgOpen dsn) = true /\ second (LPgPing dsn) = false
  | KRedis => mget m (text "server") <> None /\ (exists db, numeral (setting m "db") db) /\ mget m (text "queue") = None
  | KNats | KNsq | KTarantool => False
  end.

(** Every handle was given out before: true of every world reached. *)
Definition sane (w : world) : Prop :=
  forall h, In h (w_open w) -> (h_id h < w_next w)%nat /\ forall p, h_in h = Some p -> (p < w_next w)%nat.

(** The connections the operating system offers, and those Run serves. *)
Definition offered (ts : list turn) : list nat := flat_map (fun t => match t with TAccept (Some c) => [c] | _ => [] end) ts.
Definition served (s : lserver) : list nat := flat_map (fun n => match n with NtServe c => [c] | _ => [] end) (ls_notes s).
(** What the calls of Stop returned (true: no error), and the errors logged. *)
Definition answers (s : lserver) : list bool := flat_map (fun n => match n with NtStop b => [b] | _ => [] end) (ls_notes s).
Definition errors (s : lserver) : nat := length (filter (fun n => match n with NtError => true | _ => false end) (ls_notes s)).
(** No Stop that closes the listener. *)
Definition no_stop (ts : list turn) : Prop := ~ In (TStop true) ts.
