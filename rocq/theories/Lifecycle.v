(** * Lifecycle: what the storage connectors open and close
    (cli/receiver/storage/store/*/connector.go: Init and Close, and the loop of
    store.go: LoadStorages).  No proofs here.

    Connectors.v says which library calls are made with which arguments; here
    the calls also give out handles (a connection, a channel, a pool, a
    producer), and what is modelled is which of them are open.  The client
    libraries are arbitrary, with this contract: a call that reports an error
    opens nothing and gives nil; a close that reports an error leaves the handle
    open; closing an amqp connection closes its channels; redis.NewClient and
    the Close of nats and Stop of nsq report nothing and always work. *)
From Verif Require Import GoBase Float64 Storage Connectors.

(** An open handle; [h_in] is the connection a channel belongs to. *)
Record handle := mkH { h_id : nat; h_in : option nat }.
(** The libraries' side: how many calls were made, the next handle, and what is
    open. *)
Record world := mkW { w_calls : nat; w_next : nat; w_open : list handle }.
Definition world0 : world := mkW 0 0 [].

Definition belongs (h : nat) (x : handle) : bool :=
  Nat.eqb (h_id x) h || match h_in x with Some p => Nat.eqb p h | None => false end.

(** The fields of a Connector that hold handles: "connection" (conn of redis,
    producer of nsq) and, in rabbitmq, "channel". *)
Record obj := mkObj { o_conn : option nat; o_chan : option nat }.
(** store.go:66-77: &X.Connector{} *)
Definition obj0 : obj := mkObj None None.

(** What Close does: returns nil, returns an error, or calls the library on a
    nil handle. *)
Inductive close_out := ClOk | ClErr | ClNil.

Section Life.
(** the answer to the n-th library call, and to the n-th call when it closes *)
Variable lib : nat -> lib_call -> bool.
Variable cls : nat -> nat -> bool.

Definition ask (c : lib_call) (w : world) : bool * world :=
  (lib (w_calls w) c, mkW (S (w_calls w)) (w_next w) (w_open w)).
Definition give (inside : option nat) (w : world) : nat * world :=
  (w_next w, mkW (w_calls w) (S (w_next w)) (w_open w ++ [mkH (w_next w) inside])).
(** h, err = open(...): nil when err *)
Definition obtain (c : lib_call) (inside : option nat) (w : world) : option nat * world :=
  let '(ok, w1) := ask c w in
  if ok then let '(h, w2) := give inside w1 in (Some h, w2) else (None, w1).
Definition drop (h : nat) (w : world) : world :=
  mkW (S (w_calls w)) (w_next w) (filter (fun x => negb (belongs h x)) (w_open w)).
Definition shut (h : nat) (w : world) : bool * world :=
  if cls (w_calls w) h then (true, drop h w) else (false, mkW (S (w_calls w)) (w_next w) (w_open w)).

(** rabbitmq/connector.go:27-46.  A failed Dial leaves the channel field as it
    was. *)
Definition rabbit_open (o : obj) (s : section) (w : world) : obj * bool * world :=
  match s with
  | None => (o, false, w)                                              (* :31-33 *)
  | Some m =>
      match obtain (LAmqpDial (amqp_url m)) None w with                (* :37 *)
      | (None, w1) => (mkObj None (o_chan o), false, w1)
      | (Some h, w1) =>
          match obtain (LAmqpChannel (amqp_url m)) (Some h) w1 with    (* :41 *)
          | (None, w2) => (mkObj (Some h) None, false, w2)
          | (Some ch, w2) => (mkObj (Some h) (Some ch), true, w2)
          end
      end
  end.

(** postgresql/connector.go:29-47 *)
Definition pg_open (o : obj) (s : section) (w : world) : obj * bool * world :=
  match s with
  | None => (o, false, w)                                              (* :33-35 *)
  | Some m =>
      match obtain (LPgOpen (pg_dsn m)) None w with                    (* :39 *)
      | (None, w1) => (mkObj None (o_chan o), false, w1)
      | (Some h, w1) =>
          let '(ok, w2) := ask (LPgPing (pg_dsn m)) w1 in              (* :43 *)
          (mkObj (Some h) (o_chan o), ok, w2)
      end
  end.

(** One call that opens, the last thing Init does: nats/connector.go:23-46,
    nsq/connector.go:25-42, tarantool_queue/connector.go:60-66. *)
Definition single_open (c : lib_call) (o : obj) (w : world) : obj * bool * world :=
  let '(h, w1) := obtain c None w in
  (mkObj h (o_chan o), match h with Some _ => true | None => false end, w1).

Definition nats_open (o : obj) (s : section) (w : world) : obj * bool * world :=
  match s with
  | None => (o, false, w)                                              (* :27-29 *)
  | Some m => single_open (LNatsConnect (mval m k_servers) (nats_name m) (nats_user m)) o w
  end.
Definition nsq_open (o : obj) (s : section) (w : world) : obj * bool * world :=
  match s with
  | None => (o, false, w)                                              (* :29-31 *)
  | Some m => single_open (LNsqProducer (mval m k_server)) o w
  end.
(** tarantool_queue/connector.go:32-67: the numbers are read before connecting *)
Definition tnt_open (o : obj) (s : section) (w : world) : obj * bool * world :=
  match s with
  | None => (o, false, w)
  | Some m =>
      match atoi (mval m k_max_recons), atoi (mval m k_timeout), atoi (mval m k_reconnect) with
      | Some mr, Some t, Some r =>
          single_open (LTntConnect (tnt_addr m) t r mr (mval m k_user) (mval m k_password)) o w
      | _, _, _ => (o, false, w)                                       (* :40-51 *)
      end
  end.

(** redis/connector.go:28-63: the client exists before "queue" is looked up *)
Definition redis_open (o : obj) (s : section) (w : world) : obj * bool * world :=
  match s with
  | None => (o, false, w)
  | Some m =>
      match mget m k_server with
      | None => (o, false, w)                                          (* :37-40 *)
      | Some _ =>
          match atoi (mval m k_db) with
          | None => (o, false, w)                                      (* :47-50 *)
          | Some _ =>
              let '(h, w1) := give None w in                           (* :52-56 *)
              (mkObj (Some h) (o_chan o),
               match mget m k_queue with Some _ => true | None => false end, w1)   (* :58-62 *)
          end
      end
  end.

(** store.go:82: db.Init(params) *)
Definition open_storage (k : store_kind) (o : obj) (s : section) (w : world) : obj * bool * world :=
  match k with
  | KRabbit => rabbit_open o s w
  | KPostgres => pg_open o s w
  | KNats => nats_open o s w
  | KNsq => nsq_open o s w
  | KTarantool => tnt_open o s w
  | KRedis => redis_open o s w
  end.

(** rabbitmq/connector.go:72-87 *)
Definition rabbit_close (o : obj) (w : world) : close_out * world :=
  let conn w :=
    match o_conn o with
    | None => (ClOk, w)
    | Some h => let '(ok, w1) := shut h w in (if ok then ClOk else ClErr, w1)      (* :80-84 *)
    end in
  match o_chan o with
  | None => conn w
  | Some ch => let '(ok, w1) := shut ch w in if ok then conn w1 else (ClErr, w1)   (* :75-79 *)
  end.
(** postgresql:66-68, tarantool_queue:86-88, redis:82-84 *)
Definition plain_close (o : obj) (w : world) : close_out * world :=
  match o_conn o with
  | None => (ClNil, w)
  | Some h => let '(ok, w1) := shut h w in (if ok then ClOk else ClErr, w1)
  end.
(** nats:64-67, nsq:60-63: nothing is reported *)
Definition silent_close (o : obj) (w : world) : close_out * world :=
  match o_conn o with
  | None => (ClNil, w)
  | Some h => (ClOk, drop h w)
  end.
Definition close_storage (k : store_kind) (o : obj) (w : world) : close_out * world :=
  match k with
  | KRabbit => rabbit_close o w
  | KPostgres | KTarantool | KRedis => plain_close o w
  | KNats | KNsq => silent_close o w
  end.

(** Any use of one connector: a history of Init and Close. *)
Inductive use := UInit (s : section) | UClose.
Definition use_step (k : store_kind) (u : use) (st : obj * world) : obj * world :=
  match u with
  | UInit s => let '(o, _, w) := open_storage k (fst st) s (snd st) in (o, w)
  | UClose => (fst st, snd (close_storage k (fst st) (snd st)))
  end.
Definition uses (k : store_kind) (us : list use) : obj * world :=
  fold_left (fun st u => use_step k u st) us (obj0, world0).

(** store.go:58-89: the storages registered and what is open after the loop
    over the map in some iteration order; a connector whose Init fails is
    dropped. *)
Fixpoint load_open (acc : list (store_kind * obj)) (cfg : list (gostr * section)) (w : world)
  : list (store_kind * obj) * load_out * world :=
  match cfg with
  | [] => (acc, LdOk, w)
  | (name, s) :: cfg' =>
      match store_kind_of name with
      | None => (acc, LdUnknown, w)                                    (* :78-80 *)
      | Some k =>
          let '(o, ok, w1) := open_storage k obj0 s w in
          if ok then load_open (acc ++ [(k, o)]) cfg' w1               (* :86 *)
          else (acc, LdInitErr, w1)                                    (* :82-84 *)
      end
  end.
Definition start_storages (cfg : list (gostr * section)) : list (store_kind * obj) * load_out * world :=
  match cfg with
  | [] => ([], LdInvalid, world0)
  | _ :: _ => load_open [] cfg world0
  end.
End Life.
