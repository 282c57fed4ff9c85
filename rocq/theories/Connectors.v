(** * Connectors: cli/receiver/storage/store/*/connector.go and default.go.  No
    proofs here.  The client libraries (amqp, database/sql, nats, go-nsq,
    go-tarantool, go-redis) are an arbitrary function [lib] answering whether a
    call succeeds; what is modelled is which call each connector makes, with
    which arguments, and what it does with the answer. *)
From Verif Require Import GoBase Float64 Storage.

(** A section of the configuration: the nil map, or a map (an association list;
    a Go map has each key once). *)
Definition section := option (list (gostr * gostr)).

(** v, ok := m[k] *)
Fixpoint mget (m : list (gostr * gostr)) (k : gostr) : option gostr :=
  match m with
  | [] => None
  | (k', v) :: m' => if str_eqb k' k then Some v else mget m' k
  end.
(** m[k]: the empty string when absent *)
Definition mval (m : list (gostr * gostr)) (k : gostr) : gostr :=
  match mget m k with Some v => v | None => [] end.

(** strconv.Atoi (int is 64 bits): optional sign, at least one decimal digit,
    nothing else, in range; otherwise an error. *)
Definition is_digit (c : N) : bool := (48 <=? c) && (c <=? 57).
Definition digits_val (s : gostr) : Z := fold_left (fun a c => (10 * a + (Z.of_N c - 48))%Z) s 0%Z.
Definition atoi_unsigned (neg : bool) (d : gostr) : option Z :=
  match d with
  | [] => None
  | _ :: _ =>
      if forallb is_digit d then
        let v := if neg then (- digits_val d)%Z else digits_val d in
        if ((- 2 ^ 63 <=? v) && (v <? 2 ^ 63))%Z then Some v else None
      else None
  end.
Definition atoi (s : gostr) : option Z :=
  match s with
  | [] => None
  | c :: d => if c =? 43 then atoi_unsigned false d             (* + *)
              else if c =? 45 then atoi_unsigned true d         (* - *)
              else atoi_unsigned false s
  end.

(** The calls of the client libraries. *)
Inductive lib_call :=
| LAmqpDial (url : gostr)                                        (* amqp.Dial *)
| LAmqpChannel (url : gostr)                                     (* Connection.Channel *)
| LAmqpPublish (url exchange key : gostr) (body : bytes)
| LPgOpen (dsn : gostr) | LPgPing (dsn : gostr)
| LPgExec (dsn query : gostr) (arg : bytes)
| LNatsConnect (servers name : gostr) (user : option (gostr * gostr))
| LNatsPublish (servers topic : gostr) (body : bytes)
| LNsqProducer (addr : gostr)
| LNsqPublish (addr topic : gostr) (body : bytes)
| LTntConnect (addr : gostr) (timeout reconnect max_recons : Z) (user password : gostr)
| LTntPut (addr queue : gostr) (body : bytes)
| LRedisPublish (addr password : gostr) (db : Z) (queue : gostr) (body : bytes).

(** the keys *)
Definition k_user : gostr := [117;115;101;114].
Definition k_password : gostr := [112;97;115;115;119;111;114;100].
Definition k_host : gostr := [104;111;115;116].
Definition k_port : gostr := [112;111;114;116].
Definition k_exchange : gostr := [101;120;99;104;97;110;103;101].
Definition k_key : gostr := [107;101;121].
Definition k_database : gostr := [100;97;116;97;98;97;115;101].
Definition k_sslmode : gostr := [115;115;108;109;111;100;101].
Definition k_table : gostr := [116;97;98;108;101].
Definition k_topic : gostr := [116;111;112;105;99].
Definition k_servers : gostr := [115;101;114;118;101;114;115].
Definition k_server : gostr := [115;101;114;118;101;114].
Definition k_db : gostr := [100;98].
Definition k_queue : gostr := [113;117;101;117;101].
Definition k_max_recons : gostr := [109;97;120;95;114;101;99;111;110;115].
Definition k_timeout : gostr := [116;105;109;101;111;117;116].
Definition k_reconnect : gostr := [114;101;99;111;110;110;101;99;116].

(** An initialised connector: what Save will use. *)
Inductive conn :=
| CnAmqp (url exchange key : gostr)
| CnPg (dsn query : gostr)
| CnNats (servers topic : gostr)
| CnNsq (addr topic : gostr)
| CnTnt (addr queue : gostr)
| CnRedis (addr password : gostr) (db : Z) (queue : gostr)
| CnLog.

Section Lib.
Variable lib : lib_call -> bool.

(** rabbitmq/connector.go:28-46; the URL is
    "amqp://%s:%s@%s:%s/" of user, password, host, port *)
Definition amqp_url (m : list (gostr * gostr)) : gostr :=
  [97;109;113;112;58;47;47] ++ mval m k_user ++ [58] ++ mval m k_password ++ [64]
  ++ mval m k_host ++ [58] ++ mval m k_port ++ [47].
Definition init_rabbit (s : section) : option conn :=
  match s with
  | None => None                                                       (* :32-34 *)
  | Some m =>
      if negb (lib (LAmqpDial (amqp_url m))) then None                 (* :38-40 *)
      else if negb (lib (LAmqpChannel (amqp_url m))) then None         (* :42-44 *)
      else Some (CnAmqp (amqp_url m) (mval m k_exchange) (mval m k_key))
  end.

(** postgresql/connector.go:28-46; "dbname=%s host=%s port=%s user=%s
    password=%s sslmode=%s"; the query of :58 is
    "INSERT INTO %s (point) VALUES ($1)" *)
Definition pg_dsn (m : list (gostr * gostr)) : gostr :=
  [100;98;110;97;109;101;61] ++ mval m k_database ++ [32;104;111;115;116;61] ++ mval m k_host
  ++ [32;112;111;114;116;61] ++ mval m k_port ++ [32;117;115;101;114;61] ++ mval m k_user
  ++ [32;112;97;115;115;119;111;114;100;61] ++ mval m k_password
  ++ [32;115;115;108;109;111;100;101;61] ++ mval m k_sslmode.
Definition pg_query (m : list (gostr * gostr)) : gostr :=
  [73;78;83;69;82;84;32;73;78;84;79;32] ++ mval m k_table
  ++ [32;40;112;111;105;110;116;41;32;86;65;76;85;69;83;32;40;36;49;41].
Definition init_pg (s : section) : option conn :=
  match s with
  | None => None
  | Some m =>
      if negb (lib (LPgOpen (pg_dsn m))) then None
      else if negb (lib (LPgPing (pg_dsn m))) then None
      else Some (CnPg (pg_dsn m) (pg_query m))
  end.

(** nats/connector.go:23-46; the client name is "EGTS handler, topic: %s"; the
    three nil options of make([]Option, 3) are skipped by the library. *)
Definition nats_name (m : list (gostr * gostr)) : gostr :=
  [69;71;84;83;32;104;97;110;100;108;101;114;44;32;116;111;112;105;99;58;32] ++ mval m k_topic.
Definition nats_user (m : list (gostr * gostr)) : option (gostr * gostr) :=
  match mget m k_user with
  | None => None
  | Some u => match mget m k_password with None => None | Some p => Some (u, p) end
  end.
Definition init_nats (s : section) : option conn :=
  match s with
  | None => None
  | Some m =>
      if negb (lib (LNatsConnect (mval m k_servers) (nats_name m) (nats_user m))) then None
      else Some (CnNats (mval m k_servers) (mval m k_topic))
  end.

(** nsq/connector.go:25-42 *)
Definition init_nsq (s : section) : option conn :=
  match s with
  | None => None
  | Some m =>
      if negb (lib (LNsqProducer (mval m k_server))) then None
      else Some (CnNsq (mval m k_server) (mval m k_topic))
  end.

(** tarantool_queue/connector.go:31-66.  Timeout and Reconnect are seconds as
    durations, MaxReconnects a uint: their wrap-around is left to the library
    call. *)
Definition tnt_addr (m : list (gostr * gostr)) : gostr := mval m k_host ++ [58] ++ mval m k_port.
Definition init_tnt (s : section) : option conn :=
  match s with
  | None => None
  | Some m =>
      match atoi (mval m k_max_recons) with
      | None => None
      | Some mr =>
          match atoi (mval m k_timeout) with
          | None => None
          | Some t =>
              match atoi (mval m k_reconnect) with
              | None => None
              | Some r =>
                  if negb (lib (LTntConnect (tnt_addr m) t r mr (mval m k_user) (mval m k_password))) then None
                  else Some (CnTnt (tnt_addr m) (mval m k_queue))
              end
          end
      end
  end.

(** redis/connector.go:28-62.  The default for a missing "db" (:43-46) is
    guarded by the ok of "server", which is true there. *)
Definition init_redis (s : section) : option conn :=
  match s with
  | None => None
  | Some m =>
      match mget m k_server with
      | None => None                                                   (* :38-41 *)
      | Some addr =>
          let ok := true in
          let configDb := mval m k_db in
          let configDb := if negb ok then [48] else configDb in
          match atoi configDb with
          | None => None                                               (* :48-51 *)
          | Some db =>
              match mget m k_queue with                                (* redis.NewClient does not dial *)
              | None => None                                           (* :59-62 *)
              | Some q => Some (CnRedis addr (mval m k_password) db q)
              end
          end
      end
  end.

(** store.go:66-85: &X.Connector{} and Init *)
Definition connector_init (k : store_kind) (s : section) : option conn :=
  match k with
  | KRabbit => init_rabbit s
  | KPostgres => init_pg s
  | KNats => init_nats s
  | KNsq => init_nsq s
  | KTarantool => init_tnt s
  | KRedis => init_redis s
  end.

(** The library call a Save makes. *)
Definition publish_call (c : conn) (body : bytes) : option lib_call :=
  match c with
  | CnAmqp url exchange key => Some (LAmqpPublish url exchange key body)
  | CnPg dsn query => Some (LPgExec dsn query body)
  | CnNats servers topic => Some (LNatsPublish servers topic body)
  | CnNsq addr topic => Some (LNsqPublish addr topic body)
  | CnTnt addr queue => Some (LTntPut addr queue body)
  | CnRedis addr password db queue => Some (LRedisPublish addr password db queue body)
  | CnLog => None
  end.
(** Connector.Save of a non-nil message whose ToBytes gives [msg] (None: an
    error): the call made and the outcome.  rabbitmq :48-71, postgresql :48-64,
    nats :48-62, nsq :44-58, tarantool :68-83, redis :64-79 (which panics when
    Publish fails), default.go:14-22. *)
Definition connector_save (c : conn) (msg : option bytes) : option lib_call * save_out :=
  match msg with
  | None => (None, SvErr)
  | Some b =>
      match publish_call c b with
      | None => (None, SvOk)                                           (* logged *)
      | Some call =>
          (Some call, if lib call then SvOk
                      else match c with CnRedis _ _ _ _ => SvPanic | _ => SvErr end)
      end
  end.
End Lib.

(** *** The parts of main.go that decide what runs *)

(** default.go and main.go:27-39: loading with the real connectors. *)
Definition load_connectors (lib : lib_call -> bool) (cfg : list (gostr * section)) : list (store_kind * section) * load_out :=
  load_storages section (fun k s => match connector_init lib k s with Some _ => true | None => false end) [] cfg.
Definition main_connectors (lib : lib_call -> bool) (cfg : list (gostr * section)) : list conn :=
  let '(l, o) := load_connectors lib cfg in
  flat_map (fun ks => match connector_init lib (fst ks) (snd ks) with Some c => [c] | None => [] end) l
  ++ match o with LdOk => [] | _ => [CnLog] end.
