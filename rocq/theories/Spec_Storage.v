(** * Spec_Storage: the documented storage names, and what loading and saving
    are expected to do. *)
From Coq Require Import String Ascii.
From Verif Require Import GoBase Float64 Storage.

(** the bytes of a text *)
Definition text (s : string) : gostr := map N_of_ascii (list_ascii_of_string s).

(** README and store.go: the storage sections that may be configured *)
Inductive documented : gostr -> store_kind -> Prop :=
| doc_rabbitmq : documented (text "rabbitmq") KRabbit
| doc_postgresql : documented (text "postgresql") KPostgres
| doc_nats : documented (text "nats") KNats
| doc_nsq : documented (text "nsq") KNsq
| doc_tarantool : documented (text "tarantool_queue") KTarantool
| doc_redis : documented (text "redis") KRedis.

(** [st] is the storage that the section [entry] asks for, initialised. *)
Definition opened {params} (init : store_kind -> params -> bool) (entry : gostr * params) (st : store_kind * params) : Prop :=
  documented (fst entry) (fst st) /\ snd st = snd entry /\ init (fst st) (snd st) = true.

(** ** Connectors *)
From Verif Require Import Connectors.

(** the value of a string of decimal digits *)
Fixpoint digits_value (s : gostr) : Z :=
  match s with
  | [] => 0%Z
  | c :: s' => ((Z.of_N c - 48) * 10 ^ Z.of_nat (List.length s') + digits_value s')%Z
  end.
(** [s] is a decimal numeral for [z], which fits 64 bits *)
Definition numeral (s : gostr) (z : Z) : Prop :=
  (- 2 ^ 63 <= z < 2 ^ 63)%Z /\
  exists sign d, (sign = [] \/ sign = text "+" \/ sign = text "-") /\
    s = sign ++ d /\ d <> [] /\ Forall (fun c => (48 <= c <= 57)%N) d /\
    z = (if list_eq_dec N.eq_dec sign (text "-") then - digits_value d else digits_value d)%Z.

(** the configured value of a key, or the empty string *)
Definition setting (m : list (gostr * gostr)) (k : string) : gostr := mval m (text k).

(** Where the record goes, by the documentation of each connector: the library
    call that must carry the bytes [b]. *)
Definition destination (k : store_kind) (m : list (gostr * gostr)) (b : bytes) (call : lib_call) : Prop :=
  let s := setting m in
  match k with
  | KRabbit => call = LAmqpPublish
      (text "amqp://" ++ s "user"%string ++ text ":" ++ s "password"%string ++ text "@" ++ s "host"%string ++ text ":" ++ s "port"%string ++ text "/")
      (s "exchange"%string) (s "key"%string) b
  | KPostgres => call = LPgExec
      (text "dbname=" ++ s "database"%string ++ text " host=" ++ s "host"%string ++ text " port=" ++ s "port"%string
       ++ text " user=" ++ s "user"%string ++ text " password=" ++ s "password"%string ++ text " sslmode=" ++ s "sslmode"%string)
      (text "INSERT INTO " ++ s "table"%string ++ text " (point) VALUES ($1)") b
  | KNats => call = LNatsPublish (s "servers"%string) (s "topic"%string) b
  | KNsq => call = LNsqPublish (s "server"%string) (s "topic"%string) b
  | KTarantool => call = LTntPut (s "host"%string ++ text ":" ++ s "port"%string) (s "queue"%string) b
  | KRedis => exists db, numeral (s "db"%string) db /\
      call = LRedisPublish (s "server"%string) (s "password"%string) db (s "queue"%string) b
  end.

(** What a section asks of the client library when the receiver starts: the
    connection is made with the configured address, credentials and times, and
    the library accepts it. *)
Definition opens (lib : lib_call -> bool) (k : store_kind) (m : list (gostr * gostr)) : Prop :=
  let s := setting m in
  match k with
  | KRabbit =>
      let url := text "amqp://" ++ s "user"%string ++ text ":" ++ s "password"%string ++ text "@" ++ s "host"%string ++ text ":" ++ s "port"%string ++ text "/" in
      lib (LAmqpDial url) = true /\ lib (LAmqpChannel url) = true
  | KPostgres =>
      let dsn := text "dbname=" ++ s "database"%string ++ text " host=" ++ s "host"%string ++ text " port=" ++ s "port"%string
        ++ text " user=" ++ s "user"%string ++ text " password=" ++ s "password"%string ++ text " sslmode=" ++ s "sslmode"%string in
      lib (LPgOpen dsn) = true /\ lib (LPgPing dsn) = true
  | KNats =>                                   (* credentials only if both are configured *)
      lib (LNatsConnect (s "servers"%string) (text "EGTS handler, topic: " ++ s "topic"%string)
             (match mget m (text "user"), mget m (text "password") with
              | Some u, Some p => Some (u, p)
              | _, _ => None
              end)) = true
  | KNsq => lib (LNsqProducer (s "server"%string)) = true
  | KTarantool => exists timeout reconnect attempts,
      numeral (s "timeout"%string) timeout /\ numeral (s "reconnect"%string) reconnect /\ numeral (s "max_recons"%string) attempts /\
      lib (LTntConnect (s "host"%string ++ text ":" ++ s "port"%string) timeout reconnect attempts (s "user"%string) (s "password"%string)) = true
  | KRedis => exists db, mget m (text "server") <> None /\ mget m (text "queue") <> None /\ numeral (s "db"%string) db
  end.
