(** * Spec_Settings: what it means for a setting to take effect. *)
From Coq Require Import String List.
From Verif Require Import GoBase Storage Connectors Spec_Storage.
Import ListNotations.

(** The section with [key] set to [v]. *)
Definition with_setting (m : list (gostr * gostr)) (key : string) (v : gostr) : list (gostr * gostr) := (text key, v) :: m.

(** Two sections nothing can tell apart: whatever the client library answers,
    both open or neither does, and every record makes them call the library in
    the same way, with the same outcome. *)
Definition same_conduct (k : store_kind) (m m' : list (gostr * gostr)) : Prop :=
  forall lib lib' b,
    option_map (fun c => connector_save lib' c (Some b)) (connector_init lib k (Some m)) =
    option_map (fun c => connector_save lib' c (Some b)) (connector_init lib k (Some m')).
(** A section with which the connector can open at all. *)
Definition usable (k : store_kind) (m : list (gostr * gostr)) : Prop := exists lib, connector_init lib k (Some m) <> None.

(** The keys that the comment at the head of each connector.go documents. *)
Definition documented_keys (k : store_kind) : list string :=
  match k with
  | KRabbit => ["host"; "port"; "user"; "password"; "exchange"; "exchange_type"]
  | KPostgres => ["host"; "port"; "user"; "password"; "database"; "table"; "sslmode"]
  | KNats => ["servers"; "topic"]
  | KNsq => ["servers"; "topic"]
  | KTarantool => ["host"; "port"; "user"; "password"; "max_recons"; "timeout"; "reconnect"; "queue"]
  | KRedis => ["server"; "queue"; "password"; "db"]
  end%string.
(** The keys that take effect. *)
Definition effective_keys (k : store_kind) : list string :=
  match k with
  | KRabbit => ["host"; "port"; "user"; "password"; "exchange"; "key"]
  | KPostgres => ["host"; "port"; "user"; "password"; "database"; "table"; "sslmode"]
  | KNats => ["servers"; "topic"; "user"; "password"]
  | KNsq => ["server"; "topic"]
  | KTarantool => ["host"; "port"; "user"; "password"; "max_recons"; "timeout"; "reconnect"; "queue"]
  | KRedis => ["server"; "queue"; "password"; "db"]
  end%string.
(** Settings that are read as numbers, and the one that is read only together
    with another. *)
Definition numeric (k : store_kind) (key : string) : Prop :=
  match k with
  | KTarantool => In key ["max_recons"; "timeout"; "reconnect"]%string
  | KRedis => key = "db"%string
  | _ => False
  end.
Definition lacks_partner (k : store_kind) (m : list (gostr * gostr)) (key : string) : Prop :=
  k = KNats /\ (key = "user"%string /\ mget m (text "password") = None \/ key = "password"%string /\ mget m (text "user") = None).
Definition same_number (v v' : gostr) : Prop := forall z, numeral v z <-> numeral v' z.
