(** * Spec_Dsn: settings that can stand in a connection string unquoted. *)
From Coq Require Import String.
From Verif Require Import GoBase Storage Connectors Spec_Storage Spec_Yaml.

(** space, tab, line feed, vertical tab, form feed, carriage return *)
Definition white (c : N) : Prop := c = 32 \/ (9 <= c <= 13).
Definition ascii_text (v : gostr) : Prop := Forall (fun c => c < 128) v.

(** no white space, no backslash, no quote in front *)
Definition unquoted (v : gostr) : Prop :=
  Forall (fun c => ~ white c /\ c <> 92) v /\ forall v', v <> 39 :: v'.

(** driver parameter, setting of the postgresql section *)
Definition pg_parameters : list (string * string) :=
  [("dbname", "database"); ("host", "host"); ("port", "port"); ("user", "user"); ("password", "password"); ("sslmode", "sslmode")]%string.

(** the driver is given every setting of the section *)
Definition receives (m : list (gostr * gostr)) (o : list (gostr * gostr)) : Prop :=
  Forall (fun ks => given o (text (fst ks)) = Some (setting m (snd ks))) pg_parameters.
