(** * Config: cli/receiver/config/config.go.  No proofs here. *)
From Verif Require Import GoBase.

(** config.go:15-21 (the storage section is in Storage.v) *)
Record settings := mkSettings {
  cfHost : gostr; cfPort : gostr; cfConnTTL : Z; cfLogLevel : gostr }.

(** int64 wrap-around *)
Definition wrap64 (z : Z) : Z := ((z + 2 ^ 63) mod 2 ^ 64 - 2 ^ 63)%Z.

(** config.go:23-25: time.Duration(ConnTTl) * time.Second (int64 nanoseconds) *)
Definition get_ttl (s : settings) : Z := wrap64 (cfConnTTL s * 1000000000).

(** config.go:26-28 *)
Definition get_addr (s : settings) : gostr := cfHost s ++ [58] ++ cfPort s.

Inductive log_level := DebugLevel | InfoLevel | WarnLevel | ErrorLevel.
Definition str_DEBUG : gostr := [68;69;66;85;71].
Definition str_INFO : gostr := [73;78;70;79].
Definition str_WARN : gostr := [87;65;82;78].
Definition str_ERROR : gostr := [69;82;82;79;82].

(** config.go:30-50 *)
Definition get_level (s : settings) : log_level :=
  if str_eqb (cfLogLevel s) str_DEBUG then DebugLevel
  else if str_eqb (cfLogLevel s) str_INFO then InfoLevel
  else if str_eqb (cfLogLevel s) str_WARN then WarnLevel
  else if str_eqb (cfLogLevel s) str_ERROR then ErrorLevel
  else InfoLevel.
