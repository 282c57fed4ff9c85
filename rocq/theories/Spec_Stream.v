(** * Spec_Stream: what the receiver does with an arbitrary byte stream. *)
From Verif Require Import GoBase Crc Float64 SubRecords Records Package Storage Server
  Spec_Bits Spec_Wf Spec_Rec Spec_Pkg Spec_Server.

Section SpecStream.
Context {E : go_env}.

(** The receiver cuts the stream into units: ten bytes, then as many more as
    the declared length says beyond ten, in 16-bit arithmetic.  For a declared
    length from 10 to 65545 a unit has exactly the declared length; any other
    declared length wraps around. *)
Definition unit_len (s : bytes) : N := 10 + (wire_len s + 65526) mod 65536.
Definition a_unit (u : bytes) : Prop :=
  bytes_ok u = true /\ (10 <= length u)%nat /\ byte_at u 0 = 1 /\ blen u = unit_len u.

(** What lies behind a unit in memory: nothing if it is the bare ten bytes,
    otherwise what Go's append leaves there. *)
Definition room (u : bytes) : bytes :=
  if (length u =? 10)%nat then [] else append_spare (length u).

(** Decode panics on the unit. *)
Definition deadly (u : bytes) : Prop := panics u (room u).

(** What is done with a unit: a negative acknowledgement if it is refused,
    nothing for a confirmation packet, and for application data what
    [app_actions] says. *)
Definition handled (u : bytes) (acts : list action) : Prop :=
  exists p code err, pkg_decode pkg0 (mkSlice u (room u)) = (p, DRet code err) /\
  pPID p = word_at u 7 /\
  (err = true -> code <> 0 /\ exists ack, acts = [AWrite ack] /\ is_ack ack (pPID p) code 0 []) /\
  (err = false -> code = 0 /\
     ((pPT p = 0 /\ acts = [] /\ exists r, pSFRD p = Some (FResp r)) \/
      (pPT p = 1 /\ exists l, pSFRD p = Some (FSds l) /\ app_actions (pPID p) l acts))).

(** The input is exhausted in the middle of something: the handler returns, or
    waits if the peer keeps the connection open. *)
Definition starved (e : conn_end) : conn_fin :=
  match e with COpen => FinBlocked | CEof | CErr => FinClosed end.

(** [received s e acts f]: on the stream [s] ending with [e] the handler
    performs [acts] and ends with [f]. *)
Inductive received : bytes -> conn_end -> list action -> conn_fin -> Prop :=
| rc_no_header s e : (length s < 10)%nat -> received s e [] (starved e)
| rc_not_egts s e : (10 <= length s)%nat -> byte_at s 0 <> 1 -> received s e [] FinClosed
| rc_cut s e : (10 <= length s)%nat -> byte_at s 0 = 1 -> blen s < unit_len s ->
    received s e [] (starved e)
| rc_dies u s e : a_unit u -> deadly u -> received (u ++ s) e [] FinCrashed
| rc_next u s e acts acts' f : a_unit u -> ~ deadly u -> handled u acts ->
    received s e acts' f -> received (u ++ s) e (acts ++ acts') f.

(** A stream that makes the receiver decode a deadly unit: some units that are
    not, then one that is. *)
Definition poisonous (s : bytes) : Prop :=
  exists us u rest, s = concat us ++ u ++ rest /\
    Forall (fun v => a_unit v /\ ~ deadly v) us /\ a_unit u /\ deadly u.

End SpecStream.
