(** * Spec_Timed: when a connection is closed, and how many timers run. *)
From Verif Require Import GoBase Crc Float64 SubRecords Records Package Storage Server Timed
  Spec_Bits Spec_Wf Spec_Rec Spec_Pkg Spec_Server Spec_Stream.
Local Open Scope Z_scope.

Section SpecTimed.
Context {E : go_env}.

(** Bytes with arrival times; without them; the later of [t] and the last
    arrival. *)
Definition octets (l : list (Z * N)) : bytes := map snd l.
Definition all_there (t : Z) (l : list (Z * N)) : Z := fold_right Z.max t (map fst l).
(** Nothing arrives after the end of the input. *)
Definition before_end (l : list (Z * N)) (te : Z) : Prop := Forall (fun x => fst x <= te) l.

(** When the handler is done with the packets [pks], the first of them the
    [i]-th of the connection, if it is free at time [t]: each is taken up when
    it is there and the one before is done. *)
Fixpoint done_at (dur : nat -> Z) (i : nat) (t : Z) (pks : list (list (Z * N))) : Z :=
  match pks with
  | [] => t
  | pk :: pks' => done_at dur (S i) (all_there t pk + dur i) pks'
  end.

(** When each of the packets is taken up. *)
Fixpoint taken_at (dur : nat -> Z) (i : nat) (t : Z) (pks : list (list (Z * N))) : list Z :=
  match pks with
  | [] => []
  | pk :: pks' => all_there t pk :: taken_at dur (S i) (all_there t pk + dur i) pks'
  end.

(** [a] is when the last byte of a packet arrives. *)
Definition last_arrival (pk : list (Z * N)) (a : Z) : Prop := In a (map fst pk) /\ Forall (fun x => fst x <= a) pk.

(** The input is [pks], good packets, followed by [s], which is not (yet) one. *)
Definition brings (c : timed_in) (pks : list (list (Z * N))) (s : list (Z * N)) : Prop :=
  ti_data c = concat pks ++ s /\ Forall (fun pk => good (octets pk)) pks /\
  (incomplete (octets s) \/ alien (octets s)) /\ before_end (ti_data c) (ti_at c).

(** A timer runs from when it is made, and again from when it is reset, for
    [ttl]. *)
Definition running (ttl t : Z) (tm : timer) : bool :=
  match tm_reset tm with
  | None => (tm_made tm <=? t) && (t <? tm_made tm + ttl)
  | Some r => if t <? r then (tm_made tm <=? t) && (t <? tm_made tm + ttl) else t <? r + ttl
  end.
Definition timers_at (ttl t : Z) (o : timed_out) : nat := length (filter (running ttl t) (to_timers o)).

(** The times at which the header of each packet was there. *)
Fixpoint headers_at (dur : nat -> Z) (i : nat) (t : Z) (pks : list (list (Z * N))) : list Z :=
  match pks with
  | [] => []
  | pk :: pks' => all_there t (firstn 10 pk) :: headers_at dur (S i) (all_there t pk + dur i) pks'
  end.
(** The timers: for every packet one made when the handler was free and reset
    when the header was there, and one more for what follows. *)
Fixpoint timers_of (dur : nat -> Z) (i : nat) (t : Z) (pks : list (list (Z * N))) (s : list (Z * N)) : list timer :=
  match pks with
  | [] => [mkTimer t (if (10 <=? length s)%nat then Some (all_there t (firstn 10 s)) else None)]
  | pk :: pks' => mkTimer t (Some (all_there t (firstn 10 pk))) :: timers_of dur (S i) (all_there t pk + dur i) pks' s
  end.
(** How many headers are less than [ttl] old at time [t]. *)
Definition recent (ttl t : Z) (hs : list Z) : nat := length (filter (fun h => (h <=? t) && (t <? h + ttl)) hs).

End SpecTimed.
