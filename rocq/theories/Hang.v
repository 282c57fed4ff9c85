(** * Hang: a storage whose Save does not return.  No proofs here.

    Repository.Save (storage/store.go:48-55) calls the storages one after the
    other in the goroutine of the connection, and no connector's Save has a
    deadline of its own (store/*/connector.go).  [Server.v] has calls that
    succeed, fail or panic; here the actions of one connection are performed
    with storages of which a call may also never return. *)
From Verif Require Import GoBase Float64 SubRecords Records Package Storage Server.

(** What becomes of one call of Save. *)
Inductive h_out := HOk | HErr | HHang.
(** What is seen of the goroutine: the [k]-th storage is called with a record, a
    reply is written. *)
Inductive hevent := HCalled (k : nat) (n : nav_record) | HSent (b : bytes).

(** Everything storage [k] was handed, and every reply, oldest first. *)
Definition handed (k : nat) (tr : list hevent) : list nav_record :=
  flat_map (fun x => match x with HCalled k' n => if Nat.eqb k k' then [n] else [] | HSent _ => [] end) tr.
Definition replies (tr : list hevent) : list bytes :=
  flat_map (fun x => match x with HCalled _ _ => [] | HSent b => [b] end) tr.

Section Hang.
Context {E : go_env}.
Variable storages : nat.
(** what storage [k] does when it has been handed these records, the last one
    now *)
Variable ans : nat -> list nav_record -> h_out.

(** store.go:48-55: [left] storages remain to be called, the next is the [k]-th;
    and whether the goroutine is held *)
Fixpoint hsave (left k : nat) (n : nav_record) (tr : list hevent) : list hevent * bool :=
  match left with
  | O => (tr, false)
  | S left' =>
      let tr' := tr ++ [HCalled k n] in
      match ans k (handed k tr') with
      | HOk => hsave left' (S k) n tr'
      | HErr => (tr', false)
      | HHang => (tr', true)
      end
  end.

(** server.go:133, 290-295, 304, 309: an error of Save is only logged *)
Fixpoint hperform (tr : list hevent) (acts : list action) : list hevent * bool :=
  match acts with
  | [] => (tr, false)
  | AWrite b :: l => hperform (tr ++ [HSent b]) l
  | ASave n :: l => let '(tr', held) := hsave storages 0 n tr in
                    if held then (tr', true) else hperform tr' l
  end.

(** A whole connection (server.go:58-319); None: it never gets to its end,
    because it is held in a Save. *)
Definition hung (c : conn_in) : list hevent * option conn_fin :=
  let '(acts, f) := conn_exec c in
  let '(tr, held) := hperform [] acts in (tr, if held then None else Some f).
End Hang.

(** Storage [k] does not return from the [m]-th call; otherwise all is well. *)
Definition hangs_at (k m : nat) (j : nat) (h : list nav_record) : h_out :=
  if Nat.eqb j k && Nat.eqb (length h) m then HHang else HOk.
