(** * Spec_Hang: the vocabulary of the properties about storages that do not answer. *)
From Verif Require Import GoBase Float64 SubRecords Records Package Storage Server Hang.
From Coq Require Import List.
Import ListNotations.

(** the events of Hang.v among those of Server.v *)
Definition visible (evs : list event) : list hevent :=
  flat_map (fun e => match e with EWrite b => [HSent b] | ECall k n _ => [HCalled k n] | ESaved _ _ => [] end) evs.
(** the storages of Server.v as answers: the error is all that is seen *)
Definition answers (stores : list saver) (k : nat) (h : list nav_record) : h_out :=
  match nth_error stores k with
  | Some s => match s h with SvOk => HOk | _ => HErr end
  | None => HErr
  end.
