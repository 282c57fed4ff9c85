(** * Spec_Accept: which fields a subrecord has and which of them are there. *)
From Verif Require Import GoBase Float64 SubRecords Records Spec_Layout.

(** The widths, in order, of the fields of a subrecord of type [t] whose flag
    bytes are those of [b]; an absent optional field has width 0. *)
Definition optional8 (b : bytes) (off w : nat) : list nat :=
  [opt_size b off 0 w; opt_size b off 1 w; opt_size b off 2 w; opt_size b off 3 w;
   opt_size b off 4 w; opt_size b off 5 w; opt_size b off 6 w; opt_size b off 7 w].
Definition sub_fields (t : N) (b : bytes) : option (list nat) :=
  match t with
  | 1 => Some [4; 1; opt_size b 4 0 2; opt_size b 4 1 15; opt_size b 4 2 16; opt_size b 4 3 3;
               opt_size b 4 5 3; opt_size b 4 6 2; opt_size b 4 7 15]%nat
  | 5 => Some [1; 4]%nat
  | 9 => Some [1]%nat
  | 16 => Some [4; 4; 4; 1; 2; 1; 3; 1; 1; opt_size b 12 7 3]%nat
  | 17 => Some [1; opt_size b 0 0 2; opt_size b 0 1 2; opt_size b 0 2 2; opt_size b 0 3 1; opt_size b 0 4 2]%nat
  | 18 => Some ([1; 1; 1]%nat ++ optional8 b 0 1 ++ optional8 b 2 3)
  | 19 => Some (1%nat :: optional8 b 0 3)
  | 21 => Some [1; 1; 1; 1; 1]%nat
  | 24 => Some [1; 1; 1; 1]%nat
  | 25 => Some [1; 3]%nat
  | 27 => Some [1; 2; 4]%nat
  | _ => None
  end.

(** Every field that is present begins within the first [n] bytes. *)
Fixpoint begun (ws : list nat) (off n : nat) : Prop :=
  match ws with
  | [] => True
  | w :: ws' => (w = 0 \/ off < n)%nat /\ begun ws' (off + w)%nat n
  end.
(** Every field that is present ends within the first [n] bytes. *)
Definition complete (ws : list nat) (n : nat) : Prop := (fold_right Nat.add 0 ws <= n)%nat.
(** The width of the last field that is present. *)
Definition last_width (ws : list nat) : nat := last (filter (fun w => negb (w =? 0)%nat) ws) 0%nat.
