(** * Spec_Insert: names of tables. *)
From Coq Require Import List.
From Verif Require Import GoBase.

(** a name that PostgreSQL takes for itself without quotes: lower-case letters,
    digits, underscores, dollar signs and characters beyond ASCII, not beginning
    with a digit or a dollar sign; at most 63 bytes; no word with a meaning *)
Definition name_start (c : N) : Prop := 97 <= c <= 122 \/ c = 95 \/ 128 <= c.
Definition name_char (c : N) : Prop := name_start c \/ 48 <= c <= 57 \/ c = 36.
Definition simple_name (keyword : gostr -> bool) (t : gostr) : Prop :=
  (exists c t', t = c :: t' /\ name_start c) /\ Forall name_char t /\ (length t <= 63)%nat /\ keyword t = false.
(** [c] and [d] are the same but for the case of an ASCII letter, which is lower
    in [d] *)
Definition lowered (c d : N) : Prop := (65 <= c <= 90 /\ d = c + 32) \/ (~ 65 <= c <= 90 /\ d = c).
(** a name between double quotes, with the double quotes in it doubled *)
Fixpoint doubled (t : gostr) : gostr :=
  match t with [] => [] | c :: t' => if c =? 34 then 34 :: 34 :: doubled t' else c :: doubled t' end.
Definition in_quotes (t : gostr) : gostr := [34] ++ doubled t ++ [34].
