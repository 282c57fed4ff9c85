(** * Spec_Bits: well-formed flag strings and optional values. *)
From Verif Require Import GoBase.

Definition bit_char (c : N) : bool := (c =? ch0) || (c =? ch1).
(** a string of exactly n binary digits *)
Definition bits_ok (n : nat) (s : gostr) : bool := (length s =? n)%nat && forallb bit_char s.

(** An optional k-byte number: in range when its flag is "1", and zero (absent)
    otherwise. *)
Definition opt_num (k : nat) (flag : gostr) (v : N) : bool :=
  bits_ok 1 flag && (if is1 flag then v <? 256 ^ N.of_nat k else v =? 0).
(** An optional byte string of exactly k bytes, empty when absent. *)
Definition opt_bytes (k : nat) (flag : gostr) (s : bytes) : bool :=
  bits_ok 1 flag && bytes_ok s &&
  (length s =? (if is1 flag then k else 0))%nat.

(** A predicate on all eight pairs of fields. *)
Definition all8 {A B} (f : A -> B -> bool) (a : oct A) (b : oct B) : bool :=
  f (o1 a) (o1 b) && f (o2 a) (o2 b) && f (o3 a) (o3 b) && f (o4 a) (o4 b)
  && f (o5 a) (o5 b) && f (o6 a) (o6 b) && f (o7 a) (o7 b) && f (o8 a) (o8 b).
