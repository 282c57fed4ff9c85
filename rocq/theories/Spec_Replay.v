(** * Spec_Replay: files of packets in hexadecimal. *)
From Verif Require Import GoBase Float64 Records Package Server Spec_Server.

Definition hex_digit (c x : N) : Prop :=
  (48 <= c <= 57 /\ x = c - 48) \/ (97 <= c <= 102 /\ x = c - 87) \/ (65 <= c <= 70 /\ x = c - 55).

(** [s] spells the bytes [b], two digits for each *)
Inductive spells : gostr -> bytes -> Prop :=
| spells_nil : spells [] []
| spells_byte c d x y s b : hex_digit c x -> hex_digit d y -> spells s b -> spells (c :: d :: s) (16 * x + y :: b).
(** the same with blanks before any byte and at the end (spaces and tabs) *)
Inductive spells_spaced : gostr -> bytes -> Prop :=
| spaced_nil : spells_spaced [] []
| spaced_blank s b : spells_spaced s b -> forall c, c = 32 \/ c = 9 -> spells_spaced (c :: s) b
| spaced_byte c d x y s b : hex_digit c x -> hex_digit d y -> spells_spaced s b -> spells_spaced (c :: d :: s) (16 * x + y :: b).

Section SpecReplay.
Context {E : go_env}.
(** the receiver has something to say to [b]: it is no response and carries no
    confirmation *)
Definition calls_for_reply (b : bytes) : Prop :=
  forall p, decodes_to b p -> exists l, pSFRD p = Some (FSds l) /\ confirms l = false.
End SpecReplay.
