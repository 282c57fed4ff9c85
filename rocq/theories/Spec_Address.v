(** * Spec_Address: addresses of TCP listeners as text. *)
From Verif Require Import GoBase.

(** no colon and no bracket *)
Definition plain (s : gostr) : Prop := ~ In 58 s /\ ~ In 91 s /\ ~ In 93 s.
Definition no_bracket (s : gostr) : Prop := ~ In 91 s /\ ~ In 93 s.
(** [a] is host:port, or [host]:port with a host that may have colons *)
Inductive written : gostr -> gostr -> gostr -> Prop :=
| wr_plain h p : plain h -> plain p -> written (h ++ [58] ++ p) h p
| wr_bracketed h p : no_bracket h -> plain p -> written ([91] ++ h ++ [93] ++ [58] ++ p) h p.
