(** * Spec_Cover: which bytes of a packet its declared lengths place under the
    checksums. *)
From Verif Require Import GoBase Spec_Pkg.

(** The header checksum is taken over the first HL - 1 bytes (255 if HL is 0). *)
Definition in_header_area (hl : N) (i : nat) : Prop := N.of_nat i < (hl + 255) mod 256.
(** The frame checksum is taken over FDL bytes from byte HL on. *)
Definition in_frame_area (hl fdl : N) (i : nat) : Prop := hl <= N.of_nat i < hl + fdl.
Definition protected (hl fdl : N) (i : nat) : Prop := in_header_area hl i \/ in_frame_area hl fdl i.

(** The fields that say how to read the packet (RTE, HL, FDL, PT) and the two
    checksums themselves are the same. *)
Definition same_control (b b' : bytes) : Prop :=
  routed b' = routed b /\ decl_hl b' = decl_hl b /\ decl_fdl b' = decl_fdl b /\ byte_at b' 9 = byte_at b 9 /\
  byte_at b' (hcs_pos b) = byte_at b (hcs_pos b) /\ sfrcs_of b' = sfrcs_of b.
