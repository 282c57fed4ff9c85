(** * Spec_Damage: packets as they should be, and what damage to one means. *)
From Verif Require Import GoBase Crc Float64 SubRecords Records Package
  Spec_Bits Spec_Wf Spec_Rec Spec_Crc Spec_Pkg.

(** [b] is one whole packet and its header-length byte is the true one: 11, or
    16 with routing; then the frame of the declared length, then two checksum
    bytes. *)
Definition whole (b : bytes) : Prop :=
  decl_hl b = std_hl b /\ length b = (frame_pos b + N.to_nat (decl_fdl b) + 2)%nat.

(** [b'] is [b] with one burst of at most [w] consecutive bits inverted
    somewhere, which spared the two things that say where the header ends: the
    header-length byte and the RTE bit. *)
Definition damaged (w : N) (b b' : bytes) : Prop :=
  burst w b b' /\ decl_hl b' = decl_hl b /\ routed b' = routed b.

(** Decode reports an error: a non-zero code and err != nil. *)
Definition refused {E : go_env} (p : package) (b spare : bytes) : Prop :=
  exists p' code, pkg_decode p (mkSlice b spare) = (p', DRet code true) /\ code <> 0.

(** Damage Decode notices (C88): at most 8 bits anywhere [damaged] allows, or at
    most 12 bits anywhere after the header. *)
Definition hurt (b b' : bytes) : Prop :=
  damaged 8 b b' \/ (burst 12 b b' /\ firstn (frame_pos b) b' = firstn (frame_pos b) b).
