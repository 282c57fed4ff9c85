(** * Spec_ProtoMsg: notions for the statements of C100–C106. *)
From Verif Require Import GoBase Float64 Proto Spec_Proto.

(** The subsequence of the elements that satisfy [P]. *)
Inductive picks {A} (P : A -> Prop) : list A -> list A -> Prop :=
| pi_nil : picks P [] []
| pi_take x l l' : P x -> picks P l l' -> picks P (x :: l) (x :: l')
| pi_skip x l l' : ~ P x -> picks P l l' -> picks P (x :: l) l'.

(** The program with the real protobuf library in place of an arbitrary one;
    the rest of [E] stays arbitrary. *)
Definition with_proto (E : go_env) : go_env :=
  @mkEnv storage_record sr_unmarshal sr_marshal (@f2u_other E) (@append_spare E).

(** The fields of the StorageRecord struct, as bits. *)
Definition complete (m : storage_record) : Prop := sr_number m <> None /\ sr_time m <> None /\ sr_flags m <> None.

(** The same fields in another order, where fields with the same number keep
    their order, and fields outside the schema keep theirs. *)
Inductive reordered : list wfield -> list wfield -> Prop :=
| ro_same l : reordered l l
| ro_swap l1 f g l2 : wf_num f <> wf_num g -> top_known f \/ top_known g ->
    reordered (l1 ++ f :: g :: l2) (l1 ++ g :: f :: l2)
| ro_then l l' l'' : reordered l l' -> reordered l' l'' -> reordered l l''.

(** The three required fields occur among [l], with their wire types. *)
Definition has_required (l : list wfield) : Prop :=
  (exists f v, In f l /\ wf_num f = 1 /\ wf_val f = WVarint v) /\
  (exists f s, In f l /\ wf_num f = 2 /\ wf_val f = WFix32 s) /\
  (exists f s, In f l /\ wf_num f = 4 /\ wf_val f = WFix32 s).
(** [m] is [m1] overwritten by [m2]: single values from [m2], lists one after
    the other. *)
Definition merged (m1 m2 m : storage_record) : Prop :=
  sr_number m = sr_number m2 /\ sr_time m = sr_time m2 /\ sr_flags m = sr_flags m2 /\
  sr_reasons m = sr_reasons m1 ++ sr_reasons m2 /\
  length (sr_sensors m) = 18%nat /\
  (forall i, nth i (sr_sensors m) [] = nth i (sr_sensors m1) [] ++ nth i (sr_sensors m2) []) /\
  sr_unk m = sr_unk m1 ++ sr_unk m2.
