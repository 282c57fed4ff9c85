(** * Spec_Proto: the protobuf wire format and what its fields say, as relations;
    nothing here is executable. *)
From Verif Require Import GoBase Proto.

(** ** The grammar *)
(** Seven bits per byte, low ones first; the high bit says that more follow. *)
Inductive seven_bits : N -> bytes -> Prop :=
| sb_last x : x < 128 -> seven_bits x [x]
| sb_more x v b : x < 128 -> seven_bits v b -> seven_bits (x + 128 * v) ((128 + x) :: b).
Definition varint (v : N) (b : bytes) : Prop := seven_bits v b /\ (length b <= 10)%nat /\ v < 2 ^ 64.
Definition tag (num wt : N) (b : bytes) : Prop := varint (8 * num + wt) b.

Inductive plain : wval -> bytes -> Prop :=
| pl_varint v b : varint v b -> plain (WVarint v) b
| pl_fix64 b : length b = 8%nat -> plain (WFix64 b) b
| pl_bytes s n : varint (blen s) n -> plain (WBytes s) (n ++ s)
| pl_fix32 b : length b = 4%nat -> plain (WFix32 b) b.
(** the fields inside a group *)
Inductive items : bytes -> Prop :=
| it_nil : items []
| it_plain num w t v rest : 1 <= num < 2 ^ 31 -> tag num (wire_type w) t -> plain w v -> items rest ->
    items (t ++ v ++ rest)
| it_group num t body e rest : 1 <= num < 2 ^ 31 -> tag num 3 t -> items body -> tag num 4 e -> items rest ->
    items (t ++ (body ++ e) ++ rest).
Definition group (num : N) (b : bytes) : Prop := exists body e, b = body ++ e /\ items body /\ tag num 4 e.
Definition value (num : N) (w : wval) (b : bytes) : Prop := plain w b \/ (w = WGroup b /\ group num b).
(** a message: its fields one after the other *)
Inductive stream : list wfield -> bytes -> Prop :=
| st_nil : stream [] []
| st_field num w t v l b : 1 <= num < 2 ^ 29 -> tag num (wire_type w) t -> value num w v -> stream l b ->
    stream (mkWf num w v :: l) (t ++ v ++ b).

(** ** What a field says *)
Definition int32_of (z : Z) (n : N) : Prop := (- 2 ^ 31 <= z < 2 ^ 31)%Z /\ (Z.of_N n mod 2 ^ 32 = z mod 2 ^ 32)%Z.
Inductive means : ptype -> wval -> pval -> Prop :=
| mn_u32 v n : n < 2 ^ 32 -> n = v mod 2 ^ 32 -> means PU32 (WVarint v) (VNum n)
| mn_true v : v <> 0 -> means PBool (WVarint v) (VBool true)
| mn_false : means PBool (WVarint 0) (VBool false)
| mn_sint_pos v z : (0 <= z < 2 ^ 31)%Z -> (Z.of_N v mod 2 ^ 32 = 2 * z)%Z -> means PSint (WVarint v) (VInt z)
| mn_sint_neg v z : (- 2 ^ 31 <= z < 0)%Z -> (Z.of_N v mod 2 ^ 32 = - 2 * z - 1)%Z -> means PSint (WVarint v) (VInt z)
| mn_sfix b z : int32_of z (le_dec b) -> means PSfix (WFix32 b) (VInt z)
| mn_float b : means PFloat (WFix32 b) (VFloat (le_dec b))
| mn_bytes s : means PBytes (WBytes s) (VBytes s).
(** [R] says what each field contributes; all contributions, in order. *)
Definition gathers {A} (R : wfield -> list A -> Prop) (l : list wfield) (vs : list A) : Prop :=
  exists vss, Forall2 R l vss /\ vs = concat vss.
(** a singular field: the last one counts *)
Definition last_one {A} (R : wfield -> list A -> Prop) (l : list wfield) (o : option A) : Prop :=
  exists vs, gathers R l vs /\ o = last (map Some vs) None.
Definition contributes (num : N) (ty : ptype) (f : wfield) (vs : list pval) : Prop :=
  (wf_num f = num /\ exists v, means ty (wf_val f) v /\ vs = [v]) \/
  ((wf_num f <> num \/ forall v, ~ means ty (wf_val f) v) /\ vs = []).
(** A field not in the schema is kept: number and wire type in the shortest form,
    the value byte for byte. *)
Definition kept (f : wfield) (b : bytes) : Prop := exists t, b = t ++ wf_raw f /\
  tag (wf_num f) (wire_type (wf_val f)) t /\
  forall t', tag (wf_num f) (wire_type (wf_val f)) t' -> (length t <= length t')%nat.
Definition unknown (known : wfield -> Prop) (f : wfield) (b : bytes) : Prop :=
  (known f /\ b = []) \/ (~ known f /\ kept f b).

(** ** Sensor messages *)
Definition leaf_known (sch : list ptype) (f : wfield) : Prop :=
  exists i ty v, nth_error sch i = Some ty /\ wf_num f = N.of_nat i + 1 /\ means ty (wf_val f) v.
Definition leaf_says (sch : list ptype) (l : list wfield) (x : leaf) : Prop :=
  length (lf_vals x) = length sch /\
  (forall i ty, nth_error sch i = Some ty ->
     last_one (contributes (N.of_nat i + 1) ty) l (nth i (lf_vals x) None)) /\
  exists bs, gathers (fun f bs => exists b, bs = [b] /\ unknown (leaf_known sch) f b) l bs /\ lf_unk x = concat bs.
Definition leaf_on_wire (sch : list ptype) (b : bytes) (x : leaf) : Prop := exists l, stream l b /\ leaf_says sch l x.

(** ** StorageRecord *)
Definition fixed (num : N) (f : wfield) (vs : list N) : Prop :=
  (wf_num f = num /\ exists b, wf_val f = WFix32 b /\ vs = [le_dec b]) \/
  ((wf_num f <> num \/ forall b, wf_val f <> WFix32 b) /\ vs = []).
Definition number (f : wfield) (vs : list N) : Prop :=
  (wf_num f = 1 /\ exists v, wf_val f = WVarint v /\ vs = [v mod 2 ^ 32]) \/
  ((wf_num f <> 1 \/ forall v, wf_val f <> WVarint v) /\ vs = []).
(** the varints of a packed field *)
Inductive packed : bytes -> list Z -> Prop :=
| pk_nil : packed [] []
| pk_one v t z b l : varint v t -> int32_of z v -> packed b l -> packed (t ++ b) (z :: l).
Definition reasons (f : wfield) (zs : list Z) : Prop :=
  (wf_num f = 3 /\ exists v z, wf_val f = WVarint v /\ int32_of z v /\ zs = [z]) \/
  (wf_num f = 3 /\ exists s, wf_val f = WBytes s /\ packed s zs) \/
  ((wf_num f <> 3 \/ forall v s, wf_val f <> WVarint v /\ wf_val f <> WBytes s) /\ zs = []).
Definition sensors (num : N) (sch : list ptype) (f : wfield) (xs : list leaf) : Prop :=
  (wf_num f = num /\ exists s x, wf_val f = WBytes s /\ leaf_on_wire sch s x /\ xs = [x]) \/
  ((wf_num f <> num \/ forall s, wf_val f <> WBytes s) /\ xs = []).
Definition top_known (f : wfield) : Prop :=
  match wf_val f with
  | WVarint _ => wf_num f = 1 \/ wf_num f = 3
  | WFix32 _ => wf_num f = 2 \/ wf_num f = 4
  | WBytes _ => wf_num f = 3 \/ 7 <= wf_num f <= 24
  | _ => False
  end.
Definition record_says (l : list wfield) (m : storage_record) : Prop :=
  last_one number l (sr_number m) /\ last_one (fixed 2) l (sr_time m) /\ last_one (fixed 4) l (sr_flags m) /\
  gathers reasons l (sr_reasons m) /\
  length (sr_sensors m) = 18%nat /\
  (forall i sch, nth_error schemas i = Some sch ->
     gathers (sensors (7 + N.of_nat i) sch) l (nth i (sr_sensors m) [])) /\
  exists bs, gathers (fun f bs => exists b, bs = [b] /\ unknown top_known f b) l bs /\ sr_unk m = concat bs.

(** ** Messages a program can hold *)
Definition pval_ok (ty : ptype) (v : pval) : Prop :=
  match ty, v with
  | PU32, VNum n => n < 2 ^ 32
  | PBool, VBool _ => True
  | PSint, VInt z | PSfix, VInt z => (- 2 ^ 31 <= z < 2 ^ 31)%Z
  | PFloat, VFloat n => n < 2 ^ 32
  | PBytes, VBytes s => bytes_ok s = true /\ blen s < 2 ^ 64
  | _, _ => False
  end.
(** Unrecognised bytes: fields outside the schema, tags in the shortest form. *)
Definition unk_ok (known : wfield -> Prop) (b : bytes) : Prop :=
  bytes_ok b = true /\ exists us bs, Forall2 kept us bs /\ b = concat bs /\
    Forall (fun f => ~ known f /\ 1 <= wf_num f < 2 ^ 29 /\ value (wf_num f) (wf_val f) (wf_raw f)) us.
Definition leaf_ok (sch : list ptype) (x : leaf) : Prop :=
  Forall2 (fun ty o => match o with Some v => pval_ok ty v | None => True end) sch (lf_vals x) /\
  unk_ok (leaf_known sch) (lf_unk x) /\ blen (leaf_marshal sch x) < 2 ^ 64.
Definition record_ok (m : storage_record) : Prop :=
  (exists n t fl, sr_number m = Some n /\ sr_time m = Some t /\ sr_flags m = Some fl /\
     n < 2 ^ 32 /\ t < 2 ^ 32 /\ fl < 2 ^ 32) /\
  Forall (fun z => (- 2 ^ 31 <= z < 2 ^ 31)%Z) (sr_reasons m) /\
  Forall2 (fun sch l => Forall (leaf_ok sch) l) schemas (sr_sensors m) /\
  unk_ok top_known (sr_unk m).
