(** * Proto: EGTS_SR_EGTS_PLUS_DATA, libs/egts/egts_sr_egtsplus_data.go, that is
    proto.Unmarshal and proto.Marshal (github.com/golang/protobuf v1.5.2 over
    google.golang.org/protobuf v1.26.0, go.mod:7, go.sum:198) of StorageRecord
    and its eighteen sensor messages.  No proofs here.
    What is modelled of the library is its documented behaviour (the proto2 wire
    format): varints of at most ten bytes, fields by number and wire type, the
    last occurrence of a singular field wins, repeated fields in order, a
    repeated enum also packed, fields that the schema does not know kept in
    XXX_unrecognized and written back after the known ones, required fields
    checked on both sides, fields written in the order of their numbers.
    Unmarshal is split here into reading the fields and storing them, where the
    library does both at once; any error makes Decode fail as a whole, so that
    nothing between is seen.  A float32 is its 32 bits. *)
From Verif Require Import GoBase.

(** ** Varints (protowire.ConsumeVarint, AppendVarint) *)
Fixpoint read_varint (k : nat) (b : bytes) : option (N * bytes) :=
  match k, b with
  | O, _ | _, [] => None
  | S k', x :: b' =>
      if x <? 128 then
        if (k' =? 0)%nat && negb (x <? 2) then None            (* more than 64 bits *)
        else Some (x, b')
      else match read_varint k' b' with
           | Some (v, r) => Some (x - 128 + 128 * v, r)
           | None => None
           end
  end.
Fixpoint put_varint (k : nat) (v : N) : bytes :=
  match k with
  | O => []
  | S k' => if v <? 128 then [v] else (128 + v mod 128) :: put_varint k' (v / 128)
  end.

(** ** Fields *)
(** The value of a field as the wire shows it; [WGroup]: the bytes up to and
    including the end tag. *)
Inductive wval := WVarint (v : N) | WFix64 (b : bytes) | WBytes (s : bytes) | WGroup (b : bytes) | WFix32 (b : bytes).
Definition wire_type (w : wval) : N :=
  match w with WVarint _ => 0 | WFix64 _ => 1 | WBytes _ => 2 | WGroup _ => 3 | WFix32 _ => 5 end.

(** the first [n] bytes (n may be as large as 2^64 - 1) *)
Definition take_bytes (n : N) (b : bytes) : option (bytes * bytes) :=
  if blen b <? n then None else Some (firstn (N.to_nat n) b, skipn (N.to_nat n) b).

(** The value of wire type 0, 1, 2 or 5 (protowire.ConsumeVarint, ConsumeFixed64,
    ConsumeBytes, ConsumeFixed32). *)
Definition read_plain (wt : N) (b : bytes) : option (wval * bytes) :=
  match wt with
  | 0 => match read_varint 10 b with Some (v, r) => Some (WVarint v, r) | None => None end
  | 1 => match take_bytes 8 b with Some (v, r) => Some (WFix64 v, r) | None => None end
  | 2 => match read_varint 10 b with
         | Some (n, r) => match take_bytes n r with Some (s, r') => Some (WBytes s, r') | None => None end
         | None => None
         end
  | 5 => match take_bytes 4 b with Some (v, r) => Some (WFix32 v, r) | None => None end
  | _ => None
  end.
(** The rest after the groups [stack] are closed (protowire.ConsumeFieldValue of
    a start-group; field numbers up to 2^31 - 1, protowire.ConsumeTag). *)
Fixpoint skip_group (fuel : nat) (stack : list N) (b : bytes) : option bytes :=
  match fuel with
  | O => None
  | S fuel' =>
      match read_varint 10 b with
      | None => None
      | Some (t, r) =>
          let num := t / 8 in
          if (num <? 1) || (2147483647 <? num) then None else
          match t mod 8 with
          | 3 => skip_group fuel' (num :: stack) r
          | 4 => match stack with
                 | [] => None
                 | top :: stack' =>
                     if negb (num =? top) then None
                     else match stack' with [] => Some r | _ :: _ => skip_group fuel' stack' r end
                 end
          | wt => match read_plain wt r with Some (_, r') => skip_group fuel' stack r' | None => None end
          end
      end
  end.
Definition read_value (num wt : N) (b : bytes) : option (wval * bytes) :=
  if wt =? 3 then
    match skip_group (length b) [num] b with
    | Some r => Some (WGroup (firstn (length b - length r) b), r)
    | None => None
    end
  else read_plain wt b.

(** One field: its number, value, and the bytes of the value (after the tag). *)
Record wfield := mkWf { wf_num : N; wf_val : wval; wf_raw : bytes }.
(** impl.MessageInfo.unmarshalPointer: field numbers up to 2^29 - 1; an end-group
    tag (wire type 4) is an error, as are 6 and 7. *)
Fixpoint read_fields (fuel : nat) (b : bytes) : option (list wfield) :=
  match b with
  | [] => Some []
  | _ :: _ =>
      match fuel with
      | O => None
      | S fuel' =>
          match read_varint 10 b with
          | None => None
          | Some (t, r) =>
              let num := t / 8 in
              if (num <? 1) || (536870911 <? num) then None else
              match read_value num (t mod 8) r with
              | None => None
              | Some (w, r') =>
                  match read_fields fuel' r' with
                  | Some l => Some (mkWf num w (firstn (length r - length r') r) :: l)
                  | None => None
                  end
              end
          end
      end
  end.
(** protowire.AppendTag *)
Definition put_tag (num wt : N) : bytes := put_varint 10 (8 * num + wt).
(** A field the schema does not know, as XXX_unrecognized gets it. *)
Definition unknown_bytes (f : wfield) : bytes := put_tag (wf_num f) (wire_type (wf_val f)) ++ wf_raw f.

(** ** Types of the fields, from the protobuf tags of the structs *)
Inductive ptype := PU32 (* uint32 *) | PBool | PSint (* sint32 *) | PSfix (* sfixed32 *)
                 | PFloat | PBytes.
Inductive pval := VNum (n : N) | VBool (x : bool) | VInt (z : Z) | VFloat (bits : N) | VBytes (s : bytes).

(** int32(x) of 32 bits *)
Definition to_int32 (n : N) : Z :=
  let m := n mod 4294967296 in
  if m <? 2147483648 then Z.of_N m else (Z.of_N m - 4294967296)%Z.
(** uint64(int64(z)), uint32(z) *)
Definition of_int (bits : Z) (z : Z) : N := Z.to_N (z mod 2 ^ bits).
(** protowire.DecodeZigZag of 32 bits, EncodeZigZag *)
Definition unzigzag (n : N) : Z :=
  let m := n mod 4294967296 in
  if m mod 2 =? 0 then Z.of_N (m / 2) else (- Z.of_N (m / 2) - 1)%Z.
Definition zigzag (z : Z) : N := if (z <? 0)%Z then Z.to_N (- 2 * z - 1) else Z.to_N (2 * z).

(** What a field of type [ty] takes from a value; [None]: another wire type
    (the field is then unknown). *)
Definition from_wire (ty : ptype) (w : wval) : option pval :=
  match ty, w with
  | PU32, WVarint v => Some (VNum (v mod 4294967296))
  | PBool, WVarint v => Some (VBool (negb (v =? 0)))
  | PSint, WVarint v => Some (VInt (unzigzag v))
  | PSfix, WFix32 b => Some (VInt (to_int32 (le_dec b)))
  | PFloat, WFix32 b => Some (VFloat (le_dec b))
  | PBytes, WBytes s => Some (VBytes s)
  | _, _ => None
  end.
Definition to_wire (v : pval) (ty : ptype) : wval :=
  match v with
  | VNum n => WVarint n
  | VBool x => WVarint (if x then 1 else 0)
  | VInt z => match ty with PSfix => WFix32 (le_enc 4 (of_int 32 z)) | _ => WVarint (zigzag z) end
  | VFloat n => WFix32 (le_enc 4 n)
  | VBytes s => WBytes s
  end.
Definition put_value (w : wval) : bytes :=
  match w with
  | WVarint v => put_varint 10 v
  | WFix64 b | WGroup b | WFix32 b => b
  | WBytes s => put_varint 10 (blen s) ++ s
  end.
Definition put_field (num : N) (w : wval) : bytes := put_tag num (wire_type w) ++ put_value w.

(** ** Sensor messages: field numbers 1, 2, ... *)
Record leaf := mkLeaf { lf_vals : list (option pval); lf_unk : bytes }.
Definition leaf_empty (sch : list ptype) : leaf := mkLeaf (map (fun _ => None) sch) [].
Fixpoint set_at {A} (i : nat) (x : A) (l : list A) : list A :=
  match l, i with
  | [], _ => []
  | _ :: l', O => x :: l'
  | y :: l', S i' => y :: set_at i' x l'
  end.
Definition leaf_store (sch : list ptype) (m : leaf) (f : wfield) : leaf :=
  match nth_error sch (N.to_nat (wf_num f - 1)) with
  | Some ty => match from_wire ty (wf_val f) with
               | Some v => mkLeaf (set_at (N.to_nat (wf_num f - 1)) (Some v) (lf_vals m)) (lf_unk m)
               | None => mkLeaf (lf_vals m) (lf_unk m ++ unknown_bytes f)
               end
  | None => mkLeaf (lf_vals m) (lf_unk m ++ unknown_bytes f)
  end.
Definition leaf_unmarshal (sch : list ptype) (b : bytes) : option leaf :=
  match read_fields (length b) b with
  | Some l => Some (fold_left (leaf_store sch) l (leaf_empty sch))
  | None => None
  end.
Fixpoint put_leaf_fields (num : N) (sch : list ptype) (vals : list (option pval)) : bytes :=
  match sch, vals with
  | ty :: sch', v :: vals' =>
      match v with Some v => put_field num (to_wire v ty) | None => [] end
      ++ put_leaf_fields (num + 1) sch' vals'
  | _, _ => []
  end.
Definition leaf_marshal (sch : list ptype) (m : leaf) : bytes :=
  put_leaf_fields 1 sch (lf_vals m) ++ lf_unk m.

(** The sensor messages in the order of their numbers in StorageRecord, 7 to 24
    (:195-237); the lines are those of the structs. *)
Definition schemas : list (list ptype) :=
  [ [PU32; PSfix; PSfix; PU32; PU32; PU32; PU32; PU32; PU32; PU32];   (* 7 SensNdNavData :1018-1027 *)
    [PU32; PFloat; PU32; PU32; PU32; PU32];                           (* 8 SensFuelLevel :892-897 *)
    [PU32; PU32];                                                     (* 9 SensAinAinValue :488-489 *)
    [PU32; PU32; PU32];                                               (* 10 SensDinsFlags :798-800 *)
    [PU32; PU32];                                                     (* 11 SensCounterCount :738-739 *)
    [PU32; PU32];                                                     (* 12 SensFmeterFrequency :866-867 *)
    [PU32; PU32; PU32; PBytes; PBytes; PBytes; PBytes];               (* 13 SensGsmCellMonotoringCellMonitoring :950-956 *)
    [PU32; PBool];                                                    (* 14 SensButtonPressCounter :548-549 *)
    [PU32; PU32; PSint];                                              (* 15 SensTermoData :1174-1176 *)
    [PU32; PU32; PU32; PU32; PU32; PSint; PU32; PU32; PU32; PU32; PU32; PU32; PU32; PU32; PU32]; (* 16 SensCanLogData :574-588 *)
    [PU32; PU32; PU32];                                               (* 17 SensCanLogTmpDataExt :704-706 *)
    [PU32; PBytes; PU32; PU32; PU32; PU32; PU32];                     (* 18 SensAccelerometerData :422-428 *)
    [PU32; PU32; PU32];                                               (* 19 SensDoutsFlags :832-834 *)
    [PU32; PBytes; PBool];                                            (* 20 SensBufferData :514-516 *)
    [PU32; PU32; PU32; PU32; PU32; PU32; PU32];                       (* 21 SensStorInfo :1108-1114 *)
    [PU32; PU32; PU32; PU32; PU32];                                   (* 22 SensTrackerInfo :1306-1310 *)
    [PU32; PBool; PBool; PBool; PBool; PBool; PBool; PBool; PBool; PBool; PBool]; (* 23 SensTestEraTests :1208-1218 *)
    [PU32; PU32; PBool] ].                                            (* 24 SensCrashData :764-766 *)

(** ** StorageRecord (:193-239) *)
Record storage_record := mkSR {
  sr_number : option N;                 (* 1, required uint32 *)
  sr_time : option N;                   (* 2, required fixed32 *)
  sr_reasons : list Z;                  (* 3, repeated enum *)
  sr_flags : option N;                  (* 4, required fixed32 *)
  sr_sensors : list (list leaf);        (* 7 to 24, repeated messages *)
  sr_unk : bytes                        (* XXX_unrecognized *)
}.
Definition sr_empty : storage_record := mkSR None None [] None (map (fun _ => []) schemas) [].

(** a packed repeated enum *)
Fixpoint read_packed (fuel : nat) (b : bytes) : option (list Z) :=
  match b with
  | [] => Some []
  | _ :: _ =>
      match fuel with
      | O => None
      | S fuel' =>
          match read_varint 10 b with
          | Some (v, r) => match read_packed fuel' r with Some l => Some (to_int32 v :: l) | None => None end
          | None => None
          end
      end
  end.
Definition add_unknown (m : storage_record) (f : wfield) : storage_record :=
  mkSR (sr_number m) (sr_time m) (sr_reasons m) (sr_flags m) (sr_sensors m) (sr_unk m ++ unknown_bytes f).
Definition sr_store (m : storage_record) (f : wfield) : option storage_record :=
  match wf_num f, wf_val f with
  | 1, WVarint v => Some (mkSR (Some (v mod 4294967296)) (sr_time m) (sr_reasons m) (sr_flags m) (sr_sensors m) (sr_unk m))
  | 2, WFix32 b => Some (mkSR (sr_number m) (Some (le_dec b)) (sr_reasons m) (sr_flags m) (sr_sensors m) (sr_unk m))
  | 3, WVarint v => Some (mkSR (sr_number m) (sr_time m) (sr_reasons m ++ [to_int32 v]) (sr_flags m) (sr_sensors m) (sr_unk m))
  | 3, WBytes s =>
      match read_packed (length s) s with
      | Some l => Some (mkSR (sr_number m) (sr_time m) (sr_reasons m ++ l) (sr_flags m) (sr_sensors m) (sr_unk m))
      | None => None
      end
  | 4, WFix32 b => Some (mkSR (sr_number m) (sr_time m) (sr_reasons m) (Some (le_dec b)) (sr_sensors m) (sr_unk m))
  | num, WBytes s =>
      let i := N.to_nat (num - 7) in
      match (if num <? 7 then None else nth_error schemas i) with
      | Some sch =>
          match leaf_unmarshal sch s with
          | Some x => Some (mkSR (sr_number m) (sr_time m) (sr_reasons m) (sr_flags m)
                                 (set_at i (nth i (sr_sensors m) [] ++ [x]) (sr_sensors m)) (sr_unk m))
          | None => None
          end
      | None => Some (add_unknown m f)
      end
  | _, _ => Some (add_unknown m f)
  end.
Fixpoint sr_store_all (m : storage_record) (l : list wfield) : option storage_record :=
  match l with
  | [] => Some m
  | f :: l' => match sr_store m f with Some m' => sr_store_all m' l' | None => None end
  end.
Definition is_set {A} (o : option A) : bool := match o with Some _ => true | None => false end.
(** checkRequiredNotSet *)
Definition initialized (m : storage_record) : bool :=
  is_set (sr_number m) && is_set (sr_time m) && is_set (sr_flags m).

(** StorageRecord.Decode (:241-243): proto.Unmarshal resets the message first. *)
Definition sr_unmarshal (b : bytes) : option storage_record :=
  match read_fields (length b) b with
  | Some l => match sr_store_all sr_empty l with
              | Some m => if initialized m then Some m else None
              | None => None
              end
  | None => None
  end.

Fixpoint put_sensors (num : N) (schs : list (list ptype)) (sens : list (list leaf)) : bytes :=
  match schs, sens with
  | sch :: schs', l :: sens' =>
      flat_map (fun x => put_field num (WBytes (leaf_marshal sch x))) l ++ put_sensors (num + 1) schs' sens'
  | _, _ => []
  end.
(** StorageRecord.Encode (:245-247) *)
Definition sr_marshal (m : storage_record) : option bytes :=
  match sr_number m, sr_time m, sr_flags m with
  | Some n, Some t, Some fl =>
      Some (put_field 1 (WVarint n) ++ put_field 2 (WFix32 (le_enc 4 t))
            ++ flat_map (fun r => put_field 3 (WVarint (of_int 64 r))) (sr_reasons m)
            ++ put_field 4 (WFix32 (le_enc 4 fl))
            ++ put_sensors 7 schemas (sr_sensors m) ++ sr_unk m)
  | _, _, _ => None
  end.

(** egts_sr_egtsplus_data_test.go:9-30 *)
Definition vec_plus : bytes := [0x08; 0xFB; 0xD4; 0x03; 0x15; 0x3B; 0x46; 0x5F; 0x5C; 0x25; 0x00; 0x00; 0x00; 0x00;
  0x82; 0x01; 0x04; 0x08; 0x01; 0x30; 0x4F; 0x8A; 0x01; 0x02; 0x08; 0x01].
Definition vec_plus_msg : storage_record :=
  mkSR (Some 60027) (Some 1549747771) [] (Some 0)
    (map (fun _ => []) (seq 0 9)
     ++ [[mkLeaf [Some (VNum 1); None; None; None; None; Some (VInt (-40)); None; None; None; None; None; None; None; None; None] []];
         [mkLeaf [Some (VNum 1); None; None] []]]
     ++ map (fun _ => []) (seq 0 7)) [].
Example vec_plus_both : sr_unmarshal vec_plus = Some vec_plus_msg /\ sr_marshal vec_plus_msg = Some vec_plus.
Proof. vm_compute. split; reflexivity. Qed.
