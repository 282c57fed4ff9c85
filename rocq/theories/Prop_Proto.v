(** * Prop_Proto: C100–C106 — EGTS_SR_EGTS_PLUS_DATA (StorageRecord). *)
From Coq Require Import String List Lia ZifyBool ZifyN ZifyNat.
From Verif Require Import GoBase Crc Float64 SubRecords Records Package Spec_Bits Spec_Wf Spec_Go Spec_Crc Spec_Pkg
  Proto Spec_Proto Spec_ProtoMsg Spec_ProtoFile BaseFacts ProtoFacts ProtoFacts2 ProtoFacts3 ProtoFacts4 PkgFacts3 Vectors ProtoFacts5.

(** A message on the wire as other programs may write it: fields out of order,
    packed reasons, number given twice, an over-long tag, an unknown group, an
    unknown field in a sensor, a negative sint and an sfixed32. *)
Definition wild : bytes :=
  [0xA8; 0x06; 0x05;                                     (* unknown field 101, varint 5 *)
   0x25; 1; 0; 0; 0x80;                                  (* 4: flags *)
   0x1A; 0x03; 0x0E; 0xAC; 0x02;                         (* 3: packed 14, 300 *)
   0x08; 1; 0x88; 0x00; 0xFB; 0xD4; 0x03;                (* 1: 1, then 60027 with a long tag *)
   0x3B; 0x3A; 1; 9; 0x3C;                               (* group 7 (a wrong wire type): field 7 "9" *)
   0x18; 0xFF; 0xFF; 0xFF; 0xFF; 0x0F;                   (* 3: -1 as 32 bits *)
   0x3A; 0x0C; 0x15; 0xFF; 0xFF; 0xFF; 0xFF; 0x08; 1; 0xD8; 0x01; 1; 0x08; 2;  (* 7: navigation *)
   0x15; 0x3B; 0x46; 0x5F; 0x5C].                        (* 2: time *)
Definition wild_msg : storage_record := match sr_unmarshal wild with Some m => m | None => sr_empty end.
Example wild_reads : bytes_ok wild = true /\ sr_unmarshal wild = Some wild_msg /\
  sr_number wild_msg = Some 60027 /\ sr_reasons wild_msg = [14; 300; -1]%Z /\
  nth 0 (sr_sensors wild_msg) [] = [mkLeaf [Some (VNum 2); Some (VInt (-1)); None; None; None; None; None; None; None; None] [0xD8; 0x01; 1]] /\
  sr_unk wild_msg = [0xA8; 0x06; 0x05; 0x3B; 0x3A; 1; 9; 0x3C].
Proof. vm_compute. repeat split. Qed.

(** ** C100: Encode then Decode of an EGTS-PLUS record gives the record back. *)
Theorem C100_plus_roundtrip : forall m, record_ok m ->
  exists b, sr_marshal m = Some b /\ bytes_ok b = true /\ sr_unmarshal b = Some m.
Proof. exact sr_round_trip. Qed.
Example C100_example : record_ok vec_plus_msg /\ record_ok wild_msg.
Proof.
  split; [apply (sr_decoded_ok vec_plus); [reflexivity|apply vec_plus_both]|].
  apply (sr_decoded_ok wild); [reflexivity|apply wild_reads].
Qed.

(** ** C101: Decode accepts exactly the well-formed messages that set the
    required fields, and returns exactly what they say. *)
Theorem C101_plus_decodes_exactly : forall b m, bytes_ok b = true ->
  (sr_unmarshal b = Some m <-> (exists l, stream l b /\ record_says l m) /\ complete m).
Proof. exact sr_unmarshal_iff. Qed.
Example C101_example : exists l, stream l wild /\ record_says l wild_msg.
Proof. apply (C101_plus_decodes_exactly wild wild_msg); [reflexivity|apply wild_reads]. Qed.
(** The sensors are those of docs/egts_sr_egtsplus_data.proto: under each number
    that file gives, the messages of the record in order, and in each message
    each field by its number and type. *)
Theorem C101_as_documented : forall b m, bytes_ok b = true -> sr_unmarshal b = Some m ->
  exists l, stream l b /\ forall num name fields, In (num, name, fields) proto_file ->
    gathers (declared_sensors num fields) l (nth (N.to_nat (num - 7)) (sr_sensors m) []).
Proof. exact documented. Qed.
Example C101_documented_example : In (15, "sens_termo_data", [(1, uint32, "sens_num"); (2, uint32, "status"); (3, sint32, "temperature")])%string proto_file /\
  List.length proto_file = 18%nat.
Proof. split; [unfold proto_file; repeat (try (left; reflexivity); right)|reflexivity]. Qed.
(** One byte string says one thing. *)
Theorem C101_unambiguous : forall b l l' m m', bytes_ok b = true -> stream l b -> stream l' b ->
  l = l' /\ (record_says l m -> record_says l m' -> m = m').
Proof.
  intros b l l' m m' Hb H H'. assert (l = l') as <-.
  { apply (read_fields_iff b l Hb) in H. apply (read_fields_iff b l' Hb) in H'. congruence. }
  split; [reflexivity|]. apply record_says_fun. exact (stream_f_ok l b H Hb).
Qed.

(** ** C102: the required fields (record number, time, presence flags). *)
Theorem C102_required_fields : forall m, (sr_marshal m = None <-> ~ complete m) /\
  forall b, bytes_ok b = true -> sr_unmarshal b = Some m -> complete m.
Proof.
  intros m. split.
  - unfold sr_marshal, complete. destruct (sr_number m), (sr_time m), (sr_flags m); (split; [intros H; try discriminate H|intros H]); try tauto;
      try (intros (H1 & H2 & H3); congruence); try reflexivity.
    exfalso. apply H. repeat split; discriminate.
  - intros b Hb H. apply (sr_unmarshal_iff b m Hb) in H. apply H.
Qed.
Example C102_example : sr_unmarshal [0x08; 1; 0x15; 0; 0; 0; 0] = None /\ sr_marshal sr_empty = None /\
  sr_unmarshal [0x08; 1; 0x15; 0; 0; 0; 0; 0x25; 0; 0; 0; 0] <> None.
Proof. vm_compute. repeat split. discriminate. Qed.

(** ** C103: whatever Decode accepts, Encode encodes, to bytes that decode to the
    same record and encode to themselves. *)
Theorem C103_decoded_encodes : forall b m, bytes_ok b = true -> sr_unmarshal b = Some m ->
  exists b', sr_marshal m = Some b' /\ bytes_ok b' = true /\ sr_unmarshal b' = Some m.
Proof. intros b m Hb H. apply sr_round_trip, (sr_decoded_ok b m Hb H). Qed.
Example C103_example : exists b', sr_marshal wild_msg = Some b' /\ b' <> wild /\ sr_unmarshal b' = Some wild_msg.
Proof. eexists. split; [vm_compute; reflexivity|]. split; [discriminate|vm_compute; reflexivity]. Qed.
(** Two records that say something different never share an encoding. *)
Theorem C103_encodings_differ : forall m m' b, record_ok m -> record_ok m' -> sr_marshal m = Some b -> sr_marshal m' = Some b -> m = m'.
Proof.
  intros m m' b H H' E E'. destruct (sr_round_trip m H) as (x & X1 & _ & X2). destruct (sr_round_trip m' H') as (y & Y1 & _ & Y2). congruence.
Qed.

(** ** C104: fields that the schema does not know come back from Encode as they
    were: the same numbers, wire types and value bytes, in the same order. *)
Theorem C104_unknown_fields_survive : forall b l m, bytes_ok b = true -> stream l b -> sr_unmarshal b = Some m ->
  exists b' l' us, sr_marshal m = Some b' /\ stream l' b' /\
    picks (fun f => ~ top_known f) l us /\ picks (fun f => ~ top_known f) l' us.
Proof. exact top_unknown_survive. Qed.
(** ... and so do those inside a sensor message. *)
Theorem C104_sensor_fields_survive : forall i sch s l x, nth_error schemas i = Some sch -> bytes_ok s = true -> blen s < 2 ^ 64 ->
  stream l s -> leaf_unmarshal sch s = Some x ->
  exists l' us, stream l' (leaf_marshal sch x) /\ picks (fun f => ~ leaf_known sch f) l us /\ picks (fun f => ~ leaf_known sch f) l' us.
Proof.
  intros i sch s l x Hi. apply leaf_unknown_survive.
  pose proof schemas_small as H. rewrite Forall_forall in H. apply H, nth_error_In with (n := i), Hi.
Qed.
Example C104_example : exists b', sr_marshal wild_msg = Some b' /\
  firstn 8 (rev b') = rev [0xA8; 0x06; 0x05; 0x3B; 0x3A; 1; 9; 0x3C].
Proof. eexists. split; vm_compute; reflexivity. Qed.

(** ** C105: the order of the fields does not matter, except among fields with the
    same number and among unknown ones. *)
Theorem C105_field_order : forall l l' b b', reordered l l' -> bytes_ok b = true -> bytes_ok b' = true ->
  stream l b -> stream l' b' -> sr_unmarshal b = sr_unmarshal b'.
Proof. exact reordered_decodes. Qed.
(** number before time, and time before number *)
Example C105_example : exists l l', reordered l l' /\
  stream l [0x08; 7; 0x15; 1; 0; 0; 0; 0x25; 0; 0; 0; 0] /\ stream l' [0x15; 1; 0; 0; 0; 0x08; 7; 0x25; 0; 0; 0; 0] /\
  sr_unmarshal [0x08; 7; 0x15; 1; 0; 0; 0; 0x25; 0; 0; 0; 0] <> None.
Proof.
  set (f := mkWf 1 (WVarint 7) [7]). set (g := mkWf 2 (WFix32 [1; 0; 0; 0]) [1; 0; 0; 0]). set (h := mkWf 4 (WFix32 [0; 0; 0; 0]) [0; 0; 0; 0]).
  exists ([] ++ f :: g :: [h]), ([] ++ g :: f :: [h]). split; [apply ro_swap; [discriminate|left; cbn; lia]|].
  split; [apply read_fields_iff; reflexivity|]. split; [apply read_fields_iff; reflexivity|]. vm_compute. discriminate.
Qed.

(** ** C106: with this library, whatever packet Decode accepts, Encode encodes, and
    the EGTS-PLUS records meet the hypotheses of the packet theorems. *)
Theorem C106_accepted_encodes : forall E p data spare p', bytes_ok data = true ->
  @pkg_decode (with_proto E) p (mkSlice data spare) = (p', DRet 0 false) ->
  exists p1 b, @pkg_encode (with_proto E) p' = (p1, Ok b).
Proof.
  intros E p data spare p' Hd. apply (@accepted_encodes (with_proto E) p data spare p'); [|exact Hd].
  intros b m Hb H. destruct (C103_decoded_encodes b m Hb H) as (b' & H1 & _). exists b'. exact H1.
Qed.
Theorem C106_record_well_formed : forall E m, record_ok m -> @wf_plus (with_proto E) m.
Proof. intros E m H. exact (sr_round_trip m H). Qed.

(** a packet that carries the message above *)
Definition plus_packet : bytes :=
  [1; 0; 3; 11; 0; 64; 0; 138; 0; 1; 52; 53; 0; 97; 0; 153; 176; 9; 2;
   0; 2; 2; 15; 50; 0; 8; 251; 212; 3; 21; 59; 70; 95; 92; 24; 14; 24;
   172; 2; 24; 255; 255; 255; 255; 255; 255; 255; 255; 255; 1; 37; 1;
   0; 0; 128; 58; 10; 8; 2; 21; 255; 255; 255; 255; 216; 1; 1; 168; 6;
   5; 59; 58; 1; 9; 60; 182; 183].
Example C106_example : bytes_ok plus_packet &&
  match @pkg_decode (with_proto env0) (@pkg0 (with_proto env0)) (mkSlice plus_packet []) with
  | (p', DRet 0 false) =>
      match @pSFRD (with_proto env0) p' with
      | Some (FSds [s]) => match map (@SRD (with_proto env0)) (@RD (with_proto env0) s) with
                           | [SRPlus m] => match sr_marshal m with
                                           | Some b => str_eqb b (firstn 50 (skipn 25 plus_packet))
                                           | None => false
                                           end
                           | _ => false
                           end
      | _ => false
      end
  | _ => false
  end = true.
Proof. vm_compute. reflexivity. Qed.

(** ** C110: a message cut short is decoded exactly when the cut falls between two
    fields and the required ones come before it. *)
Theorem C110_truncation_exactly : forall b m c d, bytes_ok b = true -> sr_unmarshal b = Some m -> b = c ++ d ->
  ((exists m', sr_unmarshal c = Some m') <-> exists l1 l2, stream l1 c /\ stream l2 d /\ has_required l1).
Proof. exact plus_truncation. Qed.
(** the rest of the message is what the cut message lacks *)
Theorem C110_prefix_fields : forall b l c d l1, stream l b -> b = c ++ d -> stream l1 c -> exists l2, l = l1 ++ l2 /\ stream l2 d.
Proof. intros b l c d l1 H -> H1. exact (stream_prefix l1 c H1 l d H). Qed.
Definition long_message : bytes := [8; 1; 21; 2; 0; 0; 0; 37; 3; 0; 0; 0; 24; 14; 66; 7; 8; 1; 21; 0; 0; 72; 65].
Example C110_example : bytes_ok long_message = true /\
  map (fun k => match sr_unmarshal (firstn k long_message) with Some _ => true | None => false end) (seq 0 24) =
  repeat false 12 ++ [true; false; true] ++ repeat false 8 ++ [true].
Proof. split; vm_compute; reflexivity. Qed.

(** ** C111: two messages one after the other are one message that has the single
    values of the second and the lists of both. *)
Theorem C111_concatenation_merges : forall b1 m1 b2 m2, bytes_ok b1 = true -> bytes_ok b2 = true ->
  sr_unmarshal b1 = Some m1 -> sr_unmarshal b2 = Some m2 ->
  exists m, sr_unmarshal (b1 ++ b2) = Some m /\ merged m1 m2 m.
Proof. exact plus_concat. Qed.
Example C111_example : sr_unmarshal wild = Some wild_msg /\ sr_unmarshal long_message <> None /\
  match sr_unmarshal (wild ++ long_message) with
  | Some m => sr_number m = Some 1 /\ sr_reasons m = [14; 300; -1; 14]%Z
  | None => False
  end.
Proof. split; [apply wild_reads|]. split; [vm_compute; discriminate|]. vm_compute. split; reflexivity. Qed.
Print Assumptions C100_plus_roundtrip.
Print Assumptions C101_plus_decodes_exactly.
Print Assumptions C101_unambiguous.
Print Assumptions C102_required_fields.
Print Assumptions C103_decoded_encodes.
Print Assumptions C103_encodings_differ.
Print Assumptions C104_unknown_fields_survive.
Print Assumptions C104_sensor_fields_survive.
Print Assumptions C105_field_order.
Print Assumptions C106_accepted_encodes.
Print Assumptions C106_record_well_formed.
Print Assumptions C110_truncation_exactly.
Print Assumptions C110_prefix_fields.
Print Assumptions C111_concatenation_merges.
Print Assumptions C101_as_documented.
