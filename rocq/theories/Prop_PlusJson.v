(** * Prop_PlusJson: C107–C109 — the JSON document of an EGTS-PLUS message, and of
    packages that carry them.
    [ft32] is the text strconv gives for a float32 (by its bits), [jf32] what a
    JSON reader makes of it. *)
From Coq Require Import Ascii String List ZArith Bool Lia.
From Verif Require Import GoBase Float64 SubRecords Records Package Storage Json PkgJson Proto PlusJson
  Spec_Bits Spec_Float Spec_Json Spec_PkgJson Spec_Proto Spec_ProtoMsg Spec_ProtoFile Spec_PlusJson
  BaseFacts JsonFacts PkgJsonFacts ProtoFacts3 PlusJsonFacts PlusJsonFacts2 PlusJsonFacts3 Prop_Json Prop_PkgJson Vectors.
Import ListNotations.
Open Scope N_scope.

Definition number32_texts (ft32 : N -> gostr) (jf32 : N -> json) : Prop :=
  forall bits, bits < 2 ^ 32 -> finite32 bits -> read_num (ft32 bits) = Some (jf32 bits, []).
Definition apart32 (jf32 : N -> json) : Prop :=
  forall a b, a < 2 ^ 32 -> b < 2 ^ 32 -> finite32 a -> finite32 b -> jf32 a = jf32 b -> a = b.
Lemma texts32_exist : number32_texts json_uint (fun n => JInt (Z.of_N n)) /\ apart32 (fun n => JInt (Z.of_N n)).
Proof.
  split.
  - intros bits _ _. destruct (numeral_plain _ _ (uint_numeral bits)) as (Hp & Hd & Hv). unfold read_num.
    pose proof (span_app number_char (json_uint bits) [] (digits_number _ Hd) I) as S. rewrite app_nil_r in S. rewrite S, Hp, Hv. reflexivity.
  - intros a b _ _ _ _ H. injection H as H. lia.
Qed.

(** ** C107: the document of a decoded message has exactly its fields, under
    their names; it exists unless a fuel level is not a number. *)
Theorem C107_document_describes_message : forall ft32 jf32 b m,
  number32_texts ft32 jf32 -> bytes_ok b = true -> sr_unmarshal b = Some m ->
  Forall finite32 (fuel_levels m) ->
  exists t v, plus_json ft32 m = Some t /\ read_json t = Some v /\ plus_doc jf32 m v.
Proof.
  intros ft32 jf32 b m Hft Hb Hd Hf. rewrite Forall_forall in Hf.
  destruct (plus_read ft32 jf32 Hft m (sr_decoded_ok b m Hb Hd) Hf) as (t & v & H1 & H2 & H3).
  exists t, v. split; [exact H1|]. split; [apply read_json_ok, H2|exact H3].
Qed.
(** The names of Spec_PlusJson are those of docs/egts_sr_egtsplus_data.proto. *)
Example C107_names_documented : forallb (fun row => let '(num, name, fields) := row in
    match nth_error sensor_names (N.to_nat (num - 7)) with
    | Some (s, names) => String.eqb s name && (List.length names =? List.length fields)%nat &&
        forallb (fun f => let '(k, _, n) := f in match nth_error names (N.to_nat (k - 1)) with Some n' => String.eqb n n' | None => false end) fields
    | None => false
    end) proto_file = true.
Proof. vm_compute. reflexivity. Qed.
Theorem C107_fails_exactly : forall ft32 b m, bytes_ok b = true -> sr_unmarshal b = Some m ->
  (plus_json ft32 m = None <-> exists bits, In bits (fuel_levels m) /\ ~ finite32 bits).
Proof.
  intros ft32 b m Hb Hd.
  assert (G : forall ft, plus_json ft m = None <-> plus_json json_uint m = None).
  { intros ft. rewrite !top_flat, !members_none.
    assert (L : forall ft' ft'' tags x, json_leaf ft' tags x = None -> json_leaf ft'' tags x = None).
    { intros ft' ft'' tags x. unfold json_leaf. rewrite !members_none. intros (k & Hin). exists k. unfold leaf_members in *. rewrite in_flat_map in *.
      destruct Hin as (kn & Hin & Ho). exists kn. split; [exact Hin|]. destruct (empty_field _); [exact Ho|].
      destruct (nth _ (lf_vals x) None) as [[]|]; cbn in Ho |- *; try exact Ho; try (destruct Ho as [Ho|[]]; discriminate).
      unfold json_float32 in *. destruct (_ =? 255); [exact Ho|]. destruct Ho as [Ho|[]]; discriminate. }
    assert (K : forall ft' ft'', (exists k, In (k, None) (flat_map (top_member ft' m) top_tags)) -> exists k, In (k, None) (flat_map (top_member ft'' m) top_tags)).
    { intros ft' ft'' (k & Hin). exists k. rewrite in_flat_map in *. destruct Hin as (kn & Hin & Ho). exists kn. split; [exact Hin|]. unfold top_member in *.
      destruct (snd kn =? 1); [exact Ho|]. destruct (snd kn =? 2); [exact Ho|]. destruct (snd kn =? 3); [exact Ho|]. destruct (snd kn =? 4); [exact Ho|].
      cbv zeta in *. set (l := nth _ (sr_sensors m) []) in *. set (tags := nth _ leaf_tags []) in *. clearbody l tags.
      apply slice_none_inv in Ho. destruct Ho as (-> & Ho). apply slice_none.
      apply in_map_iff in Ho. destruct Ho as (y & Hy & Hin'). apply in_map_iff. exists y. split; [eapply L, Hy|exact Hin']. }
    split; apply K. }
  rewrite G. destruct texts32_exist as (T & _). exact (plus_none json_uint _ T m (sr_decoded_ok b m Hb Hd)).
Qed.
(** number 1, reasons 14 and -1, a fuel level 12.5, a packed buffer *)
Definition fine_message : bytes := [8; 1; 21; 2; 0; 0; 0; 37; 3; 0; 0; 0; 24; 14; 24; 255; 255; 255; 255; 15;
  66; 7; 8; 1; 21; 0; 0; 72; 65; 162; 1; 8; 8; 5; 18; 2; 200; 100; 24; 1].
(** a fuel level that is NaN *)
Definition nan_message : bytes := [8; 1; 21; 2; 0; 0; 0; 37; 3; 0; 0; 0; 66; 5; 21; 0; 0; 192; 127].
Example C107_example : exists m, bytes_ok fine_message = true /\ sr_unmarshal fine_message = Some m /\
  Forall finite32 (fuel_levels m) /\ fuel_levels m = [1095237632] /\
  plus_json json_uint m = Some (map (fun c => if c =? 35 then 34 else c) (ltext    (* # for the quote *)
    ("{#record_number#:1,#time_stamp#:2,#record_reason#:[14,-1],#status_flags#:3,"
     ++ "#sens_buffer_data#:[{#sens_num#:5,#data#:#yGQ=#,#is_packed#:true}],"
     ++ "#sens_fuel_level#:[{#sens_num#:1,#value#:1095237632}]}")%string)).
Proof. eexists. split; [reflexivity|]. split; [vm_compute; reflexivity|]. split; [repeat constructor; vm_compute; discriminate|]. split; vm_compute; reflexivity. Qed.
Example C107_refusal_example : exists m, bytes_ok nan_message = true /\ sr_unmarshal nan_message = Some m /\ fuel_levels m = [2143289344] /\
  ~ finite32 2143289344 /\ plus_json json_uint m = None.
Proof. eexists. split; [reflexivity|]. split; [vm_compute; reflexivity|]. split; [vm_compute; reflexivity|]. split; [intros H; apply H; vm_compute; reflexivity|vm_compute; reflexivity]. Qed.

(** ** C108: the document determines the message.  Refuted: fields the schema does
    not know, and byte strings that are present but empty, leave no trace. *)
Theorem C108_document_identifies_message_refuted :
  exists b1 b2 b3 m1 m2 m3, bytes_ok (b1 ++ b2 ++ b3) = true /\
  sr_unmarshal b1 = Some m1 /\ sr_unmarshal b2 = Some m2 /\ sr_unmarshal b3 = Some m3 /\
  m1 <> m2 /\ m1 <> m3 /\ sr_unk m3 = [] /\
  forall ft32, plus_json ft32 m1 = plus_json ft32 m2 /\ plus_json ft32 m1 = plus_json ft32 m3 /\ plus_json ft32 m1 <> None.
Proof.
  exists [8; 1; 21; 2; 0; 0; 0; 37; 3; 0; 0; 0; 146; 1; 2; 8; 1], [8; 1; 21; 2; 0; 0; 0; 37; 3; 0; 0; 0; 146; 1; 2; 8; 1; 240; 1; 7],
    [8; 1; 21; 2; 0; 0; 0; 37; 3; 0; 0; 0; 146; 1; 4; 8; 1; 18; 0].
  do 3 eexists. split; [reflexivity|]. split; [vm_compute; reflexivity|]. split; [vm_compute; reflexivity|]. split; [vm_compute; reflexivity|].
  split; [discriminate|]. split; [discriminate|]. split; [reflexivity|]. intros ft32. split; [vm_compute; reflexivity|]. split; [vm_compute; reflexivity|]. vm_compute. discriminate.
Qed.
(** These are the only losses: two messages have the same document exactly when
    they agree in everything else. *)
Theorem C108_document_identifies_message_partial : forall ft32 jf32 b m b' m' t,
  number32_texts ft32 jf32 -> apart32 jf32 ->
  bytes_ok b = true -> sr_unmarshal b = Some m -> bytes_ok b' = true -> sr_unmarshal b' = Some m' ->
  plus_json ft32 m = Some t -> (plus_json ft32 m' = Some t <-> visible m = visible m').
Proof.
  intros ft32 jf32 b m b' m' t Hft Hap Hb Hd Hb' Hd' Ht. split.
  - intros Ht'. assert (G : forall b m, bytes_ok b = true -> sr_unmarshal b = Some m -> plus_json ft32 m = Some t ->
      record_ok m /\ (forall bits, In bits (fuel_levels m) -> finite32 bits) /\ exists v, read_json t = Some v /\ plus_doc jf32 m v).
    { clear - Hft. intros b m Hb Hd Ht. assert (Hok := sr_decoded_ok b m Hb Hd).
      assert (F : forall bits, In bits (fuel_levels m) -> finite32 bits).
      { intros bits Hin. apply finite32_eq. destruct (bits / 8388608 mod 256 =? 255) eqn:E; [|reflexivity]. exfalso.
        assert (plus_json ft32 m = None); [|congruence]. apply (C107_fails_exactly ft32 b m Hb Hd). exists bits. split; [exact Hin|]. rewrite finite32_eq. congruence. }
      split; [exact Hok|]. split; [exact F|]. destruct (C107_document_describes_message ft32 jf32 b m Hft Hb Hd) as (t' & v & H1 & H2 & H3); [apply Forall_forall, F|].
      exists v. replace t with t' by congruence. auto. }
    destruct (G b m Hb Hd Ht) as (O & F & v & R & D). destruct (G b' m' Hb' Hd' Ht') as (O' & F' & v' & R' & D').
    assert (v' = v) by congruence. subst v'. exact (plus_same jf32 Hap m m' v O O' F F' D D').
  - intros E. rewrite <- (plus_visible ft32 m'), <- E, plus_visible. exact Ht.
Qed.
Example C108_example : exists m, sr_unmarshal fine_message = Some m /\ visible m = m /\ exists t, plus_json json_uint m = Some t.
Proof. eexists. split; [vm_compute; reflexivity|]. split; [reflexivity|]. eexists. vm_compute. reflexivity. Qed.

(** ** C109: Package.ToBytes with the real library (C97, C98 with [pj] and [jp]
    replaced).  The document of an accepted package describes it, its EGTS-PLUS
    messages included; it exists unless a fuel level in it is not a number. *)
Lemma plus_texts {E : go_env} ft32 jf32 : number32_texts ft32 jf32 -> @message_texts (with_proto E) (plus_json ft32) (plus_doc jf32).
Proof.
  intros Hft b m t Hb Hd Ht. destruct (plus_json ft32 m) as [t'|] eqn:Hj; [|discriminate]. injection Ht as ->.
  assert (F : Forall finite32 (fuel_levels m)).
  { apply Forall_forall. intros bits Hin. apply finite32_eq. destruct (bits / 8388608 mod 256 =? 255) eqn:Eb; [|reflexivity]. exfalso.
    assert (plus_json ft32 m = None); [|congruence]. apply (C107_fails_exactly ft32 b m Hb Hd). exists bits. split; [exact Hin|]. rewrite finite32_eq. congruence. }
  destruct (C107_document_describes_message ft32 jf32 b m Hft Hb Hd F) as (t'' & v & H1 & H2 & H3).
  destruct H3 as (ms & -> & H3). exists ms. replace t with t'' by congruence. split; [exact H2|]. exists ms. auto.
Qed.
Lemma decoded_messages {E : go_env} (p : package) data spare p' : bytes_ok data = true -> pkg_decode p (mkSlice data spare) = (p', DRet 0 false) ->
  forall m, In m (messages p') -> exists b, bytes_ok b = true /\ pb_unmarshal b = Some m.
Proof.
  intros Hb Hd m Hin. destruct (accepted_frame _ _ _ _ _ Hb Hd) as (f & Hf & Hdec & _). unfold messages in Hin. rewrite Hf in Hin.
  assert (G : forall l, Forall DecWf2.dec_sdr l -> In m (set_messages l) -> exists b, bytes_ok b = true /\ pb_unmarshal b = Some m).
  { intros l Hl Hm. unfold set_messages in Hm. apply in_flat_map in Hm. destruct Hm as (s & Hs & Hm). apply in_flat_map in Hm. destruct Hm as (rd & Hr & Hm).
    rewrite Forall_forall in Hl. specialize (Hl s Hs). destruct Hl as (_ & _ & _ & _ & _ & _ & _ & _ & _ & _ & _ & Hl).
    rewrite Forall_forall in Hl. specialize (Hl rd Hr). destruct Hl as (Hl & _). destruct (SRD rd); try (destruct Hm; fail). destruct Hm as [<-|[]]. exact Hl. }
  destruct f as [l|r]; cbn in Hdec.
  - apply (G l); [apply Hdec|exact Hin].
  - destruct (SDRS r) as [l|]; [|destruct Hin]. apply (G l); [apply Hdec|exact Hin].
Qed.
Theorem C109_package_document : forall (E : go_env) ft jf ft32 jf32 p data spare p',
  let E' := with_proto E in
  number_texts ft jf -> number32_texts ft32 jf32 -> bytes_ok data = true ->
  @pkg_decode E' p (mkSlice data spare) = (p', DRet 0 false) ->
  (forall m, In m (messages p') -> Forall finite32 (fuel_levels m)) ->
  exists b v, @pkg_to_bytes E' ft (plus_json ft32) p' = Some b /\ read_json b = Some v /\ @package_doc E' jf (plus_doc jf32) p' v.
Proof.
  intros E ft jf ft32 jf32 p data spare p' E' Hft H32 Hb Hd Hm.
  apply (C97_document_describes_package E' ft jf (plus_json ft32) (plus_doc jf32) p data spare p' Hft (plus_texts ft32 jf32 H32) Hb Hd).
  intros m Hin Hn. destruct (@decoded_messages E' p data spare p' Hb Hd m Hin) as (b & Hb' & Hu).
  apply (C107_fails_exactly ft32 b m Hb' Hu) in Hn. destruct Hn as (bits & Hbits & Hnf). apply Hnf. specialize (Hm m Hin). rewrite Forall_forall in Hm. apply Hm, Hbits.
Qed.
Theorem C109_fails_exactly : forall (E : go_env) ft jf ft32 jf32 p data spare p',
  let E' := with_proto E in
  number_texts ft jf -> number32_texts ft32 jf32 -> bytes_ok data = true ->
  @pkg_decode E' p (mkSlice data spare) = (p', DRet 0 false) ->
  (@pkg_to_bytes E' ft (plus_json ft32) p' = None <->
   exists m bits, In m (messages p') /\ In bits (fuel_levels m) /\ ~ finite32 bits).
Proof.
  intros E ft jf ft32 jf32 p data spare p' E' Hft H32 Hb Hd.
  rewrite (C97_fails_exactly E' ft jf (plus_json ft32) (plus_doc jf32) p data spare p' Hft (plus_texts ft32 jf32 H32) Hb Hd). split.
  - intros (m & Hin & Hn). destruct (@decoded_messages E' p data spare p' Hb Hd m Hin) as (b & Hb' & Hu).
    apply (C107_fails_exactly ft32 b m Hb' Hu) in Hn. destruct Hn as (bits & H1 & H2). exists m, bits. auto.
  - intros (m & bits & Hin & H1 & H2). exists m. split; [exact Hin|]. destruct (@decoded_messages E' p data spare p' Hb Hd m Hin) as (b & Hb' & Hu).
    apply (C107_fails_exactly ft32 b m Hb' Hu). eauto.
Qed.
(** Equal documents come from equal packages, as far as the texts are UTF-8 and
    the messages hold nothing that a document cannot show. *)
Theorem C109_package_identified : forall (E : go_env) ft jf ft32 jf32 p1 data1 spare1 p1' p2 data2 spare2 p2',
  let E' := with_proto E in
  number_texts ft jf -> (forall x y, finite x -> finite y -> jf x = jf y -> x = y) ->
  number32_texts ft32 jf32 -> apart32 jf32 ->
  bytes_ok data1 = true -> @pkg_decode E' p1 (mkSlice data1 spare1) = (p1', DRet 0 false) ->
  bytes_ok data2 = true -> @pkg_decode E' p2 (mkSlice data2 spare2) = (p2', DRet 0 false) ->
  Forall valid_utf8 (texts p1') -> Forall valid_utf8 (texts p2') ->
  (forall m, In m (messages p1') -> visible m = m) -> (forall m, In m (messages p2') -> visible m = m) ->
  forall b, @pkg_to_bytes E' ft (plus_json ft32) p1' = Some b -> @pkg_to_bytes E' ft (plus_json ft32) p2' = Some b -> p1' = p2'.
Proof.
  intros E ft jf ft32 jf32 p1 data1 spare1 p1' p2 data2 spare2 p2' E' Hft Hjf H32 Hap Hb1 Hd1 Hb2 Hd2 T1 T2 V1 V2 b P1 P2.
  assert (F : forall p data spare p', bytes_ok data = true -> @pkg_decode E' p (mkSlice data spare) = (p', DRet 0 false) -> @pkg_to_bytes E' ft (plus_json ft32) p' = Some b ->
    forall m, In m (messages p') -> record_ok m /\ forall bits, In bits (fuel_levels m) -> finite32 bits).
  { intros p data spare p' Hb Hd Hs m Hin. destruct (@decoded_messages E' p data spare p' Hb Hd m Hin) as (c & Hc & Hu). split; [exact (sr_decoded_ok c m Hc Hu)|].
    intros bits Hbits. apply finite32_eq. destruct (bits / 8388608 mod 256 =? 255) eqn:Eb; [|reflexivity]. exfalso.
    assert (@pkg_to_bytes E' ft (plus_json ft32) p' = None); [|congruence]. apply (C109_fails_exactly E ft jf ft32 jf32 p data spare p' Hft H32 Hb Hd).
    exists m, bits. split; [exact Hin|]. split; [exact Hbits|]. rewrite finite32_eq. congruence. }
  refine (C98_document_identifies_package_partial E' ft jf (plus_json ft32) (plus_doc jf32) p1 data1 spare1 p1' p2 data2 spare2 p2' Hft Hjf
    (plus_texts ft32 jf32 H32) Hb1 Hd1 Hb2 Hd2 T1 T2 _ b P1 P2).
  intros m n Hm Hn v Dm Dn. destruct (F p1 data1 spare1 p1' Hb1 Hd1 P1 m Hm) as [O1 F1]. destruct (F p2 data2 spare2 p2' Hb2 Hd2 P2 n Hn) as [O2 F2].
  transitivity (visible m); [symmetry; apply V1, Hm|]. transitivity (visible n); [|apply V2, Hn]. exact (plus_same jf32 Hap m n v O1 O2 F1 F2 Dm Dn).
Qed.
(** packets that carry the two messages above *)
Definition fine_packet : bytes := [1; 0; 0; 11; 0; 50; 0; 138; 0; 1; 61; 43; 0; 97; 0; 0; 2; 2; 15; 40; 0] ++ fine_message ++ [70; 60].
Definition nan_packet : bytes := [1; 0; 0; 11; 0; 29; 0; 138; 0; 1; 160; 22; 0; 97; 0; 0; 2; 2; 15; 19; 0] ++ nan_message ++ [139; 184].
Lemma split_status {A B} (d : A * B) y : snd d = y -> d = (fst d, y).
Proof. intros <-. apply surjective_pairing. Qed.
Definition fine_decode := @pkg_decode (with_proto env0) (@pkg0 (with_proto env0)) (mkSlice fine_packet []).
Definition nan_decode := @pkg_decode (with_proto env0) (@pkg0 (with_proto env0)) (mkSlice nan_packet []).
Lemma fine_status : snd fine_decode = DRet 0 false. Proof. vm_compute. reflexivity. Qed.
Lemma nan_status : snd nan_decode = DRet 0 false. Proof. vm_compute. reflexivity. Qed.
Lemma fine_messages : sr_unmarshal fine_message <> None /\ @messages (with_proto env0) (fst fine_decode) = match sr_unmarshal fine_message with Some m => [m] | None => [] end.
Proof. split; [vm_compute; discriminate|vm_compute; reflexivity]. Qed.
Lemma fine_texts : @texts (with_proto env0) (fst fine_decode) = []. Proof. vm_compute. reflexivity. Qed.
Lemma nan_refused : match @pkg_to_bytes (with_proto env0) demo_ft (plus_json json_uint) (fst nan_decode) with None => true | Some _ => false end = true.
Proof. vm_compute. reflexivity. Qed.
Example C109_example : exists p : @package (with_proto env0), bytes_ok fine_packet = true /\
  fine_decode = (p, DRet 0 false) /\ messages p <> [] /\
  (forall m, In m (messages p) -> Forall finite32 (fuel_levels m) /\ visible m = m) /\ Forall valid_utf8 (texts p).
Proof.
  exists (fst fine_decode). split; [reflexivity|]. split; [exact (split_status fine_decode _ fine_status)|]. rewrite fine_texts.
  destruct fine_messages as (H1 & H2). rewrite H2. destruct C107_example as (m & _ & Hm & Hf & _). destruct C108_example as (m' & Hm' & Hv & _).
  rewrite Hm in *. split; [discriminate|]. split; [|constructor]. intros n [<-|[]]. split; [exact Hf|]. congruence.
Qed.
Example C109_refusal_example : exists p : @package (with_proto env0), bytes_ok nan_packet = true /\
  nan_decode = (p, DRet 0 false) /\ @pkg_to_bytes (with_proto env0) demo_ft (plus_json json_uint) p = None.
Proof.
  exists (fst nan_decode). split; [reflexivity|]. split; [exact (split_status nan_decode _ nan_status)|].
  pose proof nan_refused as H. revert H. generalize (@pkg_to_bytes (with_proto env0) demo_ft (plus_json json_uint) (fst nan_decode)). intros [?|] H; [discriminate H|reflexivity].
Qed.
Print Assumptions C107_document_describes_message.
Print Assumptions C107_fails_exactly.
Print Assumptions C108_document_identifies_message_refuted.
Print Assumptions C108_document_identifies_message_partial.
Print Assumptions C109_package_document.
Print Assumptions C109_fails_exactly.
Print Assumptions C109_package_identified.
