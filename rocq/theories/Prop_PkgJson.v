(** * Prop_PkgJson: C97, C98 — the JSON document of a package (Package.ToBytes).
    [ft] is the text strconv gives for a float64 and [jf] what a JSON reader makes
    of it; [pj] is the JSON text of a protobuf message (None: encoding/json
    refuses it, as it does a NaN) and [jp] what that text says of the message.
    Prop_PlusJson (C109) has the real ones. *)
From Coq Require Import Floats.SpecFloat String List ZArith Reals Lia Bool.
From Verif Require Import GoBase Float64 SubRecords Records Package Storage Json PkgJson
  Spec_Bits Spec_Wf Spec_Rec Spec_Pkg Spec_Server Spec_Float Spec_Calendar Spec_Json Spec_PkgJson
  BaseFacts JsonFacts DecWf DecWf2 CoordFacts PkgFacts PkgJsonFacts PkgJsonFacts2 InstantFacts BuiltFacts WitnessServer Prop_Json Vectors.
Import ListNotations.
Open Scope N_scope.

(** the text of a message that was decoded, when it has one, is a JSON object
    that says what it should *)
Definition message_texts {E : go_env} (pj : pb_msg -> option gostr) (jp : pb_msg -> json -> Prop) : Prop :=
  forall b m t, bytes_ok b = true -> pb_unmarshal b = Some m -> pj m = Some t ->
  exists ms, read_json t = Some (JObj ms) /\ jp m (JObj ms).

Lemma coord_ok {E : go_env} full v : full = 90 \/ full = 180 -> v < 2 ^ 32 -> ok_float (coord_decode full v).
Proof. intros Hf Hv. destruct (dec_val full Hf v Hv) as ((_ & H) & _). apply finite_ok. exact H. Qed.
Lemma accepted_frame {E : go_env} p data spare p' e : bytes_ok data = true -> pkg_decode p (mkSlice data spare) = (p', DRet 0 e) ->
  exists f, pSFRD p' = Some f /\ dec_frame f /\ flags_plain p'.
Proof.
  intros Hb H. apply accept_iff in H; [|exact Hb]. destruct H as (_ & f & Ha & ->). exists f.
  split; [reflexivity|]. split; [|apply final_flags]. unfold accepted in Ha. cbv zeta in Ha.
  destruct Ha as (_ & _ & _ & _ & Hf & _). refine (frame_decode_wf _ _ _ _ Hf). unfold frame_of.
  apply bytes_ok_firstn, bytes_ok_skipn. exact Hb.
Qed.

(** ** C97: the document of an accepted package.
    Whatever bytes were accepted, in a slice of whatever capacity, by whatever
    receiver: ToBytes succeeds unless some EGTS-PLUS message of the package has
    no JSON text, and then a JSON reader finds in it exactly the fields of the
    package, its records and subrecords, under their tags and in order
    (Spec_PkgJson). *)
Theorem C97_document_describes_package : forall (E : go_env) ft jf pj jp p data spare p',
  number_texts ft jf -> message_texts pj jp -> bytes_ok data = true ->
  pkg_decode p (mkSlice data spare) = (p', DRet 0 false) ->
  (forall m, In m (messages p') -> pj m <> None) ->
  exists b v, pkg_to_bytes ft pj p' = Some b /\ read_json b = Some v /\ package_doc jf jp p' v.
Proof.
  intros E ft jf pj jp p data spare p' Hft Hpj Hb Hd Hm. destruct (accepted_frame _ _ _ _ _ Hb Hd) as (f & Hf & Hdec & _).
  exact (pkg_read ft jf pj jp (number_texts_ok ft jf Hft) Hpj coord_ok p' f Hf Hdec Hm).
Qed.
Theorem C97_fails_exactly : forall (E : go_env) ft jf pj jp p data spare p',
  number_texts ft jf -> message_texts pj jp -> bytes_ok data = true ->
  pkg_decode p (mkSlice data spare) = (p', DRet 0 false) ->
  (pkg_to_bytes ft pj p' = None <-> exists m, In m (messages p') /\ pj m = None).
Proof.
  intros E ft jf pj jp p data spare p' Hft Hpj Hb Hd. split.
  - intros Hn. assert (D : (forall m, In m (messages p') -> pj m <> None) \/ exists m, In m (messages p') /\ pj m = None).
    { generalize (messages p'). clear. induction l as [|m l [IH|(n & H1 & H2)]]; [left; intros m []| |right; exists n; split; [right; exact H1|exact H2]].
      destruct (pj m) eqn:Hm; [left|right; exists m; split; [left; reflexivity|exact Hm]]. intros n [<-|Hin]; [congruence|apply IH, Hin]. }
    destruct D as [D|D]; [|exact D]. exfalso.
    destruct (C97_document_describes_package E ft jf pj jp p data spare p' Hft Hpj Hb Hd D) as (b & v & Hs & _). congruence.
  - intros (m & Hin & Hm). exact (pkg_none ft pj p' m Hin Hm).
Qed.
(** A program may also build a package with a time that is not a whole second:
    the text has it to the nanosecond. *)
Theorem C97_any_instant : forall (v : N) (ns : Z), v < 2 ^ 32 -> (0 <= ns < 1000000000)%Z ->
  exists b s, json_time (Z.of_N v * 1000000000 + ns) = Some b /\ read_json b = Some (JStr s) /\ precise_text s v ns.
Proof.
  intros v ns Hv Hns. destruct (json_time_any v ns Hv Hns) as (s & Hj & Hp & Hs). eexists _, s. split; [exact Hj|]. split; [|exact Hp].
  apply read_json_ok, reads_plain. exact Hs.
Qed.
Example C97_any_instant_example :
  json_time (Z.of_N 351477040 * 1000000000 + 120000000) = Some ([34] ++ lit "2021-02-20T00:30:40.12Z" ++ [34]).
Proof. vm_compute. reflexivity. Qed.
(** For any package, also one that no packet decodes to: ToBytes fails exactly
    when some subrecord is a message without a text, or a position with a
    coordinate that is not a number or a time outside the years 0 to 9999. *)
Theorem C97_built_fails_exactly : forall (E : go_env) ft pj p,
  pkg_to_bytes ft pj p = None <->
  exists s rd, In s (records p) /\ In rd (RD s) /\
    ((exists m, SRD rd = SRPlus m /\ pj m = None) \/
     (exists e, SRD rd = SRPos e /\ (~ finite (Latitude e) \/ ~ finite (Longitude e) \/ ~ in_calendar (NavigationTime e)))).
Proof. exact @built_none. Qed.
(** [in_calendar] names those years: day by day from 0000-01-01 to 2010-01-01,
    and on to 10000-01-01. *)
Theorem C97_calendar_bounds :
  N.iter 734138 next_day (0, 1, 1)%Z = (2010, 1, 1)%Z /\ N.iter 2918287 next_day (2010, 1, 1)%Z = (10000, 1, 1)%Z.
Proof. split; [exact calendar_0_2010|exact calendar_2010_10000]. Qed.
Example C97_built_example : forall E : go_env, exists p p',
  pkg_to_bytes demo_ft (fun _ => None) p <> None /\ records p <> [] /\ pkg_to_bytes demo_ft (fun _ => None) p' = None.
Proof.
  intros E.
  exists (mkPkg 1 0 [ch0; ch0] s0 [ch0; ch0] s0 [ch0; ch0] 11 0 0 1 1 0 0 0 0
    (Some (FSds [mkSDR 0 1 s0 s0 s0 [ch0; ch0] s0 s0 s0 0 0 0 2 2 [mkRD 16 0 SRNil]])) 0).
  exists (mkPkg 1 0 [ch0; ch0] s0 [ch0; ch0] s0 [ch0; ch0] 11 0 0 1 1 0 0 0 0
    (Some (FSds [mkSDR 0 1 s0 s0 s0 [ch0; ch0] s0 s0 s0 0 0 0 2 2 [mkRD 16 0 (SRPos {| NavigationTime := 0;
       Latitude := S754_nan; Longitude := f_of_Z 0; ALTE := s0; LOHS := s0; LAHS := s0; MV := s0; BB := s0; CS := s0; FIX := s0; VLD := s0;
       DirectionHighestBit := 0; AltitudeSign := 0; Speed := 0; Direction := 0; Odometer := 0; DigitalInputs := 0; Source := 0; Altitude := 0 |})]])) 0).
  split; [vm_compute; discriminate|]. split; [discriminate|vm_compute; reflexivity].
Qed.
(** A packet with an identification carrying every optional field, a position and
    a login whose password is <&> and a quote; and a response. *)
Definition rich : bytes := [1; 0; 0; 11; 0; 123; 0; 5; 0; 1; 117; 88; 0; 1; 0; 1; 7; 0; 0; 0; 2; 2; 1; 61; 0; 7; 0; 0; 0; 255; 9; 0; 51; 53; 50; 48; 57; 51; 48; 56; 49; 52; 53; 50; 50; 53; 49; 50; 53; 48; 48; 49; 49; 50; 51; 52; 53; 54; 55; 56; 57; 48; 49; 114; 117; 115; 1; 2; 3; 0; 4; 43; 55; 57; 48; 48; 49; 50; 51; 52; 53; 54; 55; 0; 0; 0; 16; 21; 0; 85; 145; 2; 16; 111; 28; 5; 158; 122; 181; 60; 53; 1; 208; 135; 44; 1; 0; 0; 0; 0; 13; 0; 2; 0; 1; 7; 0; 0; 0; 2; 2; 7; 10; 0; 117; 115; 101; 114; 0; 60; 38; 62; 34; 0; 36; 243].
Definition demo_pj {E : go_env} (m : pb_msg) : option gostr := Some (ltext "{}").
Definition demo_jp {E : go_env} (m : pb_msg) (v : json) : Prop := v = JObj [].
Lemma demo_messages {E : go_env} : message_texts demo_pj demo_jp.
Proof. intros b m t _ _ H. injection H as <-. exists []. split; reflexivity. Qed.
Ltac good_packet := apply good_std; [split; [vm_compute; reflexivity|]; split; [vm_compute; reflexivity|];
   split; [vm_compute; reflexivity|]; vm_compute; split; [discriminate|reflexivity]|vm_compute; reflexivity].
Lemma rich_good {E : go_env} : good rich. Proof. good_packet. Qed.
Lemma rich_decodes {E : go_env} : exists p, decodes_to rich p /\ messages p = [] /\
  exists s1 s2 rd e, pSFRD p = Some (FSds [s1; s2]) /\ RD s1 = rd :: [mkRD 16 21 e] /\
    texts p = [key "352093081452251"; key "2500112345678901"; key "rus"; key "+79001234567" ++ [0; 0; 0]; key "user"; [60; 38; 62; 34]; []].
Proof.
  eexists. split; [apply decodes_to_nil; [exact rich_good|]; vm_compute; reflexivity|]. split; [reflexivity|].
  do 4 eexists. split; [reflexivity|]. split; vm_compute; reflexivity.
Qed.
Example C97_example : forall E : go_env, exists p, number_texts demo_ft (fun x => JReal (demo_ft x)) /\ message_texts demo_pj demo_jp /\
  bytes_ok rich = true /\ pkg_decode pkg0 (mkSlice rich []) = (p, DRet 0 false) /\ (forall m, In m (messages p) -> demo_pj m <> None).
Proof.
  intros E. destruct rich_decodes as (p & Hp & Hm & _). exists p. split; [exact demo_numbers|]. split; [exact demo_messages|].
  split; [vm_compute; reflexivity|]. split; [exact (Hp [])|]. rewrite Hm. intros m [].
Qed.
(** A message without a text, among the messages an accepted packet can carry. *)
Definition plus_packet : bytes := [1; 0; 0; 11; 0; 13; 0; 5; 0; 1; 184; 6; 0; 1; 0; 0; 2; 2; 15; 3; 0; 8; 1; 9; 3; 176].
Example C97_refusal_example : exists p, pkg_decode (E := env0) pkg0 (mkSlice plus_packet []) = (p, DRet 0 false) /\ messages p <> [] /\
  pkg_to_bytes demo_ft (fun _ => None) p = None.
Proof. eexists. split; [vm_compute; reflexivity|]. split; [discriminate|]. vm_compute. reflexivity. Qed.

(** ** C98: the document determines the package.  Refuted: two packets with
    different identifiers (bytes that are not UTF-8, same checksum) have the
    same document. *)
Definition twin_a : bytes := [1; 0; 0; 11; 0; 30; 0; 5; 0; 1; 128; 23; 0; 1; 0; 0; 1; 1; 1; 20; 0; 7; 0; 0; 0; 2; 128; 128; 128; 128; 128; 128; 128; 128; 128; 128; 128; 128; 128; 144; 161; 60; 80].
Definition twin_b : bytes := [1; 0; 0; 11; 0; 30; 0; 5; 0; 1; 128; 23; 0; 1; 0; 0; 1; 1; 1; 20; 0; 7; 0; 0; 0; 2; 128; 128; 128; 128; 128; 128; 128; 128; 128; 128; 128; 128; 129; 128; 128; 60; 80].
Lemma twin_a_good {E : go_env} : good twin_a. Proof. good_packet. Qed.
Lemma twin_b_good {E : go_env} : good twin_b. Proof. good_packet. Qed.
Theorem C98_document_identifies_package_refuted : forall E : go_env, exists b1 b2 p1 p2,
  good b1 /\ good b2 /\ decodes_to b1 p1 /\ decodes_to b2 p2 /\ texts p1 <> texts p2 /\
  forall ft pj, pkg_to_bytes ft pj p1 = pkg_to_bytes ft pj p2 /\ pkg_to_bytes ft pj p1 <> None.
Proof.
  intros E. exists twin_a, twin_b. do 2 eexists. split; [exact twin_a_good|]. split; [exact twin_b_good|].
  split; [apply decodes_to_nil; [exact twin_a_good|]; vm_compute; reflexivity|].
  split; [apply decodes_to_nil; [exact twin_b_good|]; vm_compute; reflexivity|].
  split; [vm_compute; discriminate|]. intros ft pj. split; [vm_compute; reflexivity|vm_compute; discriminate].
Qed.
(** When the texts the clients sent are valid UTF-8 and the reader can tell
    floats and the messages of the two packages apart, equal documents come from
    equal packages. *)
Theorem C98_document_identifies_package_partial : forall (E : go_env) ft jf pj jp p1 data1 spare1 p1' p2 data2 spare2 p2',
  number_texts ft jf -> (forall x y, finite x -> finite y -> jf x = jf y -> x = y) -> message_texts pj jp ->
  bytes_ok data1 = true -> pkg_decode p1 (mkSlice data1 spare1) = (p1', DRet 0 false) ->
  bytes_ok data2 = true -> pkg_decode p2 (mkSlice data2 spare2) = (p2', DRet 0 false) ->
  Forall valid_utf8 (texts p1') -> Forall valid_utf8 (texts p2') ->
  (forall m n, In m (messages p1') -> In n (messages p2') -> forall v, jp m v -> jp n v -> m = n) ->
  forall b, pkg_to_bytes ft pj p1' = Some b -> pkg_to_bytes ft pj p2' = Some b -> p1' = p2'.
Proof.
  intros E ft jf pj jp p1 data1 spare1 p1' p2 data2 spare2 p2' Hft Hjf Hpj Hb1 Hd1 Hb2 Hd2 T1 T2 Hjp b H1 H2.
  assert (G : forall p data spare p', bytes_ok data = true -> pkg_decode p (mkSlice data spare) = (p', DRet 0 false) ->
    pkg_to_bytes ft pj p' = Some b -> exists v, read_json b = Some v /\ package_doc jf jp p' v).
  { intros p data spare p' Hb Hd Hs. destruct (C97_document_describes_package E ft jf pj jp p data spare p' Hft Hpj Hb Hd) as (b' & v & Hs' & Hv).
    - intros m Hin Hm. rewrite (pkg_none ft pj p' m Hin Hm) in Hs. discriminate.
    - exists v. replace b with b' by congruence. exact Hv. }
  destruct (G _ _ _ _ Hb1 Hd1 H1) as (v & R1 & D1). destruct (G _ _ _ _ Hb2 Hd2 H2) as (v' & R2 & D2).
  assert (v' = v) by congruence. subst v'.
  destruct (accepted_frame _ _ _ _ _ Hb1 Hd1) as (f1 & F1 & W1 & P1). destruct (accepted_frame _ _ _ _ _ Hb2 Hd2) as (f2 & F2 & W2 & P2).
  assert (C1 := pkg_clean (fun m => In m (messages p1')) p1' f1 F1 T1 (fun m H => H)).
  assert (C2 := pkg_clean (fun m => In m (messages p2')) p2' f2 F2 T2 (fun m H => H)).
  refine (pkg_same jf jp _ (fun m => In m (messages p1')) (fun m => In m (messages p2')) Hjp coord_ok p1' p2' f1 f2 v P1 P2 F1 F2 W1 W2 C1 C2 D1 D2).
  intros x y Hx Hy. apply Hjf; apply finite_ok; assumption.
Qed.
Example C98_example : forall E : go_env, exists p,
  number_texts demo_ft (fun x => JReal (demo_ft x)) /\
  (forall x y, finite x -> finite y -> JReal (demo_ft x) = JReal (demo_ft y) -> x = y) /\ message_texts demo_pj demo_jp /\
  bytes_ok rich = true /\ pkg_decode pkg0 (mkSlice rich []) = (p, DRet 0 false) /\ Forall valid_utf8 (texts p) /\ texts p <> [] /\
  (forall m n, In m (messages p) -> In n (messages p) -> forall v, demo_jp m v -> demo_jp n v -> m = n) /\
  exists b, pkg_to_bytes demo_ft demo_pj p = Some b.
Proof.
  intros E. destruct rich_decodes as (p & Hp & Hm & s1 & s2 & rd & e & _ & _ & Ht). exists p. destruct C83_texts_exist as (T1 & T2).
  split; [exact T1|]. split; [exact T2|]. split; [exact demo_messages|]. split; [vm_compute; reflexivity|]. split; [exact (Hp [])|].
  rewrite Ht, Hm. split; [repeat constructor; apply ascii_valid; repeat constructor|]. split; [discriminate|]. split; [intros m n []|].
  destruct (C97_document_describes_package E demo_ft _ demo_pj demo_jp pkg0 rich [] p T1 demo_messages) as (b & v & Hs & _);
    [vm_compute; reflexivity|exact (Hp [])|rewrite Hm; intros m []|]. eauto.
Qed.
Print Assumptions C97_document_describes_package.
Print Assumptions C97_fails_exactly.
Print Assumptions C98_document_identifies_package_refuted.
Print Assumptions C98_document_identifies_package_partial.
Print Assumptions C97_any_instant.
Print Assumptions C97_built_fails_exactly.
Print Assumptions C97_calendar_bounds.
