(** * Prop_Json: C80–C84 — the JSON document handed to the storages.
    Throughout, [ft] is the text strconv gives for a float64 and [jf] what a JSON
    reader makes of it; the only assumption is that the text of a finite float64
    is a JSON number. *)
From Coq Require Import Floats.SpecFloat String List ZArith Reals Lra Lia Bool.
From Verif Require Import GoBase Float64 SubRecords Records Package Storage Connectors Server Json
  Spec_Bits Spec_Wf Spec_Rec Spec_Pkg Spec_Server Spec_Float Spec_Calendar Spec_Json
  BaseFacts SubFacts RecFacts CoordFacts FloatFacts DecWf DecWf2 SavedFacts CalendarFacts JsonFacts
  GlueServer ServerFacts4 ServerFacts5 WitnessServer Prop_Float Prop_Time Prop_Storage Vectors.
Import ListNotations.
Open Scope N_scope.

Definition number_texts (ft : f64 -> gostr) (jf : f64 -> json) : Prop :=
  forall x, finite x -> read_num (ft x) = Some (jf x, []).

Lemma finite_ok x : finite x <-> ok_float x.
Proof. unfold finite. destruct x; cbn; intuition discriminate. Qed.
Lemma number_texts_ok ft jf : number_texts ft jf -> forall x, ok_float x -> read_num (ft x) = Some (jf x, []).
Proof. intros H x Hx. apply H, finite_ok, Hx. Qed.

(** Such texts exist, also with distinct texts for distinct numbers: mantissa
    and binary exponent. *)
Definition demo_ft (x : f64) : gostr :=
  match x with
  | S754_zero s => (if s then [45] else []) ++ [48; 101; 48]
  | S754_finite s m e => (if s then [45] else []) ++ json_uint (Npos m) ++ [101] ++ json_int e
  | _ => []
  end.
Lemma int_exponent e : exponent ([101] ++ json_int e) = true /\ forallb number_char ([101] ++ json_int e) = true.
Proof.
  unfold json_int.
  assert (U : forall n, digits1 (json_uint n) = true /\ exists c t, json_uint n = c :: t /\ digit c = true).
  { intros n. pose proof (uint_numeral n) as H. destruct (numeral_plain _ _ H) as (_ & Hd & _). destruct H as (c & t & Hj & Hc & _).
    rewrite Hj in *. split; [exact Hd|]. exists c, t. auto. }
  assert (V : forall n, forallb number_char (json_uint n) = true).
  { intros n. apply digits_number. apply (numeral_plain _ _ (uint_numeral n)). }
  destruct (e <? 0)%Z; cbn [app exponent forallb]; rewrite ?V; (split; [|reflexivity]).
  - apply (proj1 (U _)).
  - destruct (U (Z.to_N e)) as (H1 & c & t & H2 & Hc). rewrite H2 in *. change ((101 =? 101) || (101 =? 69)) with true. cbn [andb].
    assert ((c =? 43) || (c =? 45) = false) as ->; [|exact H1]. apply digit_iff in Hc. rewrite orb_false_iff, !N.eqb_neq. lia.
Qed.
Lemma demo_numbers : number_texts demo_ft (fun x => JReal (demo_ft x)).
Proof.
  intros x Hx. destruct x as [s|s| |s m e]; try discriminate Hx; unfold demo_ft.
  - destruct s; reflexivity.
  - destruct (int_exponent e) as (He & Hn). pose proof (uint_numeral (Npos m)) as H. destruct (numeral_plain _ _ H) as (Hp & Hd & _).
    set (u := json_uint (Npos m)) in *. set (w := [101] ++ json_int e) in *.
    assert (Hw : exists t, w = 101 :: t) by (unfold w; eexists; reflexivity).
    assert (Hsp : span digit (u ++ w) = (u, w)).
    { apply span_app; [exact Hd|]. destruct Hw as (t & ->). reflexivity. }
    assert (Hfr : fraction w = true) by (destruct Hw as (t & Hw); rewrite Hw in *; exact He).
    assert (Hnp : plain_int (u ++ w) = false).
    { apply Bool.not_true_is_false. intros Hc. assert (Hall : forallb digit (u ++ w) = true).
      { destruct (u ++ w) as [|c [|d l]]; [discriminate|cbn in Hc |- *; rewrite Hc; reflexivity|].
        cbn [plain_int] in Hc. rewrite !andb_true_iff in Hc. destruct Hc as [[H1 _] H2]. cbn [forallb] in H2 |- *. rewrite H1. exact H2. }
      rewrite forallb_app in Hall. apply andb_true_iff in Hall. destruct Hall as [_ Hall]. destruct Hw as (t & Hw). rewrite Hw in Hall. discriminate. }
    destruct H as (c & u' & Hu & Hc & _).
    assert (Hallw : forallb number_char (u ++ w) = true) by (rewrite forallb_app, (digits_number _ Hd); exact Hn).
    destruct s; cbn [app]; unfold read_num.
    + pose proof (span_app number_char ([45] ++ u ++ w) [] ltac:(cbn [app forallb]; exact Hallw) I) as S0. rewrite app_nil_r in S0. cbn [app] in S0. rewrite S0.
      assert (plain_int (45 :: u ++ w) = false) as -> by (cbn [plain_int]; destruct (u ++ w); reflexivity).
      change (45 =? 45) with true. rewrite Hnp. cbn [andb]. unfold number. change (45 =? 45) with true. cbv iota. rewrite Hsp, Hp, Hfr. reflexivity.
    + pose proof (span_app number_char (u ++ w) [] Hallw I) as S0. rewrite app_nil_r in S0. rewrite S0, Hnp.
      assert (Hcons : u ++ w = c :: (u' ++ w)) by (rewrite Hu; reflexivity).
      assert (Hc45 : (c =? 45) = false) by (apply digit_iff in Hc; apply N.eqb_neq; lia).
      assert (Hnum : number (u ++ w) = true).
      { unfold number. rewrite Hcons, Hc45, <- Hcons, Hsp, Hp, Hfr. reflexivity. }
      rewrite Hnum. rewrite Hcons at 1. rewrite Hc45. reflexivity.
Qed.

(** ** Records that reach a storage *)
Section Saved.
Context {E : go_env}.
Lemma litres_finite e : LLSD e < 2 ^ 32 -> finite (f_div (f_of_N (LLSD e)) (f_of_N 10)).
Proof.
  intros H. change (2 ^ 32) with 4294967296 in H.
  destruct (of_N_val 90 (or_introl eq_refl) (LLSD e)) as (F1 & V1); [change (2 ^ 53) with 9007199254740992; lia|].
  destruct (of_N_val 90 (or_introl eq_refl) 10) as (F2 & V2); [change (2 ^ 53) with 9007199254740992; lia|].
  refine (proj2 (proj1 (div_val _ _ F1 F2 _ _))); [rewrite V2; change (Z.of_N 10) with 10%Z; lra|].
  apply small_ok. rewrite V1, V2. change (Z.of_N 10) with 10%Z.
  assert (0 <= IZR (Z.of_N (LLSD e)) <= 4294967296)%R.
  { split; [apply (IZR_le 0); lia|apply (IZR_le _ 4294967296); lia]. }
  rewrite Rabs_pos_eq by lra. lra.
Qed.
Lemma decoded_liquid l e : Forall dec_sdr l -> In e (liquids l) -> wf_liquid e = true.
Proof.
  intros H Hin. unfold liquids, subrecords in Hin. apply in_flat_map in Hin. destruct Hin as (d & Hd & He).
  apply in_flat_map in Hd. destruct Hd as (s & Hs & Hd). apply in_map_iff in Hd. destruct Hd as (rd & <- & Hrd).
  rewrite Forall_forall in H. specialize (H s Hs). destruct H as (_ & _ & _ & _ & _ & _ & _ & _ & _ & _ & _ & H).
  rewrite Forall_forall in H. destruct (H rd Hrd) as [Hsr _].
  destruct (SRD rd); cbn in He; try contradiction. destruct He as [<-|[]]. exact Hsr.
Qed.
Lemma bits2 s : bits_ok 2 s = true -> s = [ch0; ch0] \/ s = [ch0; ch1] \/ s = [ch1; ch0] \/ s = [ch1; ch1].
Proof.
  intros H. unfold bits_ok in H. apply andb_true_iff in H. destruct H as [Hl H]. apply Nat.eqb_eq in Hl.
  destruct s as [|a [|b [|c s]]]; try discriminate Hl. cbn [forallb] in H. rewrite !andb_true_iff in H. destruct H as [Ha [Hb _]].
  assert (C : forall c, bit_char c = true -> c = ch0 \/ c = ch1).
  { intros c Hc. unfold bit_char in Hc. apply orb_true_iff in Hc. rewrite !N.eqb_eq in Hc. exact Hc. }
  destruct (C a Ha) as [-> | ->], (C b Hb) as [-> | ->]; auto.
Qed.
Lemma saved_floats stores conns sched i k n o : Forall in_ok conns ->
  In (i, ECall k n o) (g_trace (grun stores sched (ginit conns))) -> floats_ok n.
Proof.
  intros Hok Hin. split.
  - destruct (C71_saved_coordinates_in_range E stores conns sched i k n o Hok Hin) as (_ & H).
    eapply Forall_impl; [|exact H]. intros s ((_ & H1) & _ & (_ & H2) & _). split; apply finite_ok; assumption.
  - destruct (every_call_built stores conns sched i k n o Hok Hin) as (l & Hl & _ & _ & _ & _ & Hq & _).
    assert (G : forall e, In e (liquids l) -> wf_liquid e = true) by (intros e; apply decoded_liquid, Hl).
    clear - Hq G. induction Hq as [|e s es ss Hs _ IH]; constructor; [|apply IH; intros; apply G; right; assumption].
    destruct Hs as (_ & _ & _ & _ & H1 & H2 & H3). specialize (G e (or_introl eq_refl)). unfold wf_liquid in G.
    rewrite !andb_true_iff in G. destruct G as [[[[[_ Hu] _] _] _] Hd]. apply N.ltb_lt in Hd.
    apply finite_ok. destruct (bits2 _ Hu) as [Hb|[Hb|[Hb|Hb]]].
    + rewrite (proj2 (H1 (or_introl Hb))). reflexivity.
    + rewrite (proj2 (H1 (or_intror Hb))). reflexivity.
    + rewrite (proj2 (H2 Hb)). apply litres_finite, Hd.
    + rewrite (proj2 (H3 Hb)). reflexivity.
Qed.
End Saved.

Lemma F2_length {A B} (R : A -> B -> Prop) l l' : Forall2 R l l' -> List.length l = List.length l'.
Proof. induction 1; cbn; congruence. Qed.
Lemma jobj_inv k p fs ms : jobj ((k, p) :: fs) ms -> exists v ms', ms = (key k, v) :: ms' /\ p v /\ jobj fs ms'.
Proof. intros H. inversion H; subst. eauto. Qed.
Lemma record_doc_inv jf rdt n v : record_doc jf rdt n v -> exists v1 v2 v3 v4 v5 v6 v7 v8 v9 v10,
  v = JObj [(key "server_id", v1); (key "IMEI", v2); (key "client_id", v3); (key "received_dt", v4); (key "packet_id", v5);
            (key "navigation_unix_time", v6); (key "an_sensors", v7); (key "liquid_sensors", v8); (key "loc_states", v9);
            (key "loc_states_count", v10)] /\
  jtext (nrServerID n) v1 /\ jtext (nrIMEI n) v2 /\ jnat (nrClientID n) v3 /\ jtext rdt v4 /\ jnat (nrPacketID n) v5 /\
  v6 = JInt (nrNavTs n) /\ jlist an_doc (nrAn n) v7 /\ jlist (liquid_doc jf) (nrLiq n) v8 /\ jlist (loc_doc jf) (nrLocs n) v9 /\
  jnat (nrCount n) v10.
Proof.
  intros (ms & -> & H).
  apply jobj_inv in H; destruct H as (v1 & m1 & -> & P1 & H). apply jobj_inv in H; destruct H as (v2 & m2 & -> & P2 & H).
  apply jobj_inv in H; destruct H as (v3 & m3 & -> & P3 & H). apply jobj_inv in H; destruct H as (v4 & m4 & -> & P4 & H).
  apply jobj_inv in H; destruct H as (v5 & m5 & -> & P5 & H). apply jobj_inv in H; destruct H as (v6 & m6 & -> & P6 & H).
  apply jobj_inv in H; destruct H as (v7 & m7 & -> & P7 & H). apply jobj_inv in H; destruct H as (v8 & m8 & -> & P8 & H).
  apply jobj_inv in H; destruct H as (v9 & m9 & -> & P9 & H). apply jobj_inv in H; destruct H as (v10 & m10 & -> & P10 & H).
  inversion H. subst m10. exists v1, v2, v3, v4, v5, v6, v7, v8, v9, v10. split; [reflexivity|]. tauto.
Qed.

(** ** C80: every record handed to any storage, in every execution and whatever
    the clients send, serialises, and a JSON reader finds in it exactly the
    fields of the record, under the documented keys. *)
Theorem C80_record_serialises : forall (E : go_env) ft jf rdt stores conns sched i k n o,
  number_texts ft jf -> Forall in_ok conns ->
  In (i, ECall k n o) (g_trace (grun stores sched (ginit conns))) ->
  exists b v, to_bytes ft rdt n = Some b /\ read_json b = Some v /\ record_doc jf rdt n v.
Proof.
  intros E ft jf rdt stores conns sched i k n o Hft Hok Hin.
  destruct (record_read ft jf (number_texts_ok ft jf Hft) rdt n (saved_floats stores conns sched i k n o Hok Hin)) as (b & v & H1 & H2 & H3).
  exists b, v. split; [exact H1|]. split; [apply read_json_ok, H2|exact H3].
Qed.
Example C80_example : let g := grun [fun _ => SvOk] (repeat 0%nat 12) (ginit [mkIn [vec_msg] CEof]) in
  existsb (fun x => match snd x with
    | ECall 0 n SvOk => match to_bytes demo_ft [] n with
                        | Some b => match read_json b with Some (JObj ms) => Nat.eqb (List.length ms) 10 | _ => false end
                        | None => false end
    | _ => false end) (g_trace g) = true.
Proof. vm_compute. reflexivity. Qed.

(** ** C81: a terminal's identifier reaches the storage unchanged.  Refuted:
    bytes that are not UTF-8 are replaced, and two terminals with different
    identifiers get the same document. *)
Definition imei_ff : bytes := [1; 0; 0; 11; 0; 58; 0; 5; 0; 1; 103; 47; 0; 1; 0; 1; 7; 0; 0; 0; 2; 2; 1; 20; 0; 7; 0; 0; 0; 2; 255; 255; 255; 255; 255; 255; 255; 255; 255; 255; 255; 255; 255; 255; 255; 16; 21; 0; 85; 145; 2; 16; 111; 28; 5; 158; 122; 181; 60; 53; 1; 208; 135; 44; 1; 0; 0; 0; 0; 107; 239].
Definition imei_fe : bytes := [1; 0; 0; 11; 0; 58; 0; 5; 0; 1; 103; 47; 0; 1; 0; 1; 7; 0; 0; 0; 2; 2; 1; 20; 0; 7; 0; 0; 0; 2; 254; 254; 254; 254; 254; 254; 254; 254; 254; 254; 254; 254; 254; 254; 254; 16; 21; 0; 85; 145; 2; 16; 111; 28; 5; 158; 122; 181; 60; 53; 1; 208; 135; 44; 1; 0; 0; 0; 0; 45; 112].
Lemma imei_ff_good {E : go_env} : good imei_ff.
Proof. apply good_std; [split; [vm_compute; reflexivity|]; split; [vm_compute; reflexivity|];
   split; [vm_compute; reflexivity|]; vm_compute; split; [discriminate|reflexivity]|vm_compute; reflexivity]. Qed.
Lemma imei_fe_good {E : go_env} : good imei_fe.
Proof. apply good_std; [split; [vm_compute; reflexivity|]; split; [vm_compute; reflexivity|];
   split; [vm_compute; reflexivity|]; vm_compute; split; [discriminate|reflexivity]|vm_compute; reflexivity]. Qed.
Theorem C81_identifier_preserved_refuted : forall E : go_env, exists b1 b2 r1 r2 w1 w2,
  good b1 /\ good b2 /\
  (forall spare, process (mkSlice b1 spare) = PActs (ASave r1 :: w1)) /\
  (forall spare, process (mkSlice b2 spare) = PActs (ASave r2 :: w2)) /\
  nrIMEI r1 = repeat 255 15 /\ nrIMEI r2 = repeat 254 15 /\
  forall ft rdt, to_bytes ft rdt r1 = to_bytes ft rdt r2.
Proof.
  intros E. exists imei_ff, imei_fe. do 4 eexists. split; [exact imei_ff_good|]. split; [exact imei_fe_good|].
  split; [intros spare; rewrite process_spare by exact imei_ff_good; vm_compute; reflexivity|].
  split; [intros spare; rewrite process_spare by exact imei_fe_good; vm_compute; reflexivity|].
  split; [reflexivity|]. split; [reflexivity|]. intros ft rdt.
  unfold to_bytes. cbn [nrServerID nrIMEI nrClientID nrPacketID nrNavTs nrAn nrLiq nrLocs nrCount].
  match goal with |- context [("IMEI"%string, json_str ?x)] => replace (json_str x) with (json_str (repeat 254 15)) by (vm_compute; reflexivity) end.
  reflexivity.
Qed.
(** An identifier that is valid UTF-8, in particular every ASCII one, is found
    in the document as it is. *)
Theorem C81_identifier_preserved_partial : forall (E : go_env) ft jf rdt stores conns sched i k n o,
  number_texts ft jf -> Forall in_ok conns ->
  In (i, ECall k n o) (g_trace (grun stores sched (ginit conns))) -> valid_utf8 (nrIMEI n) ->
  exists b ms, to_bytes ft rdt n = Some b /\ read_json b = Some (JObj ms) /\ In (key "IMEI", JStr (nrIMEI n)) ms.
Proof.
  intros E ft jf rdt stores conns sched i k n o Hft Hok Hin Hv.
  destruct (C80_record_serialises E ft jf rdt stores conns sched i k n o Hft Hok Hin) as (b & v & H1 & H2 & H3).
  destruct (record_doc_inv _ _ _ _ H3) as (v1 & v2 & v3 & v4 & v5 & v6 & v7 & v8 & v9 & v10 & Hd & _ & (t & -> & Ht) & _). subst v.
  eexists b, _. split; [exact H1|]. split; [exact H2|]. rewrite (shown_valid _ _ Hv Ht). right. left. reflexivity.
Qed.
Example C81_example : valid_utf8 (key "352093081452251").
Proof. apply ascii_valid. repeat constructor. Qed.

(** ** C82: the lists of a document are JSON arrays.  Refuted for the sensors: a
    packet without readings stores null. *)
Lemma chars_scalar s l : chars s l -> Forall scalar (map (fun o => match o with Some cp => cp | None => 65533 end) l).
Proof.
  induction 1 as [|cp s l Hs _ IH|c s l _ _ IH]; cbn [map]; [apply Forall_nil|apply Forall_cons; assumption|].
  apply Forall_cons; [right; lia|exact IH].
Qed.
(** Exactly: the document has one IMEI, and it is the terminal's if and only if
    that is valid UTF-8. *)
Theorem C81_identifier_preserved_iff : forall (E : go_env) ft jf rdt stores conns sched i k n o,
  number_texts ft jf -> Forall in_ok conns ->
  In (i, ECall k n o) (g_trace (grun stores sched (ginit conns))) ->
  exists b ms t, to_bytes ft rdt n = Some b /\ read_json b = Some (JObj ms) /\
    (forall v, In (key "IMEI", v) ms <-> v = JStr t) /\ (t = nrIMEI n <-> valid_utf8 (nrIMEI n)).
Proof.
  intros E ft jf rdt stores conns sched i k n o Hft Hok Hin.
  destruct (C80_record_serialises E ft jf rdt stores conns sched i k n o Hft Hok Hin) as (b & v & H1 & H2 & H3).
  destruct (record_doc_inv _ _ _ _ H3) as (v1 & v2 & v3 & v4 & v5 & v6 & v7 & v8 & v9 & v10 & Hd & _ & (t & -> & Ht) & _). subst v.
  eexists b, _, t. split; [exact H1|]. split; [exact H2|]. split.
  - intros v. split; [|intros ->; right; left; reflexivity]. cbn [In].
    intros H. repeat destruct H as [H|H]; try (discriminate H); try (injection H as <-; reflexivity); destruct H.
  - split; [|intros Hv; exact (shown_valid _ _ Hv Ht)]. intros ->. destruct Ht as (l & Hc & Hl).
    exists (map (fun o => match o with Some cp => cp | None => 65533 end) l). split.
    + exact (chars_scalar _ _ Hc).
    + rewrite Hl at 1. clear. induction l as [|x l IH]; [reflexivity|]. cbn [flat_map map]. rewrite IH. reflexivity.
Qed.
Theorem C82_lists_are_arrays_refuted : forall E : go_env, exists b r w, good b /\
  (forall spare, process (mkSlice b spare) = PActs (ASave r :: w)) /\
  forall ft jf rdt, number_texts ft jf -> exists t ms, to_bytes ft rdt r = Some t /\ read_json t = Some (JObj ms) /\
    In (key "an_sensors", JNull) ms /\ In (key "liquid_sensors", JNull) ms.
Proof.
  intros E. exists imei_ff. do 2 eexists. split; [exact imei_ff_good|].
  split; [intros spare; rewrite process_spare by exact imei_ff_good; vm_compute; reflexivity|].
  intros ft jf rdt Hft.
  match goal with |- exists t ms, to_bytes ft rdt ?r = _ /\ _ => destruct (record_read ft jf (number_texts_ok ft jf Hft) rdt r) as (t & v & H1 & H2 & H3) end.
  { split; [repeat constructor|constructor]. }
  destruct (record_doc_inv _ _ _ _ H3) as (v1 & v2 & v3 & v4 & v5 & v6 & v7 & v8 & v9 & v10 & Hd & _ & _ & _ & _ & _ & _ & Ha & Hq & _). subst v.
  eexists t, _. split; [exact H1|]. split; [apply read_json_ok, H2|].
  unfold jlist in Ha, Hq. cbn [nrAn nrLiq] in Ha, Hq. subst v7 v8. split; [do 6 right; left; reflexivity|do 7 right; left; reflexivity].
Qed.
(** The positions always are a non-empty array, whose length is
    loc_states_count; the sensors are null exactly when there is no reading,
    and otherwise an array with one element per reading. *)
Theorem C82_lists_are_arrays_partial : forall (E : go_env) ft jf rdt stores conns sched i k n o,
  number_texts ft jf -> Forall in_ok conns ->
  In (i, ECall k n o) (g_trace (grun stores sched (ginit conns))) ->
  exists b ms locs an liq, to_bytes ft rdt n = Some b /\ read_json b = Some (JObj ms) /\
    In (key "loc_states", JArr locs) ms /\ locs <> [] /\ Forall2 (loc_doc jf) (nrLocs n) locs /\
    In (key "loc_states_count", JInt (Z.of_nat (List.length locs))) ms /\
    In (key "an_sensors", an) ms /\ jlist an_doc (nrAn n) an /\ (an = JNull <-> nrAn n = []) /\
    In (key "liquid_sensors", liq) ms /\ jlist (liquid_doc jf) (nrLiq n) liq /\ (liq = JNull <-> nrLiq n = []).
Proof.
  intros E ft jf rdt stores conns sched i k n o Hft Hok Hin.
  destruct (C80_record_serialises E ft jf rdt stores conns sched i k n o Hft Hok Hin) as (b & v & H1 & H2 & H3).
  destruct (every_call_built stores conns sched i k n o Hok Hin) as (l & _ & Hne & Hloc & Hcnt & _).
  destruct (record_doc_inv _ _ _ _ H3) as (v1 & v2 & v3 & v4 & v5 & v6 & v7 & v8 & v9 & v10 & Hd & _ & _ & _ & _ & _ & _ & Hv7 & Hv8 & Hv9 & Hv10). subst v.
  assert (HL : nrLocs n <> []) by (intros Hn; rewrite Hn in Hloc; inversion Hloc; congruence).
  assert (HV : exists locs, v9 = JArr locs /\ Forall2 (loc_doc jf) (nrLocs n) locs).
  { unfold jlist in Hv9. destruct (nrLocs n); [congruence|exact Hv9]. }
  destruct HV as (locs & -> & HF).
  eexists b, _, locs, v7, v8. split; [exact H1|]. split; [exact H2|].
  split; [do 8 right; left; reflexivity|]. split; [intros ->; inversion HF; congruence|]. split; [exact HF|].
  split. { do 9 right. left. unfold jnat in Hv10. rewrite Hv10, Hcnt. f_equal. f_equal.
           rewrite nat_N_Z. f_equal. apply F2_length in Hloc, HF. congruence. }
  split; [do 6 right; left; reflexivity|]. split; [exact Hv7|].
  split. { unfold jlist in Hv7. destruct (nrAn n); [subst; tauto|]. destruct Hv7 as (vs & -> & _). split; discriminate. }
  split; [do 7 right; left; reflexivity|]. split; [exact Hv8|].
  unfold jlist in Hv8. destruct (nrLiq n); [subst; tauto|]. destruct Hv8 as (vs & -> & _). split; discriminate.
Qed.

(** ** C83: the document identifies the record: two records handed to storages,
    in any two executions, with the same document are the same record, provided
    the identifiers are valid UTF-8 and distinct float64 values have distinct
    texts. *)
Lemma decimal_ascii w s v : decimal w s v -> Forall (fun c => c < 128) s.
Proof. intros (_ & H & _). eapply Forall_impl; [|exact H]. cbv beta. intros c Hc. apply N.le_lt_trans with 57; [apply Hc|reflexivity]. Qed.
Lemma instant_ascii s v : instant_text s v -> Forall (fun c => c < 128) s.
Proof.
  intros (h & mi & se & H & _). unfold reads in H. destruct (days_after_2010 (v / 86400)) as [[y m] d].
  destruct H as (a & b & c & e & f & g & -> & D1 & D2 & D3 & D4 & D5 & D6).
  repeat (apply Forall_app; split); try (eapply decimal_ascii; eassumption); repeat constructor.
Qed.
Lemma bits_ascii n s : bits_ok n s = true -> Forall (fun c => c < 128) s.
Proof.
  intros H. unfold bits_ok in H. apply andb_true_iff in H. destruct H as [_ H]. rewrite forallb_forall in H. apply Forall_forall. intros c Hc.
  specialize (H c Hc). unfold bit_char in H. apply orb_true_iff in H. rewrite !N.eqb_eq in H. destruct H as [-> | ->]; reflexivity.
Qed.
Lemma saved_texts {E : go_env} stores conns sched i k n o : Forall in_ok conns ->
  In (i, ECall k n o) (g_trace (grun stores sched (ginit conns))) ->
  Forall (fun s => valid_utf8 (lsNavDt s)) (nrLocs n) /\
  Forall (fun s => valid_utf8 (lqError s) /\ valid_utf8 (lqUnit s)) (nrLiq n) /\ valid_utf8 (nrServerID n).
Proof.
  intros Hok Hin. split; [|split].
  - destruct (C78_stored_times_exact E stores conns sched i k n o Hok Hin) as (ts & H & _).
    clear - H. induction H as [|s v ss vs (_ & Hs) _ IH]; constructor; [|exact IH]. eapply ascii_valid, instant_ascii, Hs.
  - destruct (every_call_built stores conns sched i k n o Hok Hin) as (l & Hl & _ & _ & _ & _ & Hq & _).
    assert (G : forall e, In e (liquids l) -> wf_liquid e = true) by (intros e; apply decoded_liquid, Hl).
    clear - Hq G. induction Hq as [|e s es ss Hs _ IH]; constructor; [|apply IH; intros; apply G; right; assumption].
    destruct Hs as (_ & _ & -> & -> & _). specialize (G e (or_introl eq_refl)). unfold wf_liquid in G.
    rewrite !andb_true_iff in G. destruct G as [[[[[He Hu] _] _] _] _]. split; eapply ascii_valid, bits_ascii; eassumption.
  - destruct (every_call_built stores conns sched i k n o Hok Hin) as (l & _ & _ & _ & _ & _ & _ & _ & _ & -> & _).
    apply ascii_valid. repeat constructor.
Qed.
Lemma jtext_inj s s' v : valid_utf8 s -> valid_utf8 s' -> jtext s v -> jtext s' v -> s = s'.
Proof. intros H H' (t & -> & Ht) (t' & Ev & Ht'). injection Ev as <-. rewrite <- (shown_valid _ _ H Ht). apply (shown_valid _ _ H' Ht'). Qed.
Lemma jnat_inj a b v : jnat a v -> jnat b v -> a = b.
Proof. unfold jnat. intros -> H. injection H as H. apply N2Z.inj, H. Qed.
Lemma jlist_inj {A} (p : A -> json -> Prop) l l' v : (forall x y w, In x l -> In y l' -> p x w -> p y w -> x = y) ->
  jlist p l v -> jlist p l' v -> l = l'.
Proof.
  intros H H1 H2. unfold jlist in *. destruct l as [|x l], l' as [|y l']; try reflexivity.
  - subst. destruct H2 as (vs & E & _). discriminate.
  - subst. destruct H1 as (vs & E & _). discriminate.
  - destruct H1 as (vs & -> & H1), H2 as (vs' & E & H2). injection E as <-.
    revert H H1 H2. generalize (y :: l') as b. generalize (x :: l) as a. clear. intros a b H H1. revert b H.
    induction H1 as [|x v a vs Hx _ IH]; intros b H H2; inversion H2 as [|y ? b' ? Hy Hb]; subst; [reflexivity|].
    rewrite (H x y v (or_introl eq_refl) (or_introl eq_refl) Hx Hy). f_equal.
    apply IH; [|exact Hb]. intros. eapply H; [right; eassumption|right; eassumption|eassumption|eassumption].
Qed.
Lemma liq_ext x y : lqNumber x = lqNumber y -> lqModule x = lqModule y -> lqError x = lqError y -> lqUnit x = lqUnit y ->
  lqMm x = lqMm y -> lqL x = lqL y -> x = y.
Proof. destruct x as [x1 x2 x3 x4 x5 x6], y as [y1 y2 y3 y4 y5 y6]. cbn. intros -> -> -> -> -> ->. reflexivity. Qed.
Lemma loc_ext x y : lsLat x = lsLat y -> lsLng x = lsLng y -> lsSpeed x = lsSpeed y -> lsNavDt x = lsNavDt y -> x = y.
Proof. destruct x as [x1 x2 x3 x4], y as [y1 y2 y3 y4]. cbn. intros -> -> -> ->. reflexivity. Qed.
Lemma nav_ext x y : nrServerID x = nrServerID y -> nrIMEI x = nrIMEI y -> nrClientID x = nrClientID y -> nrPacketID x = nrPacketID y ->
  nrNavTs x = nrNavTs y -> nrAn x = nrAn y -> nrLiq x = nrLiq y -> nrLocs x = nrLocs y -> nrCount x = nrCount y -> x = y.
Proof. destruct x as [x1 x2 x3 x4 x5 x6 x7 x8 x9], y as [y1 y2 y3 y4 y5 y6 y7 y8 y9]. cbn. intros -> -> -> -> -> -> -> -> ->. reflexivity. Qed.
Theorem C83_document_identifies_record : forall (E : go_env) ft jf rdt rdt'
    stores conns sched i k n o stores' conns' sched' i' k' n' o',
  number_texts ft jf -> (forall x y, finite x -> finite y -> jf x = jf y -> x = y) ->
  Forall in_ok conns -> In (i, ECall k n o) (g_trace (grun stores sched (ginit conns))) ->
  Forall in_ok conns' -> In (i', ECall k' n' o') (g_trace (grun stores' sched' (ginit conns'))) ->
  valid_utf8 (nrIMEI n) -> valid_utf8 (nrIMEI n') -> valid_utf8 rdt -> valid_utf8 rdt' ->
  to_bytes ft rdt n = to_bytes ft rdt' n' -> n = n' /\ rdt = rdt'.
Proof.
  intros E ft jf rdt rdt' stores conns sched i k n o stores' conns' sched' i' k' n' o' Hft Hinj Hok Hin Hok' Hin' Vi Vi' Vr Vr' Heq.
  destruct (C80_record_serialises E ft jf rdt _ _ _ _ _ _ _ Hft Hok Hin) as (b & v & H1 & H2 & H3).
  destruct (C80_record_serialises E ft jf rdt' _ _ _ _ _ _ _ Hft Hok' Hin') as (b' & v' & H1' & H2' & H3').
  assert (b' = b) by congruence. subst b'. assert (v' = v) by congruence. subst v'.
  destruct (saved_texts _ _ _ _ _ _ _ Hok Hin) as (T1 & T2 & T3). destruct (saved_texts _ _ _ _ _ _ _ Hok' Hin') as (T1' & T2' & T3').
  destruct (saved_floats _ _ _ _ _ _ _ Hok Hin) as (F1 & F2). destruct (saved_floats _ _ _ _ _ _ _ Hok' Hin') as (F1' & F2').
  rewrite Forall_forall in T1, T2, T1', T2', F1, F2, F1', F2'.
  destruct (record_doc_inv _ _ _ _ H3) as (v1 & v2 & v3 & v4 & v5 & v6 & v7 & v8 & v9 & v10 & Hd & A1 & A2 & A3 & A4 & A5 & A6 & A7 & A8 & A9 & A10).
  destruct (record_doc_inv _ _ _ _ H3') as (w1 & w2 & w3 & w4 & w5 & w6 & w7 & w8 & w9 & w10 & Hd' & B1 & B2 & B3 & B4 & B5 & B6 & B7 & B8 & B9 & B10).
  rewrite Hd in Hd'. injection Hd' as <- <- <- <- <- <- <- <- <- <-.
  split; [|exact (jtext_inj _ _ _ Vr Vr' A4 B4)].
  assert (E1 : nrServerID n = nrServerID n') by exact (jtext_inj _ _ _ T3 T3' A1 B1).
  assert (E2 : nrIMEI n = nrIMEI n') by exact (jtext_inj _ _ _ Vi Vi' A2 B2).
  assert (E3 : nrClientID n = nrClientID n') by exact (jnat_inj _ _ _ A3 B3).
  assert (E5 : nrPacketID n = nrPacketID n') by exact (jnat_inj _ _ _ A5 B5).
  assert (E6 : nrNavTs n = nrNavTs n') by congruence.
  assert (E10 : nrCount n = nrCount n') by exact (jnat_inj _ _ _ A10 B10).
  assert (E7 : nrAn n = nrAn n').
  { refine (jlist_inj _ _ _ _ _ A7 B7). intros [x1 x2] [y1 y2] w _ _ (ms & -> & Hx) (ms' & Ew & Hy). injection Ew as <-.
    apply jobj_inv in Hx; destruct Hx as (a1 & m1 & -> & P1 & Hx). apply jobj_inv in Hx; destruct Hx as (a2 & m2 & -> & P2 & _).
    apply jobj_inv in Hy; destruct Hy as (c1 & q1 & Ec & Q1 & Hy). injection Ec as <- <-. apply jobj_inv in Hy; destruct Hy as (c2 & q2 & Ec & Q2 & _). injection Ec as <- <-.
    pose proof (jnat_inj _ _ _ P1 Q1) as R1. pose proof (jnat_inj _ _ _ P2 Q2) as R2. cbn [anNumber anValue] in R1, R2. rewrite R1, R2. reflexivity. }
  assert (E8 : nrLiq n = nrLiq n').
  { refine (jlist_inj _ _ _ _ _ A8 B8). intros x y w Ix Iy (ms & -> & Hx) (ms' & Ew & Hy). injection Ew as <-.
    apply jobj_inv in Hx; destruct Hx as (a1 & m1 & -> & P1 & Hx). apply jobj_inv in Hx; destruct Hx as (a2 & m2 & -> & P2 & Hx).
    apply jobj_inv in Hx; destruct Hx as (a3 & m3 & -> & P3 & Hx). apply jobj_inv in Hx; destruct Hx as (a4 & m4 & -> & P4 & Hx).
    apply jobj_inv in Hx; destruct Hx as (a5 & m5 & -> & P5 & Hx). apply jobj_inv in Hx; destruct Hx as (a6 & m6 & -> & P6 & _).
    apply jobj_inv in Hy; destruct Hy as (c1 & q1 & Ec & Q1 & Hy). injection Ec as <- <-. apply jobj_inv in Hy; destruct Hy as (c2 & q2 & Ec & Q2 & Hy). injection Ec as <- <-.
    apply jobj_inv in Hy; destruct Hy as (c3 & q3 & Ec & Q3 & Hy). injection Ec as <- <-. apply jobj_inv in Hy; destruct Hy as (c4 & q4 & Ec & Q4 & Hy). injection Ec as <- <-.
    apply jobj_inv in Hy; destruct Hy as (c5 & q5 & Ec & Q5 & Hy). injection Ec as <- <-. apply jobj_inv in Hy; destruct Hy as (c6 & q6 & Ec & Q6 & _). injection Ec as <- <-.
    destruct (T2 x Ix) as (V1 & V2), (T2' y Iy) as (V1' & V2').
    pose proof (jnat_inj _ _ _ P1 Q1) as R1. pose proof (jnat_inj _ _ _ P2 Q2) as R2. pose proof (jtext_inj _ _ _ V1 V1' P3 Q3) as R3.
    pose proof (jtext_inj _ _ _ V2 V2' P4 Q4) as R4. pose proof (jnat_inj _ _ _ P5 Q5) as R5.
    assert (R6 : lqL x = lqL y). { apply Hinj; [apply finite_ok, F2, Ix|apply finite_ok, F2', Iy|]. unfold jfloat in P6, Q6. congruence. }
    apply liq_ext; assumption. }
  assert (E9 : nrLocs n = nrLocs n').
  { refine (jlist_inj _ _ _ _ _ A9 B9). intros x y w Ix Iy (ms & -> & Hx) (ms' & Ew & Hy). injection Ew as <-.
    apply jobj_inv in Hx; destruct Hx as (a1 & m1 & -> & P1 & Hx). apply jobj_inv in Hx; destruct Hx as (a2 & m2 & -> & P2 & Hx).
    apply jobj_inv in Hx; destruct Hx as (a3 & m3 & -> & P3 & Hx). apply jobj_inv in Hx; destruct Hx as (a4 & m4 & -> & P4 & _).
    apply jobj_inv in Hy; destruct Hy as (c1 & q1 & Ec & Q1 & Hy). injection Ec as <- <-. apply jobj_inv in Hy; destruct Hy as (c2 & q2 & Ec & Q2 & Hy). injection Ec as <- <-.
    apply jobj_inv in Hy; destruct Hy as (c3 & q3 & Ec & Q3 & Hy). injection Ec as <- <-. apply jobj_inv in Hy; destruct Hy as (c4 & q4 & Ec & Q4 & _). injection Ec as <- <-.
    destruct (F1 x Ix) as (V1 & V2), (F1' y Iy) as (V1' & V2'). unfold jfloat in P1, P2, Q1, Q2.
    assert (R1 : lsLat x = lsLat y) by (apply Hinj; [apply finite_ok, V1|apply finite_ok, V1'|congruence]).
    assert (R2 : lsLng x = lsLng y) by (apply Hinj; [apply finite_ok, V2|apply finite_ok, V2'|congruence]).
    pose proof (jnat_inj _ _ _ P3 Q3) as R3. pose proof (jtext_inj _ _ _ (T1 x Ix) (T1' y Iy) P4 Q4) as R4.
    apply loc_ext; assumption. }
  apply nav_ext; assumption.
Qed.
(** The condition on texts can be met: [demo_ft] is one-to-one on finite values. *)
Lemma app_split_at (a b x y : gostr) : Forall (fun c => digit c = true) a -> Forall (fun c => digit c = true) b ->
  a ++ [101] ++ x = b ++ [101] ++ y -> a = b /\ x = y.
Proof.
  revert b. induction a as [|c a IH]; intros [|d b] Ha Hb H.
  - injection H as H. auto.
  - exfalso. injection H as H _. inversion Hb; subst. discriminate.
  - exfalso. injection H as H _. inversion Ha; subst. discriminate.
  - injection H as <- H. inversion Ha; inversion Hb; subst. destruct (IH b) as [-> ->]; auto.
Qed.
Lemma uint_inj a b : json_uint a = json_uint b -> a = b.
Proof.
  intros H. destruct (numeral_plain _ _ (uint_numeral a)) as (_ & _ & Ha). destruct (numeral_plain _ _ (uint_numeral b)) as (_ & _ & Hb).
  rewrite H in Ha. apply N2Z.inj. congruence.
Qed.
Lemma uint_digits n : Forall (fun c => digit c = true) (json_uint n).
Proof. destruct (numeral_plain _ _ (uint_numeral n)) as (_ & H & _). apply Forall_forall. rewrite forallb_forall in H. exact H. Qed.
Lemma uint_head n : exists c t, json_uint n = c :: t /\ digit c = true.
Proof. destruct (uint_numeral n) as (c & t & H & Hc & _). eauto. Qed.
Lemma int_inj a b : json_int a = json_int b -> a = b.
Proof.
  unfold json_int. intros H. destruct (Z.ltb_spec a 0), (Z.ltb_spec b 0).
  - injection H as H. apply uint_inj in H. lia.
  - exfalso. destruct (uint_head (Z.to_N b)) as (c & t & E & Hc). rewrite E in H. injection H as <- _. discriminate.
  - exfalso. destruct (uint_head (Z.to_N a)) as (c & t & E & Hc). rewrite E in H. injection H as -> _. discriminate.
  - apply uint_inj in H. lia.
Qed.
Example C83_texts_exist : number_texts demo_ft (fun x => JReal (demo_ft x)) /\
  forall x y, finite x -> finite y -> JReal (demo_ft x) = JReal (demo_ft y) -> x = y.
Proof.
  split; [exact demo_numbers|]. intros x y Hx Hy H. injection H as H.
  assert (Z0 : forall s, demo_ft (S754_zero s) = (if s then [45] else []) ++ json_uint 0 ++ [101] ++ json_int 0) by (intros []; reflexivity).
  assert (G : forall s s' m m' e e', (if s : bool then [45] else []) ++ json_uint m ++ [101] ++ json_int e =
     (if s' : bool then [45] else []) ++ json_uint m' ++ [101] ++ json_int e' -> s = s' /\ m = m' /\ e = e').
  { intros s s' m m' e e' Hq.
    assert (Hs : s = s').
    { destruct s, s'; try reflexivity; exfalso; cbn [app] in Hq.
      - destruct (uint_head m') as (c & t & E & Hc). rewrite E in Hq. injection Hq as <- _. discriminate.
      - destruct (uint_head m) as (c & t & E & Hc). rewrite E in Hq. injection Hq as -> _. discriminate. }
    subst s'. split; [reflexivity|]. apply app_inv_head in Hq.
    destruct (app_split_at _ _ _ _ (uint_digits m) (uint_digits m') Hq) as [H1 H2]. apply uint_inj in H1. apply int_inj in H2. auto. }
  destruct x as [s|s| |s m e], y as [s'|s'| |s' m' e']; try discriminate Hx; try discriminate Hy.
  - rewrite !Z0 in H. destruct (G _ _ _ _ _ _ H) as (-> & _). reflexivity.
  - rewrite Z0 in H. destruct (G _ _ _ _ _ _ H) as (_ & H1 & _). discriminate.
  - rewrite Z0 in H. destruct (G _ _ _ _ _ _ H) as (_ & H1 & _). discriminate.
  - destruct (G _ _ _ _ _ _ H) as (-> & H1 & ->). injection H1 as ->. reflexivity.
Qed.

(** ** C84: a storage fails on a record only because its backend does: whatever
    the connector, the backend's answers (also changing over time), the clients
    and the schedule, a Save that does not succeed made a call with the
    record's document which the backend refused. *)
Lemma call_outcome {E : go_env} stores conns sched i k n o :
  In (i, ECall k n o) (g_trace (grun stores sched (ginit conns))) ->
  exists s h, nth_error stores k = Some s /\ o = s (h ++ [n]).
Proof.
  assert (G : forall sched g, (forall i k n o, In (i, ECall k n o) (g_trace g) -> exists s h, nth_error stores k = Some s /\ o = s (h ++ [n])) ->
     forall i k n o, In (i, ECall k n o) (g_trace (grun stores sched g)) -> exists s h, nth_error stores k = Some s /\ o = s (h ++ [n])).
  { clear. induction sched as [|j sched IH]; intros g Hg; [exact Hg|]. cbn [grun fold_left]. apply IH. clear IH sched. intros i k n o. unfold gstep.
    destruct (g_crashed g); [apply Hg|]. destruct (nth_error (g_conns g) j) as [cs|]; [|apply Hg]. destruct (cs_done cs); [apply Hg|].
    destruct (cs_pend cs) as [|[b|m] pend].
    - destruct (conn_step (cs_in cs)); apply Hg.
    - cbn [g_trace]. intros H. apply in_app_or in H. destruct H as [H|[H|[]]]; [apply (Hg _ _ _ _ H)|discriminate].
    - destruct (nth_error stores (cs_at cs)) as [s|] eqn:Hs.
      2:{ cbn [g_trace]. intros H. apply in_app_or in H. destruct H as [H|[H|[]]]; [apply (Hg _ _ _ _ H)|discriminate]. }
      destruct (s (history (cs_at cs) (g_trace g) ++ [m])) eqn:Ho; cbn [g_trace]; intros H; apply in_app_or in H;
        (destruct H as [H|[H|H]]; [apply (Hg _ _ _ _ H)| |]).
      1,3,5: injection H as _ <- <- <-; eauto.
      all: try contradiction. destruct H as [H|[]]; discriminate. }
  apply G. cbn. contradiction.
Qed.
Theorem C84_only_the_backend_fails : forall (E : go_env) ft jf (rdt : list nav_record -> gostr)
    (lib : list nav_record -> lib_call -> bool) cs conns sched i k n o,
  let stores := map (fun c h => snd (connector_save (lib h) c (to_bytes ft (rdt h) (last h (ex_nav 0))))) cs in
  number_texts ft jf -> Forall in_ok conns ->
  In (i, ECall k n o) (g_trace (grun stores sched (ginit conns))) -> o <> SvOk ->
  exists c h b call, nth_error cs k = Some c /\ to_bytes ft (rdt h) n = Some b /\
    publish_call c b = Some call /\ lib h call = false.
Proof.
  intros E ft jf rdt lib cs conns sched i k n o stores Hft Hok Hin Ho.
  destruct (call_outcome _ _ _ _ _ _ _ Hin) as (s & h & Hs & Hv).
  unfold stores in Hs. rewrite nth_error_map in Hs. destruct (nth_error cs k) as [c|] eqn:Hc; [|discriminate]. injection Hs as <-.
  cbv beta in Hv. rewrite last_last in Hv.
  destruct (C80_record_serialises E ft jf (rdt (h ++ [n])) _ _ _ _ _ _ _ Hft Hok Hin) as (b & v & H1 & _).
  rewrite H1 in Hv. unfold connector_save in Hv. destruct (publish_call c b) as [call|] eqn:Hp; [|cbn in Hv; congruence].
  exists c, (h ++ [n]), b, call. split; [reflexivity|]. split; [exact H1|]. split; [exact Hp|].
  destruct (lib (h ++ [n]) call); [cbn in Hv; congruence|reflexivity].
Qed.
Example C84_example : let lib := fun (h : list nav_record) (_ : lib_call) => Nat.ltb 1 (List.length h) in
  let stores := map (fun c h => snd (connector_save (lib h) c (to_bytes demo_ft [] (last h (ex_nav 0))))) [CnNats [110] [116]] in
  let g := grun stores (repeat 0%nat 12) (ginit [mkIn [vec_msg; vec_msg] CEof]) in
  existsb (fun x => match snd x with ECall 0 _ SvErr => true | _ => false end) (g_trace g) &&
  existsb (fun x => match snd x with ECall 0 _ SvOk => true | _ => false end) (g_trace g) = true.
Proof. vm_compute. reflexivity. Qed.
Print Assumptions C80_record_serialises.
Print Assumptions C81_identifier_preserved_refuted.
Print Assumptions C81_identifier_preserved_partial.
Print Assumptions C81_identifier_preserved_iff.
Print Assumptions C82_lists_are_arrays_refuted.
Print Assumptions C82_lists_are_arrays_partial.
Print Assumptions C83_document_identifies_record.
Print Assumptions C84_only_the_backend_fails.
