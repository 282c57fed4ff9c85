(** * Proofs: the whole document of an EGTS-PLUS message. *)
From Coq Require Import Ascii String List ZArith Bool Lia ZifyBool ZifyN ZifyNat.
From Verif Require Import GoBase Float64 Storage Json PkgJson Proto PlusJson Spec_Json Spec_PkgJson Spec_Proto Spec_PlusJson
  BaseFacts JsonFacts PkgJsonFacts ProtoFacts3 PlusJsonFacts.
Import ListNotations.
Open Scope N_scope.

Definition top_tags : list (string * N) :=
  [("record_number", 1); ("time_stamp", 2); ("record_reason", 3); ("status_flags", 4)]%string ++ sensor_tags.
Lemma top_safe : distinct (map fst top_tags) = true /\ forallb (fun kn => forallb html_safe (ltext (fst kn))) top_tags = true.
Proof. split; vm_compute; reflexivity. Qed.

Lemma slice_names k (l : list (option gostr)) (x : string * option gostr) : In x (slice_member k l) -> fst x = k.
Proof. destruct l; [intros []|intros [<-|[]]; reflexivity]. Qed.
Lemma all_some_none {A} (l : list (option A)) : all_some l = None <-> In None l.
Proof.
  induction l as [|[x|] l IH]; cbn; [split; [discriminate|intros []]| |split; [left; reflexivity|reflexivity]].
  destruct (all_some l); [split; [discriminate|intros [E|H]; [discriminate|apply IH in H; discriminate]]|]. split; [right; apply IH; reflexivity|reflexivity].
Qed.

Lemma slice_none k l : In None l -> In (k, None) (slice_member k l).
Proof. intros H. unfold slice_member. destruct l as [|x l]; [destruct H|]. apply all_some_none in H. rewrite H. left. reflexivity. Qed.

Lemma slice_none_inv k k' l : In (k, None) (slice_member k' l) -> k = k' /\ In None l.
Proof.
  unfold slice_member. destruct l as [|x l]; [intros []|]. destruct (all_some (x :: l)) eqn:Ea; intros [H|[]]; [discriminate|].
  injection H as ->. split; [reflexivity|apply all_some_none, Ea].
Qed.

Section Rec.
Variable ft32 : N -> gostr.
Variable jf32 : N -> json.

Definition top_member (m : storage_record) (kn : string * N) : list (string * option gostr) :=
  if snd kn =? 1 then opt_member (fst kn) (sr_number m)
  else if snd kn =? 2 then opt_member (fst kn) (sr_time m)
  else if snd kn =? 3 then slice_member (fst kn) (map (fun z => Some (json_int z)) (sr_reasons m))
  else if snd kn =? 4 then opt_member (fst kn) (sr_flags m)
  else let i := N.to_nat (snd kn - 7) in
       slice_member (fst kn) (map (json_leaf ft32 (nth i leaf_tags [])) (nth i (sr_sensors m) [])).
Lemma top_flat m : plus_json ft32 m = json_members (flat_map (top_member m) top_tags).
Proof. reflexivity. Qed.
Lemma top_names m : NoDup (map fst (flat_map (top_member m) top_tags)) /\
  Forall (fun kv => forallb html_safe (ltext (fst kv)) = true) (flat_map (top_member m) top_tags).
Proof.
  assert (F : forall kn x, In x (top_member m kn) -> fst x = fst kn).
  { intros kn x. unfold top_member, opt_member. cbv zeta.
    repeat match goal with |- context [if ?c then _ else _] => destruct c end; try (match goal with |- context [match ?o with Some _ => _ | None => _ end] => destruct o end);
      try (intros [<-|[]]; reflexivity); try (intros []); apply slice_names. }
  destruct top_safe as [T1 T2]. split.
  - apply names_sub; [exact F| |apply distinct_nodup, T1]. intros kn. unfold top_member, opt_member, slice_member. cbv zeta.
    repeat match goal with |- context [if ?c then _ else _] => destruct c end;
      try match goal with |- context [match ?o with _ => _ end] => destruct o end; cbn; lia.
  - apply Forall_forall. intros x Hin. apply in_flat_map in Hin. destruct Hin as (kn & Hin & Hx). rewrite (F _ _ Hx).
    rewrite forallb_forall in T2. exact (T2 _ Hin).
Qed.
Definition top_docs (m : storage_record) : list (option (json -> Prop)) :=
  [option_map jnat (sr_number m); option_map jnat (sr_time m); list_doc (fun z v => v = JInt z) (sr_reasons m); option_map jnat (sr_flags m)]
  ++ map (fun sl => list_doc (sensor_doc jf32 (snd (fst sl))) (snd sl)) (combine sensor_names (sr_sensors m)).
Definition top_names_list : list string := ["record_number"; "time_stamp"; "record_reason"; "status_flags"]%string ++ map fst sensor_names.
Lemma top_distinct : distinct top_names_list = true. Proof. vm_compute. reflexivity. Qed.
Lemma plus_doc_combine m : List.length (sr_sensors m) = 18%nat -> plus_doc jf32 m = jmembers (combine top_names_list (map (fun x => x) (top_docs m))).
Proof.
  intros Hl. rewrite map_id. unfold plus_doc, top_names_list, top_docs. f_equal. cbn [app combine]. do 4 f_equal.
  assert (Hl' : List.length sensor_names = List.length (sr_sensors m)) by (rewrite Hl; reflexivity). revert Hl'. generalize sensor_names (sr_sensors m).
  induction l as [|x l IH]; intros [|y l'] H; try discriminate; [reflexivity|]. cbn [combine map fst snd]. rewrite IH by (cbn in H; lia). reflexivity.
Qed.
Lemma top_docs_length m : List.length (sr_sensors m) = 18%nat -> List.length (top_docs m) = List.length top_names_list.
Proof. intros Hl. unfold top_docs, top_names_list. rewrite !app_length, !map_length, combine_length, Hl. reflexivity. Qed.

Hypothesis Hft : forall bits, bits < 2 ^ 32 -> finite32 bits -> read_num (ft32 bits) = Some (jf32 bits, []).

Lemma sensors_of m i x : record_ok m -> In x (nth i (sr_sensors m) []) -> (i < 18)%nat /\ leaf_ok (nth i schemas []) x.
Proof.
  intros (_ & _ & H & _) Hin. assert (Hl := f2_len _ _ _ H). change (List.length schemas) with 18%nat in Hl.
  assert (Hi : (i < 18)%nat). { destruct (Nat.lt_ge_cases i 18) as [|Hge]; [assumption|]. rewrite nth_overflow in Hin by lia. destruct Hin. }
  split; [exact Hi|]. clear Hl Hi. revert i Hin. induction H as [|sch l schs sens Hs H IH]; intros [|i] Hin; cbn [nth] in *; try (destruct Hin; fail).
  - rewrite Forall_forall in Hs. apply Hs, Hin.
  - apply IH, Hin.
Qed.
Lemma sensors_len m : record_ok m -> List.length (sr_sensors m) = 18%nat.
Proof. intros (_ & _ & H & _). exact (f2_len _ _ _ H). Qed.
(** where floats are *)
Lemma floats_at m i x bits : record_ok m -> In x (nth i (sr_sensors m) []) -> In (Some (VFloat bits)) (lf_vals x) -> In bits (fuel_levels m).
Proof.
  intros Hm Hx Hb. destruct (sensors_of m i x Hm Hx) as (Hi & Hok & _). apply In_nth_error in Hb. destruct Hb as (j & Hj).
  destruct (vals_nth _ _ _ _ Hok Hj) as (ty & Hty & Hv). assert (ty = PFloat) by (destruct ty; cbn in Hv; try contradiction; reflexivity). subst ty.
  destruct (float_place i j Hi Hty) as [-> ->]. unfold fuel_levels. apply in_flat_map. exists x. split; [exact Hx|].
  rewrite (nth_error_nth _ _ None Hj). left. reflexivity.
Qed.
Lemma floats_from m bits : In bits (fuel_levels m) -> exists x, In x (nth 1 (sr_sensors m) []) /\ In (Some (VFloat bits)) (lf_vals x).
Proof.
  unfold fuel_levels. rewrite in_flat_map. intros (x & Hx & Hb). exists x. split; [exact Hx|].
  destruct (nth 1 (lf_vals x) None) as [[]|] eqn:Hn; try (destruct Hb; fail). destruct Hb as [->|[]]. rewrite <- Hn. apply nth_In.
  destruct (Nat.lt_ge_cases 1 (List.length (lf_vals x))) as [|Hge]; [assumption|]. rewrite nth_overflow in Hn by exact Hge. discriminate.
Qed.

Lemma list_read {A} (f : A -> option gostr) (p : A -> json -> Prop) l k :
  (forall x, In x l -> exists t, f x = Some t /\ exists v, reads_as t v /\ p x v) -> l <> [] ->
  exists ts, all_some (map f l) = Some ts /\ slice_member k (map f l) = [(k, Some (json_array ts))] /\
    exists q, list_doc p l = Some q /\ exists v, reads_as (json_array ts) v /\ q v.
Proof.
  intros H Hne. destruct (all_some_spec f (fun t x => exists v, reads_as t v /\ p x v) l H) as (ts & E & F). exists ts. split; [exact E|].
  destruct l as [|a l]; [congruence|]. split; [unfold slice_member; rewrite E; reflexivity|]. eexists. split; [reflexivity|].
  destruct (split_reads _ _ _ F) as (vs & F1 & F2). exists (JArr vs). split; [apply reads_array, F1|]. exists vs. split; [reflexivity|exact F2].
Qed.
Lemma leaf_name_len m i x : record_ok m -> In x (nth i (sr_sensors m) []) ->
  tags_match 1 (nth i leaf_tags []) (names_of i) = true /\ List.length (lf_vals x) = List.length (names_of i).
Proof.
  intros Hm Hx. destruct (sensors_of m i x Hm Hx) as (Hi & Hok & _). destruct (table_ok i Hi) as [T1 T2]. split; [exact T1|]. rewrite T2. exact (f2_len _ _ _ Hok).
Qed.
Lemma in_docs_sensor m i k : (i < 18)%nat -> List.length (sr_sensors m) = 18%nat -> nth_error (map fst sensor_names) i = Some k ->
  In (k, list_doc (sensor_doc jf32 (names_of i)) (nth i (sr_sensors m) [])) (combine top_names_list (top_docs m)).
Proof.
  intros Hi Hl Hk. apply nth_error_combine. exists (4 + i)%nat. unfold top_names_list, top_docs. cbn [app Nat.add nth_error]. split; [exact Hk|].
  rewrite nth_error_map. rewrite nth_error_map in Hk. destruct (nth_error sensor_names i) as [[a b]|] eqn:Hs; [|discriminate]. cbn in Hk. injection Hk as ->.
  assert (E : nth_error (combine sensor_names (sr_sensors m)) i = Some ((k, b), nth i (sr_sensors m) [])).
  { revert Hs. assert (Hl' : (i < List.length (sr_sensors m))%nat) by lia. revert Hl'. generalize sensor_names (sr_sensors m) i. clear.
    induction l as [|x l IH]; intros [|y l'] [|i] H Hs; cbn in *; try discriminate; try lia; [injection Hs as ->; reflexivity|]. apply IH; [lia|exact Hs]. }
  rewrite E. cbn [option_map fst snd]. unfold names_of. rewrite (nth_error_nth _ _ _ Hs). reflexivity.
Qed.
Theorem plus_read m : record_ok m -> (forall bits, In bits (fuel_levels m) -> finite32 bits) ->
  exists t v, plus_json ft32 m = Some t /\ reads_as t v /\ plus_doc jf32 m v.
Proof.
  intros Hm Hfin. assert (Hl := sensors_len m Hm). rewrite top_flat, (plus_doc_combine m Hl), map_id. destruct (top_names m) as [N1 N2].
  destruct (match_spec _ _ _ sensor_table_ok) as (M1 & M2 & _).
  assert (Hs : forall i x, In x (nth i (sr_sensors m) []) -> exists t, json_leaf ft32 (nth i leaf_tags []) x = Some t /\ exists v, reads_as t v /\ sensor_doc jf32 (names_of i) x v).
  { intros i x Hx. destruct (sensors_of m i x Hm Hx) as (Hi & Hok & _). destruct (table_ok i Hi) as [T1 T2].
    apply (leaf_read ft32 jf32 Hft (nth i schemas [])); [exact T1|exact T2|exact Hok|]. intros bits Hb. apply Hfin. exact (floats_at m i x bits Hm Hx Hb). }
  apply members_read; [exact N1|exact N2|rewrite combine_fst by (apply top_docs_length, Hl); apply distinct_nodup, top_distinct| |].
  - intros k o Hin. apply in_flat_map in Hin. destruct Hin as (kn & Hin & Ho). unfold top_tags in Hin. apply in_app_or in Hin. destruct Hin as [Hin|Hin].
    + assert (Hcase : forall j q v, (j < 4)%nat -> nth_error top_names_list j = Some k -> nth_error (top_docs m) j = Some (Some q) ->
        (exists t, o = Some t /\ reads_as t v) -> q v -> exists t p, o = Some t /\ In (k, Some p) (combine top_names_list (top_docs m)) /\ exists v, reads_as t v /\ p v).
      { intros j q v _ H1 H2 (t & H3 & H4) H5. exists t, q. split; [exact H3|]. split; [apply nth_error_combine; exists j; auto|eauto]. }
      destruct Hin as [<-|[<-|[<-|[<-|[]]]]]; unfold top_member in Ho; cbn [fst snd N.eqb Pos.eqb] in Ho.
      * destruct (sr_number m) as [n|] eqn:En; [|destruct Ho]. destruct Ho as [E|[]]. injection E as <- <-.
        apply (Hcase 0%nat (jnat n) (JInt (Z.of_N n))); [lia|reflexivity|cbn; rewrite En; reflexivity|eexists; split; [reflexivity|apply reads_uint]|reflexivity].
      * destruct (sr_time m) as [n|] eqn:En; [|destruct Ho]. destruct Ho as [E|[]]. injection E as <- <-.
        apply (Hcase 1%nat (jnat n) (JInt (Z.of_N n))); [lia|reflexivity|cbn; rewrite En; reflexivity|eexists; split; [reflexivity|apply reads_uint]|reflexivity].
      * destruct (sr_reasons m) as [|z zs] eqn:Ez; [destruct Ho|]. rewrite <- Ez in Ho.
        destruct (list_read (fun z => Some (json_int z)) (fun z v => v = JInt z) (sr_reasons m) "record_reason") as (ts & _ & E2 & q & Hq & v & Hv1 & Hv2);
          [intros x _; eexists; split; [reflexivity|]; eexists; split; [apply reads_int|reflexivity]|congruence|].
        rewrite E2 in Ho. destruct Ho as [E|[]]. injection E as <- <-.
        apply (Hcase 2%nat q v); [lia|reflexivity|cbn [top_docs app nth_error]; rewrite Hq; reflexivity|eexists; split; [reflexivity|exact Hv1]|exact Hv2].
      * destruct (sr_flags m) as [n|] eqn:En; [|destruct Ho]. destruct Ho as [E|[]]. injection E as <- <-.
        apply (Hcase 3%nat (jnat n) (JInt (Z.of_N n))); [lia|reflexivity|cbn; rewrite En; reflexivity|eexists; split; [reflexivity|apply reads_uint]|reflexivity].
    + destruct kn as [k' n]. assert (Hk := M1 _ _ Hin).
      assert (G : forallb (fun kn => 7 <=? snd kn) sensor_tags = true) by (vm_compute; reflexivity). rewrite forallb_forall in G. specialize (G _ Hin). cbn [snd] in G.
      unfold top_member in Ho. cbn [fst snd] in Ho.
      destruct (N.eqb_spec n 1); [lia|]. destruct (N.eqb_spec n 2); [lia|]. destruct (N.eqb_spec n 3); [lia|]. destruct (N.eqb_spec n 4); [lia|].
      set (i := N.to_nat (n - 7)) in *. cbv zeta in Ho.
      assert (Hi : (i < 18)%nat) by (change 18%nat with (List.length (map fst sensor_names)); apply nth_error_Some; congruence).
      pose proof (in_docs_sensor m i k' Hi Hl Hk) as Hd. specialize (Hs i).
      destruct (nth i (sr_sensors m) []) as [|x xs] eqn:Ex; [destruct Ho|]. rewrite <- Ex in *.
      destruct (list_read (json_leaf ft32 (nth i leaf_tags [])) (sensor_doc jf32 (names_of i)) (nth i (sr_sensors m) []) k') as (ts & _ & E2 & q & Hq & v & Hv1 & Hv2);
        [exact Hs|congruence|]. rewrite E2 in Ho. destruct Ho as [E|[]]. injection E as <- <-.
      exists (json_array ts), q. split; [reflexivity|]. split; [rewrite <- Hq; exact Hd|eauto].
  - intros k p Hin. apply in_map_iff.
    assert (Hgoal : forall kn t, In kn top_tags -> In (k, t) (top_member m kn) -> exists x, fst x = k /\ In x (flat_map (top_member m) top_tags)).
    { intros kn t H1 H2. exists (k, t). split; [reflexivity|]. apply in_flat_map. eauto. }
    apply nth_error_combine in Hin. destruct Hin as (j & Hj & Hp).
    destruct j as [|[|[|[|i]]]]; unfold top_names_list, top_docs in Hj, Hp; cbn [app nth_error] in Hj, Hp; try injection Hj as <-; try injection Hp as Hp.
    + destruct (sr_number m) as [n|] eqn:En; [|discriminate]. apply (Hgoal ("record_number"%string, 1) (Some (json_uint n))); [left; reflexivity|].
      unfold top_member. cbn [fst snd N.eqb Pos.eqb]. rewrite En. left. reflexivity.
    + destruct (sr_time m) as [n|] eqn:En; [|discriminate]. apply (Hgoal ("time_stamp"%string, 2) (Some (json_uint n))); [right; left; reflexivity|].
      unfold top_member. cbn [fst snd N.eqb Pos.eqb]. rewrite En. left. reflexivity.
    + destruct (sr_reasons m) as [|z zs] eqn:En; [discriminate|]. eapply (Hgoal ("record_reason"%string, 3)); [right; right; left; reflexivity|].
      unfold top_member. cbn [fst snd N.eqb Pos.eqb]. rewrite En. left. reflexivity.
    + destruct (sr_flags m) as [n|] eqn:En; [|discriminate]. apply (Hgoal ("status_flags"%string, 4) (Some (json_uint n))); [right; right; right; left; reflexivity|].
      unfold top_member. cbn [fst snd N.eqb Pos.eqb]. rewrite En. left. reflexivity.
    + destruct (M2 _ _ Hj) as (n & Hin & Hn).
      assert (G : forallb (fun kn => 7 <=? snd kn) sensor_tags = true) by (vm_compute; reflexivity). rewrite forallb_forall in G. specialize (G _ Hin). cbn [snd] in G.
      rewrite nth_error_map in Hp. destruct (nth_error (combine sensor_names (sr_sensors m)) i) as [[ab l]|] eqn:Hc; [|discriminate]. cbn [option_map fst snd] in Hp. injection Hp as Hp.
      assert (El : nth i (sr_sensors m) [] = l).
      { revert Hc. generalize sensor_names (sr_sensors m) i. clear. induction l0 as [|a l0 IH]; intros [|b l1] [|i] H; cbn in *; try discriminate; [congruence|apply (IH _ _ H)]. }
      destruct l as [|x xs]; [discriminate|]. eapply (Hgoal (k, n)); [apply in_or_app; right; exact Hin|]. unfold top_member. cbn [fst snd].
      destruct (N.eqb_spec n 1); [lia|]. destruct (N.eqb_spec n 2); [lia|]. destruct (N.eqb_spec n 3); [lia|]. destruct (N.eqb_spec n 4); [lia|].
      cbv zeta. rewrite Hn, El. left. reflexivity.
Qed.
Theorem plus_none m : record_ok m -> (plus_json ft32 m = None <-> exists bits, In bits (fuel_levels m) /\ ~ finite32 bits).
Proof.
  intros Hm. destruct (match_spec _ _ _ sensor_table_ok) as (M1 & M2 & _). split.
  - intros H.
    assert (D : (forall bits, In bits (fuel_levels m) -> finite32 bits) \/ exists bits, In bits (fuel_levels m) /\ ~ finite32 bits).
    { generalize (fuel_levels m). clear. induction l as [|b l [IH|(c & H1 & H2)]]; [left; intros b []| |right; exists c; split; [right; exact H1|exact H2]].
      destruct (b / 8388608 mod 256 =? 255) eqn:E; [right; exists b; split; [left; reflexivity|rewrite finite32_eq; congruence]|left].
      intros c [<-|Hc]; [apply finite32_eq, E|apply IH, Hc]. }
    destruct D as [D|D]; [|exact D]. destruct (plus_read m Hm D) as (t & v & Ht & _). congruence.
  - intros (bits & Hin & Hb). destruct (floats_from m bits Hin) as (x & Hx & Hf). rewrite top_flat. apply members_none.
    exists "sens_fuel_level"%string. apply in_flat_map. exists ("sens_fuel_level"%string, 8). split.
    + apply in_or_app. right. cbn. tauto.
    + change (In ("sens_fuel_level"%string, None) (slice_member "sens_fuel_level" (map (json_leaf ft32 (nth 1 leaf_tags [])) (nth 1 (sr_sensors m) [])))).
      destruct (leaf_name_len m 1 x Hm Hx) as [T L]. apply slice_none.
      rewrite <- (proj2 (leaf_none ft32 jf32 Hft _ (names_of 1) x T L)) by eauto. apply in_map, Hx.
Qed.
End Rec.
