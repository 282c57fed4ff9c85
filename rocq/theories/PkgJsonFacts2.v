(** * PkgJsonFacts2: equal documents come from equal packages. *)
From Coq Require Import Floats.SpecFloat String List ZArith Lia Bool.
From Verif Require Import GoBase Float64 SubRecords Records Package Storage Json PkgJson
  Spec_Bits Spec_Wf Spec_Rec Spec_Calendar Spec_Json Spec_PkgJson BaseFacts SubFacts CalendarFacts JsonFacts DecFacts DecWf DecWf2
  PkgFacts PkgJsonFacts.
Import ListNotations.
Open Scope N_scope.

(** ** Flags are plain text *)
Lemma flags_valid s : forallb bit_char s = true -> valid_utf8 s.
Proof.
  intros H. apply ascii_valid. apply Forall_forall. intros c Hc. rewrite forallb_forall in H. specialize (H c Hc).
  unfold bit_char in H. apply orb_true_iff in H. rewrite !N.eqb_eq in H. destruct H as [-> | ->]; reflexivity.
Qed.
Lemma bits_valid n s : bits_ok n s = true -> valid_utf8 s.
Proof. intros H. apply flags_valid. exact (bits_ok_forall _ _ H). Qed.
Lemma num_valid k s v : opt_num k s v = true -> valid_utf8 s.
Proof. intros H. exact (bits_valid 1 _ (opt_num_flag _ _ _ H)). Qed.
Lemma optb_valid k s v : opt_bytes k s v = true -> valid_utf8 s.
Proof. intros H. exact (bits_valid 1 _ (opt_bytes_flag _ _ _ H)). Qed.
Lemma fmt_chars w v : forallb bit_char (fmt_b w v) = true.
Proof. unfold fmt_b. apply forallb_forall. intros c H. apply in_map_iff in H. destruct H as (i & <- & _). destruct (N.testbit_nat v i); reflexivity. Qed.
Lemma sub_chars i j s : forallb bit_char s = true -> forallb bit_char (substr i j s) = true.
Proof.
  intros H. rewrite forallb_forall in *. intros c Hc. apply H. unfold substr in Hc.
  rewrite <- (firstn_skipn i s). apply in_or_app. right. rewrite <- (firstn_skipn (j - i) (skipn i s)). apply in_or_app. left. exact Hc.
Qed.
Lemma skip_chars i s : forallb bit_char s = true -> forallb bit_char (skipn i s) = true.
Proof. intros H. rewrite forallb_forall in *. intros c Hc. apply H. rewrite <- (firstn_skipn i s). apply in_or_app. right. exact Hc. Qed.
Lemma low_first_valid v : let f := flags_low_first (fmt_b 8 v) in
  valid_utf8 (o1 f) /\ valid_utf8 (o2 f) /\ valid_utf8 (o3 f) /\ valid_utf8 (o4 f) /\
  valid_utf8 (o5 f) /\ valid_utf8 (o6 f) /\ valid_utf8 (o7 f) /\ valid_utf8 (o8 f).
Proof. cbv zeta. unfold flags_low_first, fbit. cbn [o1 o2 o3 o4 o5 o6 o7 o8]. repeat split; apply flags_valid, sub_chars, fmt_chars. Qed.

(** ** Two readings of one value *)
Fixpoint both (fs gs : list (string * (json -> Prop))) : Prop :=
  match fs, gs with
  | (_, p) :: fs', (_, q) :: gs' => (exists w, p w /\ q w) /\ both fs' gs'
  | _, _ => True
  end.
Lemma jstruct_both fs gs v : jstruct fs v -> jstruct gs v -> both fs gs.
Proof.
  intros (ms & -> & H1) (ms' & Hv & H2). injection Hv as <-. revert gs H2. induction H1 as [|k p w fs ms Hp H1 IH]; intros gs H2; [exact I|].
  inversion H2; subst. cbn [both]. split; [eauto|]. apply IH. assumption.
Qed.
Lemma both_nat a b : (exists w, jnat a w /\ jnat b w) -> a = b.
Proof. unfold jnat. intros (w & -> & H). injection H as H. apply N2Z.inj, H. Qed.
Lemma both_text a b : valid_utf8 a -> valid_utf8 b -> (exists w, jtext a w /\ jtext b w) -> a = b.
Proof. intros Ha Hb (w & (t & -> & Ht) & (t' & Hv & Ht')). injection Hv as <-. rewrite <- (shown_valid _ _ Ha Ht). apply (shown_valid _ _ Hb Ht'). Qed.
Lemma both_bytes a b : (exists w, jbytes a w /\ jbytes b w) -> a = b.
Proof.
  intros (w & H1 & H2). unfold jbytes in *. destruct a as [|x a], b as [|y b]; [reflexivity| | |].
  - subst. destruct H2 as (t & H & _). discriminate.
  - subst. destruct H1 as (t & H & _). discriminate.
  - destruct H1 as (t & -> & H1), H2 as (t' & Hv & H2). injection Hv as <-. congruence.
Qed.
Lemma instant_inj s v w : instant_text s v -> instant_text s w -> v = w.
Proof.
  intros H1 H2. destruct (N.lt_trichotomy v w) as [H|[H|H]]; [|exact H|].
  - pose proof (instant_lt _ _ _ _ H1 H2 H) as L. rewrite text_lt_irrefl in L. discriminate.
  - pose proof (instant_lt _ _ _ _ H2 H1 H) as L. rewrite text_lt_irrefl in L. discriminate.
Qed.
Lemma both_instant a b : (exists w, jinstant a w /\ jinstant b w) -> a = b.
Proof.
  intros (w & (s & n & -> & -> & H1) & (s' & n' & Hv & -> & H2)). injection Hv as <-. rewrite (instant_inj _ _ _ H1 H2). reflexivity.
Qed.
Lemma both_array {A} (p : A -> json -> Prop) l l' v : (forall x y w, In x l -> In y l' -> p x w -> p y w -> x = y) ->
  jarray p l v -> jarray p l' v -> l = l'.
Proof.
  intros H (vs & -> & H1) (vs' & Hv & H2). injection Hv as <-. revert l' H H2.
  induction H1 as [|x w l vs Hx _ IH]; intros l' H H2; inversion H2 as [|y ? l2 ? Hy H3]; subst; [reflexivity|].
  rewrite (H x y w (or_introl eq_refl) (or_introl eq_refl) Hx Hy). f_equal. apply IH; [|exact H3].
  intros. eapply H; [right; eassumption|right; eassumption|eassumption|eassumption].
Qed.

Section Pkg.
Context {E : go_env}.
Variable jf : f64 -> json.
Variable jp : pb_msg -> json -> Prop.
Hypothesis Hjf : forall x y, ok_float x -> ok_float y -> jf x = jf y -> x = y.
Variables M M' : pb_msg -> Prop.
Hypothesis Hjp : forall m n, M m -> M' n -> forall v, jp m v -> jp n v -> m = n.
Hypothesis Hco : forall full v, full = 90 \/ full = 180 -> v < 2 ^ 32 -> ok_float (coord_decode full v).

Lemma both_float x y : ok_float x -> ok_float y -> (exists w, jfloat jf x w /\ jfloat jf y w) -> x = y.
Proof. unfold jfloat. intros Hx Hy (w & -> & H). apply Hjf; assumption. Qed.

Ltac wfs := repeat match goal with
  | H : _ && _ = true |- _ => apply andb_true_iff in H; destruct H
  | H : _ /\ _ |- _ => destruct H
  end.
Ltac valid := first [assumption | eapply num_valid; eassumption | eapply bits_valid; eassumption | eapply optb_valid; eassumption].
Ltac eqs := repeat match goal with
  | H : exists w, jnat _ w /\ jnat _ w |- _ => apply both_nat in H
  | H : exists w, jtext _ w /\ jtext _ w |- _ => apply both_text in H; [|valid|valid]
  | H : exists w, jbytes _ w /\ jbytes _ w |- _ => apply both_bytes in H
  | H : exists w, jinstant _ w /\ jinstant _ w |- _ => apply both_instant in H
  end.

Lemma pos_same e e' v : dec_sr (SRPos e) -> dec_sr (SRPos e') -> pos_sub_doc jf e v -> pos_sub_doc jf e' v -> e = e'.
Proof.
  intros (b & Hb & Hd) (b' & Hb' & Hd') H1 H2. pose proof (jstruct_both _ _ _ H1 H2) as H. clear H1 H2. cbn [both] in H.
  destruct (pos_dec_wf b e Hb Hd) as (W & A & (vt & Ht & Et) & (va & Ha & Ea) & (vo & Ho & Eo)).
  destruct (pos_dec_wf b' e' Hb' Hd') as (W' & A' & (vt' & Ht' & Et') & (va' & Ha' & Ea') & (vo' & Ho' & Eo')).
  assert (F1 : ok_float (Latitude e)) by (rewrite Ea; apply Hco; auto).
  assert (F2 : ok_float (Longitude e)) by (rewrite Eo; apply Hco; auto).
  assert (F1' : ok_float (Latitude e')) by (rewrite Ea'; apply Hco; auto).
  assert (F2' : ok_float (Longitude e')) by (rewrite Eo'; apply Hco; auto).
  clear Et Ea Eo Et' Ea' Eo' Hd Hd'. unfold wf_pos in W, W'.
  cbn [NavigationTime Latitude Longitude ALTE LOHS LAHS MV BB CS FIX VLD DirectionHighestBit AltitudeSign Speed Direction Odometer DigitalInputs Source Altitude pos_alt0] in W, W'.
  wfs. eqs.
  repeat match goal with H : exists w, jfloat _ _ w /\ jfloat _ _ w |- _ => apply both_float in H; [|assumption|assumption] end.
  destruct e, e'. cbn in *. subst. reflexivity.
Qed.
Lemma term_same e e' v : dec_sr (SRTerm e) -> dec_sr (SRTerm e') -> Forall valid_utf8 (sub_texts (SRTerm e)) -> Forall valid_utf8 (sub_texts (SRTerm e')) ->
  term_sub_doc e v -> term_sub_doc e' v -> e = e'.
Proof.
  cbn [dec_sr sub_texts]. intros W W' T T' H1 H2. pose proof (jstruct_both _ _ _ H1 H2) as H. clear H1 H2. cbn [both] in H.
  repeat match goal with H : Forall _ (_ :: _) |- _ => inversion H; clear H; subst end.
  unfold wf_term in *. wfs. eqs. destruct e, e'. cbn in *. subst. reflexivity.
Qed.
Lemma auth_same e e' v : Forall valid_utf8 (sub_texts (SRAuth e)) -> Forall valid_utf8 (sub_texts (SRAuth e')) ->
  auth_sub_doc e v -> auth_sub_doc e' v -> e = e'.
Proof.
  cbn [sub_texts]. intros T T' H1 H2. pose proof (jstruct_both _ _ _ H1 H2) as H. clear H1 H2. cbn [both] in H.
  repeat match goal with H : Forall _ (_ :: _) |- _ => inversion H; clear H; subst end.
  wfs. eqs. destruct e, e'. cbn in *. subst. reflexivity.
Qed.
Lemma disp_same e e' v : Forall valid_utf8 (sub_texts (SRDisp e)) -> Forall valid_utf8 (sub_texts (SRDisp e')) ->
  disp_sub_doc e v -> disp_sub_doc e' v -> e = e'.
Proof.
  cbn [sub_texts]. intros T T' H1 H2. pose proof (jstruct_both _ _ _ H1 H2) as H. clear H1 H2. cbn [both] in H.
  repeat match goal with H : Forall _ (_ :: _) |- _ => inversion H; clear H; subst end.
  wfs. eqs. destruct e, e'. cbn in *. subst. reflexivity.
Qed.
Lemma ext_same e e' v : wf_ext e = true -> wf_ext e' = true -> ext_sub_doc e v -> ext_sub_doc e' v -> e = e'.
Proof.
  intros W W' H1 H2. pose proof (jstruct_both _ _ _ H1 H2) as H. clear H1 H2. cbn [both] in H. unfold wf_ext in *. wfs. eqs.
  destruct e, e'. cbn in *. subst. reflexivity.
Qed.
Lemma state_same e e' v : wf_state e = true -> wf_state e' = true -> state_sub_doc e v -> state_sub_doc e' v -> e = e'.
Proof.
  intros W W' H1 H2. pose proof (jstruct_both _ _ _ H1 H2) as H. clear H1 H2. cbn [both] in H. unfold wf_state in *. wfs. eqs.
  destruct e, e'. cbn in *. subst. reflexivity.
Qed.
Lemma liq_same e e' v : wf_liquid e = true -> wf_liquid e' = true -> liq_sub_doc e v -> liq_sub_doc e' v -> e = e'.
Proof.
  intros W W' H1 H2. pose proof (jstruct_both _ _ _ H1 H2) as H. clear H1 H2. cbn [both] in H. unfold wf_liquid in *. wfs. eqs.
  destruct e, e'. cbn in *. subst. reflexivity.
Qed.
Lemma cntr_same e e' v : cntr_sub_doc e v -> cntr_sub_doc e' v -> e = e'.
Proof. intros H1 H2. pose proof (jstruct_both _ _ _ H1 H2) as H. clear H1 H2. cbn [both] in H. wfs. eqs. destruct e, e'. cbn in *. subst. reflexivity. Qed.
Lemma absan_same e e' v : absan_sub_doc e v -> absan_sub_doc e' v -> e = e'.
Proof. intros H1 H2. pose proof (jstruct_both _ _ _ H1 H2) as H. clear H1 H2. cbn [both] in H. wfs. eqs. destruct e, e'. cbn in *. subst. reflexivity. Qed.
Lemma oct_ext {A} (a b : oct A) : o1 a = o1 b -> o2 a = o2 b -> o3 a = o3 b -> o4 a = o4 b -> o5 a = o5 b -> o6 a = o6 b ->
  o7 a = o7 b -> o8 a = o8 b -> a = b.
Proof. destruct a, b. cbn. intros. f_equal; assumption. Qed.
Lemma counters_same e e' v : dec_counters e -> dec_counters e' -> counters_sub_doc e v -> counters_sub_doc e' v -> e = e'.
Proof.
  intros ((w & _ & W) & _) ((w' & _ & W') & _) H1 H2. pose proof (jstruct_both _ _ _ H1 H2) as H. clear H1 H2. cbn [both] in H.
  pose proof (low_first_valid w) as V. pose proof (low_first_valid w') as V'. cbv zeta in V, V'. rewrite <- W in V. rewrite <- W' in V'.
  clear W W'. wfs. eqs.
  assert (CFE e = CFE e') by (apply oct_ext; assumption). assert (CN e = CN e') by (apply oct_ext; assumption).
  destruct e, e'. cbn in *. subst. reflexivity.
Qed.
Lemma ad_same e e' v : dec_ad e -> dec_ad e' -> ad_sub_doc e v -> ad_sub_doc e' v -> e = e'.
Proof.
  intros ((w & _ & W) & (u & _ & U) & _) ((w' & _ & W') & (u' & _ & U') & _) H1 H2. pose proof (jstruct_both _ _ _ H1 H2) as H. clear H1 H2. cbn [both] in H.
  pose proof (low_first_valid w) as V. pose proof (low_first_valid w') as V'. pose proof (low_first_valid u) as X. pose proof (low_first_valid u') as X'.
  cbv zeta in V, V', X, X'. rewrite <- W in V. rewrite <- W' in V'. rewrite <- U in X. rewrite <- U' in X'. clear W W' U U'.
  wfs. eqs.
  assert (DIOE e = DIOE e') by (apply oct_ext; assumption). assert (ASFE e = ASFE e') by (apply oct_ext; assumption).
  assert (ADIO e = ADIO e') by (apply oct_ext; assumption). assert (ANS e = ANS e') by (apply oct_ext; assumption).
  destruct e, e'. cbn in *. subst. reflexivity.
Qed.
Definition clean (P : pb_msg -> Prop) (d : srdata) : Prop :=
  Forall valid_utf8 (sub_texts d) /\ match d with SRPlus m => P m | _ => True end.
Definition clean_set (P : pb_msg -> Prop) (l : list sdr) : Prop :=
  forall s rd, In s l -> In rd (RD s) -> clean P (SRD rd).
Lemma sub_same t d d' v : dec_sr d -> dec_sr d' -> type_matches t d -> type_matches t d' ->
  clean M d -> clean M' d' -> sub_doc jf jp d v -> sub_doc jf jp d' v -> d = d'.
Proof.
  intros D D' T T' (X & Y) (X' & Y') H1 H2.
  destruct d, d'; try (exfalso; unfold type_matches in T, T'; cbn [type_of] in T, T'; intuition congruence; fail);
    try contradiction; cbn [sub_doc dec_sr] in *;
    try (f_equal; first [eapply pos_same; eassumption | eapply term_same; eassumption | eapply ext_same; eassumption | eapply ad_same; eassumption
      | eapply state_same; eassumption | eapply liq_same; eassumption | eapply cntr_same; eassumption | eapply auth_same; eassumption
      | eapply counters_same; eassumption | eapply absan_same; eassumption | eapply disp_same; eassumption]; fail).
  - pose proof (jstruct_both _ _ _ H1 H2) as H. cbn [both] in H. wfs. eqs. f_equal; assumption.
  - pose proof (jstruct_both _ _ _ H1 H2) as H. cbn [both] in H. wfs. eqs. f_equal; assumption.
  - f_equal. eapply Hjp; eassumption.
Qed.
Lemma rd_same x y v : dec_rd x -> dec_rd y -> clean M (SRD x) -> clean M' (SRD y) ->
  rd_doc jf jp x v -> rd_doc jf jp y v -> x = y.
Proof.
  intros (D & T & _) (D' & T' & _) X X' H1 H2. pose proof (jstruct_both _ _ _ H1 H2) as H. clear H1 H2. cbn [both] in H.
  destruct H as (Ha & Hb & (w & H1 & H2) & _). apply both_nat in Ha, Hb. rewrite <- Ha in T'.
  pose proof (sub_same _ _ _ _ D D' T T' X X' H1 H2) as Hc. clear - Ha Hb Hc. destruct x, y. cbn in *. subst. reflexivity.
Qed.
Lemma sdr_same x y v : dec_sdr x -> dec_sdr y -> (forall rd, In rd (RD x) -> clean M (SRD rd)) -> (forall rd, In rd (RD y) -> clean M' (SRD rd)) ->
  sdr_doc jf jp x v -> sdr_doc jf jp y v -> x = y.
Proof.
  intros D D' X X' H1 H2. pose proof (jstruct_both _ _ _ H1 H2) as H. clear H1 H2. unfold dec_sdr in D, D'. cbn [both] in H.
  assert (Hrd : RD x = RD y).
  { destruct H as (_ & _ & _ & _ & _ & _ & _ & _ & _ & _ & _ & _ & _ & _ & (w & H1 & H2) & _).
    destruct D as (_ & _ & _ & _ & _ & _ & _ & _ & _ & _ & _ & D), D' as (_ & _ & _ & _ & _ & _ & _ & _ & _ & _ & _ & D').
    rewrite Forall_forall in *.
    destruct H1 as [H1|[H1 Hw]], H2 as [H2|[H2 Hw']]; [| | |congruence].
    - eapply both_array; [|exact H1|exact H2]. intros a b u Ia Ib. apply rd_same; [apply D, Ia|apply D', Ib|apply X, Ia|apply X', Ib].
    - destruct H1 as (vs & Hv & _). congruence.
    - destruct H2 as (vs & Hv & _). congruence. }
  clear X X'.
  destruct H as (G1 & G2 & G3 & G4 & G5 & G6 & G7 & G8 & G9 & G10 & G11 & G12 & G13 & G14 & _).
  wfs. eqs. destruct x, y. cbn in *. subst. reflexivity.
Qed.
Lemma sds_same l l' v : Forall dec_sdr l -> Forall dec_sdr l' -> clean_set M l -> clean_set M' l' ->
  jarray (sdr_doc jf jp) l v -> jarray (sdr_doc jf jp) l' v -> l = l'.
Proof.
  intros D D' X X'. rewrite Forall_forall in *. apply both_array. intros a b u Ia Ib. apply sdr_same; [apply D, Ia|apply D', Ib| |].
  - intros rd Hrd. exact (X a rd Ia Hrd).
  - intros rd Hrd. exact (X' b rd Ib Hrd).
Qed.
Definition clean_frame (P : pb_msg -> Prop) (f : frame) : Prop :=
  match f with FSds l => clean_set P l | FResp r => match SDRS r with Some l => clean_set P l | None => True end end.
Lemma frame_same f f' v : dec_frame f -> dec_frame f' -> clean_frame M f -> clean_frame M' f' ->
  frame_doc jf jp f v -> frame_doc jf jp f' v -> f = f'.
Proof.
  intros D D' X X' H1 H2. destruct f as [l|r], f' as [l'|r']; cbn [frame_doc dec_frame clean_frame] in *.
  - f_equal. eapply sds_same; eassumption.
  - destruct H1 as (vs & -> & _), H2 as (ms & Hv & _). discriminate.
  - destruct H2 as (vs & -> & _), H1 as (ms & Hv & _). discriminate.
  - pose proof (jstruct_both _ _ _ H1 H2) as H. cbn [both] in H. destruct H as (Ha & Hb & (w & H3 & H4) & _). apply both_nat in Ha, Hb.
    assert (Hs : SDRS r = SDRS r').
    { destruct D as (_ & _ & D), D' as (_ & _ & D'). unfold jopt in H3, H4.
      destruct (SDRS r) as [l|], (SDRS r') as [l'|]; [|destruct H3 as (vs & Hv & _); congruence|destruct H4 as (vs & Hv & _); congruence|reflexivity].
      f_equal. eapply sds_same; try eassumption; [apply D|apply D']. }
    clear - Ha Hb Hs. destruct r, r'. cbn in *. subst. reflexivity.
Qed.
Lemma set_clean (P : pb_msg -> Prop) l : Forall valid_utf8 (set_texts l) -> (forall m, In m (set_messages l) -> P m) -> clean_set P l.
Proof.
  intros H1 H2 s rd Hs Hrd. split.
  - apply Forall_forall. intros t Ht. rewrite Forall_forall in H1. apply H1. unfold set_texts. apply in_flat_map. exists s. split; [exact Hs|].
    apply in_flat_map. eauto.
  - destruct (SRD rd) eqn:Ed; auto. apply H2. unfold set_messages. apply in_flat_map. exists s. split; [exact Hs|].
    apply in_flat_map. exists rd. split; [exact Hrd|]. rewrite Ed. left. reflexivity.
Qed.
Lemma pkg_clean (P : pb_msg -> Prop) p f : pSFRD p = Some f -> Forall valid_utf8 (texts p) -> (forall m, In m (messages p) -> P m) -> clean_frame P f.
Proof.
  unfold texts, messages. intros ->. destruct f as [l|r]; cbn [clean_frame]; [apply set_clean|]. destruct (SDRS r); [apply set_clean|auto].
Qed.
Definition flags_plain (p : package) : Prop :=
  valid_utf8 (pPRF p) /\ valid_utf8 (pRTE p) /\ valid_utf8 (pENA p) /\ valid_utf8 (pCMP p) /\ valid_utf8 (pPR p).
Lemma final_flags p data f : flags_plain (final_of p data f).
Proof.
  unfold flags_plain, final_of, hdr_of, set_SFRCS, set_SFRD, set_HCS. cbn [pPRF pRTE pENA pCMP pPR]. unfold fbit.
  repeat split; apply flags_valid; first [apply sub_chars, fmt_chars | apply skip_chars, fmt_chars].
Qed.
Lemma pkg_same p p' f f' v : flags_plain p -> flags_plain p' -> pSFRD p = Some f -> pSFRD p' = Some f' -> dec_frame f -> dec_frame f' ->
  clean_frame M f -> clean_frame M' f' -> package_doc jf jp p v -> package_doc jf jp p' v -> p = p'.
Proof.
  intros P P' Hf Hf' D D' X X' H1 H2. pose proof (jstruct_both _ _ _ H1 H2) as H. clear H1 H2. cbn [both] in H.
  rewrite Hf, Hf' in H. cbn [jopt] in H.
  destruct H as (G1 & G2 & G3 & G4 & G5 & G6 & G7 & G8 & G9 & G10 & G11 & G12 & G13 & G14 & G15 & G16 & (w & H3 & H4) & G18 & _).
  pose proof (frame_same f f' w D D' X X' H3 H4) as Heq. unfold flags_plain in P, P'. wfs. eqs.
  assert (pSFRD p = pSFRD p') by congruence. clear Hf Hf' X X'. destruct p, p'. cbn in *. subst. reflexivity.
Qed.
End Pkg.
