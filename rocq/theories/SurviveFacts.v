(** * SurviveFacts: which subrecords come back as given. *)
From Verif Require Import GoBase Crc Float64 SubRecords Records Package.
From Verif Require Import Spec_Bits Spec_Wf Spec_Rec Spec_Pkg Spec_Flags BaseFacts SubFacts RecFacts DecFacts DecWf DecWf2 CodecFacts.
From Coq Require Import Lia ZifyBool ZifyN ZifyNat.

Section SurviveFacts.
Context {E : go_env}.

Lemma bits1_cases s : bits_ok 1 s = true -> s = s0 \/ s = s1.
Proof.
  unfold bits_ok. intros H. apply andb_prop in H. destruct H as [H1 H2].
  destruct s as [|c [|c' s]]; try discriminate. cbn [forallb] in H2. unfold bit_char in H2.
  apply andb_prop in H2. destruct H2 as [H2 _]. unfold s0, s1.
  apply orb_prop in H2. destruct H2 as [H2|H2]; apply N.eqb_eq in H2; subst; auto.
Qed.

(** Counters *)
Definition first_zero (e : counters) : counters :=
  {| CFE := CFE e; CN := mkOct (if is1 (o1 (CFE e)) then o1 (CN e) else 0) 0 (o3 (CN e)) (o4 (CN e)) (o5 (CN e)) (o6 (CN e)) (o7 (CN e)) (o8 (CN e)) |}.
Lemma low_bits v : byte_ok v = true -> forall f, f = flags_low_first (fmt_b 8 v) ->
  bits_ok 1 (o1 f) = true /\ bits_ok 1 (o2 f) = true.
Proof. intros Hv f ->. pose proof (flags_low_ok v Hv). tauto. Qed.

Lemma counters_survive e b : counters_encode e = Ok b -> bytes_ok b = true -> counters_decode b = Ok e ->
  full_counters e = true /\ (o2 (CFE e) = s0 \/ (o1 (CN e) = 0 /\ o2 (CN e) = 0)).
Proof.
  intros He Hb Hd. pose proof (counters_dec_wf b e Hb Hd) as ((v & Hv & Hf) & H1 & H1' & H2 & Hr).
  destruct (low_bits v Hv _ Hf) as [B1 B2].
  assert (Hfull : full_counters (first_zero e) = true).
  { unfold full_counters, all8, first_zero. cbn [CFE CN o1 o2 o3 o4 o5 o6 o7 o8].
    destruct Hr as (R3 & R4 & R5 & R6 & R7 & R8). rewrite R3, R4, R5, R6, R7, R8.
    unfold opt_num. rewrite B1, B2. cbn [andb]. destruct (is1 (o1 (CFE e))), (is1 (o2 (CFE e))); cbn [andb];
    rewrite ?andb_true_r; try reflexivity; apply N.ltb_lt; exact H1. }
  assert (Henc : counters_encode (first_zero e) = Ok b).
  { rewrite <- He. unfold counters_encode, first_zero. cbn [CFE CN].
    assert (Hw : write_opt3 (CFE e) (mkOct (if is1 (o1 (CFE e)) then o1 (CN e) else 0) 0 (o3 (CN e)) (o4 (CN e)) (o5 (CN e)) (o6 (CN e)) (o7 (CN e)) (o8 (CN e))) = write_opt3 (CFE e) (CN e)).
    { unfold write_opt3. cbn [o1 o2 o3 o4 o5 o6 o7 o8]. rewrite H2. unfold opt_w. destruct (is1 (o1 (CFE e))); reflexivity. }
    rewrite Hw. reflexivity. }
  destruct (counters_decode_encode _ Hfull) as (b' & Hb' & Hd').
  assert (b' = b) by congruence. subst b'. assert (e = counters_seen (first_zero e)) as Heq by congruence.
  assert (Hz : is1 (o1 (CFE e)) = false -> o1 (CN e) = 0).
  { intros Hi. rewrite Heq. unfold counters_seen, first_zero. cbn [CN CFE o1 o2]. rewrite Hi. destruct (is1 (o2 (CFE e))); reflexivity. }
  assert (Hfe : full_counters e = true).
  { unfold full_counters, all8 in *. unfold first_zero in Hfull. cbn [CFE CN o1 o2 o3 o4 o5 o6 o7 o8] in Hfull.
    destruct (is1 (o1 (CFE e))) eqn:Hi; rewrite ?Hz, ?H2 by reflexivity; exact Hfull. }
  split; [exact Hfe|]. apply counters_roundtrip_iff; [exact Hfe|]. exists b. auto.
Qed.

(** Position *)
Definition alt24 (e : pos_data) : pos_data :=
  {| NavigationTime := NavigationTime e; Latitude := Latitude e; Longitude := Longitude e;
     ALTE := ALTE e; LOHS := LOHS e; LAHS := LAHS e; MV := MV e; BB := BB e; CS := CS e;
     FIX := FIX e; VLD := VLD e; DirectionHighestBit := DirectionHighestBit e;
     AltitudeSign := AltitudeSign e; Speed := Speed e; Direction := Direction e;
     Odometer := Odometer e; DigitalInputs := DigitalInputs e; Source := Source e;
     Altitude := Altitude e mod 2 ^ 24 |}.

Lemma le_enc3_mod v : le_enc 3 (v mod 2 ^ 24) = le_enc 3 v.
Proof.
  pose proof (le_enc_dec (le_enc 3 v) (le_enc_ok 3 v)) as H. rewrite length_le_enc, le_dec_enc in H. exact H.
Qed.

Lemma pos_survive e b : pos_encode e = Ok b -> bytes_ok b = true -> pos_decode b = Ok e ->
  wf_pos e = true /\ quant_pos e = e.
Proof.
  intros He Hb Hd. destruct (pos_dec_wf b e Hb Hd) as (Hw & Ho & _).
  assert (Hw' : wf_pos (alt24 e) = true).
  { unfold wf_pos, pos_alt0, alt24 in *.
    cbn [NavigationTime Latitude Longitude ALTE LOHS LAHS MV BB CS FIX VLD DirectionHighestBit AltitudeSign Speed
      Direction Odometer DigitalInputs Source Altitude] in *.
    apply andb_prop in Hw. destruct Hw as [Hw Ha]. rewrite Hw. cbn [andb]. unfold opt_num in *.
    apply andb_prop in Ho. destruct Ho as [Hbit Ho]. rewrite Hbit. cbn [andb]. destruct (is1 (ALTE e)).
    - apply N.ltb_lt. apply N.mod_upper_bound. discriminate.
    - apply N.eqb_eq in Ho. rewrite Ho. reflexivity. }
  assert (Henc : pos_encode (alt24 e) = Ok b).
  { rewrite <- He. unfold pos_encode, pos_speed_word, alt24.
    cbn [NavigationTime Latitude Longitude ALTE LOHS LAHS MV BB CS FIX VLD DirectionHighestBit AltitudeSign Speed
      Direction Odometer DigitalInputs Source Altitude]. rewrite le_enc3_mod. reflexivity. }
  destruct (pos_roundtrip _ Hw') as (b' & Hb' & Hd' & _). assert (b' = b) by congruence. subst b'.
  assert (Heq : e = quant_pos (alt24 e)) by congruence.
  assert (Ha : alt24 e = e).
  { apply (f_equal Altitude) in Heq. cbn [quant_pos alt24 Altitude] in Heq.
    unfold alt24. rewrite <- Heq. destruct e; reflexivity. }
  rewrite Ha in *. auto.
Qed.

Lemma ad_survive e b : ad_encode e = Ok b -> bytes_ok b = true -> ad_decode b = Ok e -> wf_ad e = true.
Proof.
  intros He Hb Hd. pose proof (ad_dec_wf b e Hb Hd) as (_ & _ & Hf). unfold wf_ad. rewrite Hf. cbn [andb].
  apply ad_roundtrip_iff; [exact Hf|]. exists b. auto.
Qed.

Lemma survives_iff d b dep len : sr_encode d = Ok b -> bytes_ok b = true ->
  (sub_decode (S dep) (type_of d) len b = Ok d <-> survives d).
Proof.
  intros He Hb. split.
  - intros H. destruct (sub_decode_wf _ _ _ _ _ Hb H) as [Hw _].
    destruct d; cbn [dec_sr survives wf_sr] in *; try exact Hw; cbn [sr_encode] in He.
    + apply (pos_survive e b He Hb). change (rmap SRPos (pos_decode b) = Ok (SRPos e)) in H.
      apply rmap_ok in H. destruct H as (a & H & Ha). injection Ha as ->. exact H.
    + apply (ad_survive e b He Hb). change (rmap SRAd (ad_decode b) = Ok (SRAd e)) in H.
      apply rmap_ok in H. destruct H as (a & H & Ha). injection Ha as ->. exact H.
    + apply (counters_survive e b He Hb). change (rmap SRCounters (counters_decode b) = Ok (SRCounters e)) in H.
      apply rmap_ok in H. destruct H as (a & H & Ha). injection Ha as ->. exact H.
    + change (rmap SRPlus (plus_decode b) = Ok (SRPlus m)) in H.
      apply rmap_ok in H. destruct H as (a & H & Ha). injection Ha as ->. unfold plus_decode in H. unfold plus_encode in He.
      destruct (pb_marshal a) as [b'|] eqn:Hm; [|discriminate]. injection He as ->. exists b. split; [reflexivity|].
      destruct (pb_unmarshal b); [|discriminate]. injection H as ->. reflexivity.
  - intros Hs. assert (Hc : (exists e, d = SRCounters e) \/ (exists m, d = SRPlus m) \/ wf_sr d /\ quant_sr d = d).
    { destruct d; cbn [survives] in Hs; eauto; right; right; (split; [|try reflexivity]).
      all: cbn [wf_sr quant_sr] in *; try tauto. f_equal. tauto. }
    destruct Hc as [[e ->]|[[m ->]|[Hw Hq]]].
    + cbn [survives sr_encode] in *. destruct Hs as [Hf Hs]. apply (counters_roundtrip_iff e Hf) in Hs.
      destruct Hs as (b' & Hb' & Hd). assert (b' = b) by congruence. subst b'.
      change (rmap SRCounters (counters_decode b) = Ok (SRCounters e)). rewrite Hd. reflexivity.
    + cbn [survives sr_encode] in *. destruct Hs as (b' & Hm & Hu). unfold plus_encode in He. rewrite Hm in He. injection He as ->.
      change (rmap SRPlus (plus_decode b) = Ok (SRPlus m)). unfold plus_decode. rewrite Hu. reflexivity.
    + rewrite (sr_roundtrip d dep b Hw He (type_of d) len (or_introl eq_refl)), Hq. reflexivity.
Qed.

End SurviveFacts.
