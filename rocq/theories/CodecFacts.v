(** * CodecFacts: exact domains of the round trips, lengths, truncation. *)
From Coq Require Import Lia ZifyBool ZifyNat ZifyN.
From Verif Require Import GoBase Spec_Bits BaseFacts Float64 SubRecords Records Spec_Wf Spec_Rec SubFacts
  RecFacts DecFacts.

Section CodecFacts.
Context {E : go_env}.

Lemma bind_ok2 {A B} (x : res A) (f : A -> res B) b :
  bind x f = Ok b -> exists a, x = Ok a /\ f a = Ok b.
Proof. apply bind_ok. Qed.

(** ** C23: mirrored analogue flags *)
Definition mirror {A} (o : oct A) : oct A := mkOct (o8 o) (o7 o) (o6 o) (o5 o) (o4 o) (o3 o) (o2 o) (o1 o).

Lemma ad_flags_on_wire e b e' : full_ad e = true -> ad_encode e = Ok b -> ad_decode b = Ok e' ->
  ASFE e' = mirror (ASFE e) /\ DIOE e' = DIOE e /\ DOUT e' = DOUT e.
Proof.
  unfold full_ad. rewrite !andb_true_iff. intros [[Hd Ho] Ha] He Hdec.
  apply all8_split in Hd. destruct Hd as (H1 & H2 & H3 & H4 & H5 & H6 & H7 & H8).
  apply all8_split in Ha. destruct Ha as (A1 & A2 & A3 & A4 & A5 & A6 & A7 & A8).
  unfold ad_encode in He.
  destruct (flags_high_first (DIOE e)) as (v & Hp & _ & Hf); try (eapply opt_num_flag; eassumption).
  destruct (flags_high_first (mirror (ASFE e))) as (v2 & Hp2 & _ & Hf2); try (eapply opt_num_flag; eassumption).
  change (concat_high_first (mirror (ASFE e))) with (concat_low_first (ASFE e)) in Hp2.
  rewrite Hp, Hp2 in He. cbn [bind] in He. apply Ok_inj in He. subst b.
  unfold ad_decode in Hdec. cbn [app read_byte bind] in Hdec. rewrite Hf, Hf2 in Hdec.
  repeat (apply bind_ok in Hdec; destruct Hdec as ([? ?] & _ & Hdec)).
  repeat (apply bind_ok in Hdec; destruct Hdec as ([[? ?] ?] & _ & Hdec)).
  repeat match type of Hdec with
  | bind _ _ = Ok _ => apply bind_ok in Hdec; destruct Hdec as ([? ?] & _ & Hdec)
  | (let (_, _) := ?x in _) = Ok _ => destruct x
  end.
  apply Ok_inj in Hdec. subst e'. repeat split; reflexivity.
Qed.

Lemma mirror_palindrome (f : oct gostr) : mirror f = f -> flags_palindrome f = true.
Proof.
  intros H. destruct f as [a b c d e f g h]. unfold mirror in H. cbn in H. injection H as -> -> -> -> _ _ _ _.
  unfold flags_palindrome. cbn [o1 o2 o3 o4 o5 o6 o7 o8].
  rewrite !andb_true_iff, !str_eqb_spec. repeat split; reflexivity.
Qed.

Lemma ad_roundtrip_iff e : full_ad e = true ->
  ((exists b, ad_encode e = Ok b /\ ad_decode b = Ok e) <-> flags_palindrome (ASFE e) = true).
Proof.
  intros Hf. split.
  - intros (b & He & Hd). destruct (ad_flags_on_wire _ _ _ Hf He Hd) as (Hm & _).
    apply mirror_palindrome. symmetry. exact Hm.
  - intros Hp. apply ad_roundtrip. unfold wf_ad. rewrite Hf, Hp. reflexivity.
Qed.

(** ** C24 *)
Lemma counters_roundtrip_iff e : full_counters e = true ->
  ((exists b, counters_encode e = Ok b /\ counters_decode b = Ok e) <->
   (o2 (CFE e) = s0 \/ (o1 (CN e) = 0 /\ o2 (CN e) = 0))).
Proof.
  intros Hf. destruct (counters_decode_encode e Hf) as (b & He & Hd).
  pose proof Hf as Hf'. unfold full_counters in Hf'. apply all8_split in Hf'.
  destruct Hf' as (H1 & H2 & _).
  assert (Hb : bits_ok 1 (o2 (CFE e)) = true) by (eapply opt_num_flag; exact H2).
  unfold opt_num in H2. rewrite Hb in H2. cbn [andb] in H2.
  split.
  - intros (b' & He' & Hd'). rewrite He in He'. apply Ok_inj in He'. subst b'.
    rewrite Hd in Hd'. apply Ok_inj in Hd'.
    destruct (bits_ok_1 _ Hb) as [Hz|Hz]; [left; exact Hz|right].
    apply (f_equal CN) in Hd'. unfold counters_seen in Hd'. cbn [CN] in Hd'.
    rewrite Hz in Hd'. change (is1 s1) with true in Hd'. cbn [CFE] in Hd'.
    pose proof (f_equal o1 Hd') as E1. pose proof (f_equal o2 Hd') as E2. cbn [o1 o2] in E1, E2. split; congruence.
  - intros H. exists b. split; [exact He|]. rewrite Hd. f_equal.
    destruct e as [f c]. unfold counters_seen. cbn [CFE CN] in *. f_equal.
    destruct c as [c1 c2 c3 c4 c5 c6 c7 c8]. cbn [o1 o2 o3 o4 o5 o6 o7 o8] in *.
    destruct H as [Hz|[-> ->]].
    + rewrite Hz in *. change (is1 s0) with false in *. cbn iota in *. f_equal. lia.
    + destruct (is1 (o2 f)); reflexivity.
Qed.

(** ** C30: values above 24 bits *)
Lemma le_enc_mod k v : le_enc k v = le_enc k (v mod 256 ^ N.of_nat k).
Proof.
  revert v. induction k as [|k IH]; intros v; [reflexivity|].
  cbn [le_enc]. f_equal.
  - rewrite Nat2N.inj_succ, N.pow_succ_r'. rewrite N.mod_mul_r by (try apply N.pow_nonzero; lia).
    rewrite N.mul_comm, N.mod_add by lia. rewrite N.mod_mod by lia. reflexivity.
  - rewrite (IH (v / 256)). f_equal.
    rewrite Nat2N.inj_succ, N.pow_succ_r'. rewrite N.mod_mul_r by (try apply N.pow_nonzero; lia).
    rewrite (N.add_comm (v mod 256)), N.mul_comm, N.div_add_l by lia.
    rewrite (N.div_small (v mod 256)) by (apply N.mod_lt; lia). rewrite N.add_0_r. reflexivity.
Qed.

Lemma abs_cntr_any e : byte_ok (CounterNumber e) = true ->
  exists b, abs_cntr_encode e = Ok b /\
    abs_cntr_decode b = Ok {| CounterNumber := CounterNumber e; CounterValue := CounterValue e mod 2 ^ 24 |}.
Proof.
  intros H. unfold abs_cntr_encode. eexists. split; [reflexivity|].
  rewrite le_enc_mod. unfold abs_cntr_decode. cbn [app read_byte bind].
  change (256 ^ N.of_nat 3) with (2 ^ 24).
  pose proof (read_le_enc 2 (zeros 3) (CounterValue e mod 2 ^ 24) [] eq_refl) as R.
  rewrite app_nil_r in R. rewrite R.
  - reflexivity.
  - change (256 ^ N.of_nat 3) with (2 ^ 24). apply N.mod_lt. discriminate.
Qed.
Lemma abs_an_any e : byte_ok (SensorNumber e) = true ->
  exists b, abs_an_encode e = Ok b /\
    abs_an_decode b = Ok {| SensorNumber := SensorNumber e; Value := Value e mod 2 ^ 24 |}.
Proof.
  intros H. exists (u8 (SensorNumber e) :: le_enc 3 (Value e)). split; [apply abs_an_bytes|].
  rewrite le_enc_mod. change (256 ^ N.of_nat 3) with (2 ^ 24).
  unfold byte_ok in H. replace (u8 (SensorNumber e)) with (SensorNumber e).
  - apply abs_an_decode_bytes; [lia|]. apply N.mod_lt. discriminate.
  - unfold u8. symmetry. apply N.mod_small. lia.
Qed.

(** ** C29: sensor numbers of 8 and more *)
Lemma liquid_num_refuted : exists e b e', bits_ok 1 (LLSEF e) = true /\ bits_ok 2 (LLSVU e) = true /\
  bits_ok 1 (RDF e) = true /\ LLSN e = 9 /\
  liquid_encode e = Ok b /\ liquid_decode b = Ok e' /\ LLSN e' = 1 /\ LLSEF e = s0 /\ LLSEF e' = s1.
Proof.
  exists {| LLSEF := s0; LLSVU := [ch1; ch0]; RDF := s0; LLSN := 9; MADDR := 1; LLSD := 5 |}.
  do 2 eexists. repeat (split; [vm_compute; reflexivity|]). vm_compute. reflexivity.
Qed.

(** ** C32 *)
Lemma sr_length_spec d :
  (exists b, sr_encode d = Ok b /\ sr_length d = Ok (blen b mod 65536)) \/
  (sr_encode d = Err /\ sr_length d = Ok 0) \/ sr_encode d = Panic \/ sr_encode d = Fuel.
Proof.
  unfold sr_length.
  assert (L : (exists b, sr_encode d = Ok b /\ length_of (sr_encode d) = Ok (blen b mod 65536)) \/
    (sr_encode d = Err /\ length_of (sr_encode d) = Ok 0) \/ sr_encode d = Panic \/ sr_encode d = Fuel).
  { destruct (sr_encode d) as [b| | |]; cbn [length_of]; [left; exists b; split; reflexivity|auto|auto|auto]. }
  destruct d; exact L.
Qed.
Lemma sr_encode_total d : d <> SRNil -> sr_encode d <> Panic /\ sr_encode d <> Fuel.
Proof.
  intros Hn. assert (R : returns (sr_encode d)).
  { destruct d; cbn [sr_encode]; try exact I; try contradiction;
      unfold pos_encode, ext_encode, ad_encode, state_encode, liquid_encode, counters_encode, plus_encode;
      repeat (apply returns_bind; [apply returns_parse8|intros]); try exact I.
    destruct (pb_marshal m); exact I. }
  destruct (sr_encode d); cbn in R; try contradiction; split; discriminate.
Qed.
Lemma length_of_spec r :
  (exists b, r = Ok b /\ length_of r = Ok (blen b mod 65536)) \/
  (r = Err /\ length_of r = Ok 0) \/ r = Panic \/ r = Fuel.
Proof. destruct r as [b| | |]; cbn [length_of]; [left; exists b; split; reflexivity|auto|auto|auto]. Qed.

(** ** C37 *)
Lemma infer_ok d : (match d with SRDisp _ | SRNil => False | _ => True end) -> infer_type d = Ok (type_of d).
Proof. destruct d; cbn; intros H; try reflexivity; contradiction. Qed.
Lemma rd_infer rd : SRT rd = 0 -> (match SRD rd with SRDisp _ | SRNil => False | _ => True end) ->
  rd_encode rd = rd_encode {| SRT := type_of (SRD rd); SRL := SRL rd; SRD := SRD rd |}.
Proof.
  intros H0 Hd. unfold rd_encode. cbn [SRT SRL SRD]. rewrite H0. cbn [N.eqb].
  rewrite infer_ok by exact Hd. cbn [bind].
  destruct (type_of (SRD rd) =? 0); reflexivity.
Qed.


(** ** C17 *)
Lemma srresp_roundtrip crn rst : crn < 2 ^ 16 -> rst < 256 ->
  exists b, srresp_encode crn rst = Ok b /\ srresp_decode b = Ok (SRResp crn rst) /\ length b = 3%nat.
Proof.
  intros H1 H2. eexists. split; [reflexivity|]. split; [|reflexivity].
  unfold srresp_decode, response_decode.
  rewrite (buffer_read_full (zeros 2)) by (try discriminate; rewrite length_zeros, length_le_enc; reflexivity).
  cbn [bind read_byte]. change (sds_decode []) with (@Ok (list sdr) []). cbn [bind].
  rewrite le_dec_enc_id by exact H1. reflexivity.
Qed.
Lemma result_roundtrip c : exists b, result_encode c = Ok b /\ result_decode b = Ok c /\ length b = 1%nat.
Proof. exists [c]. repeat split. Qed.

(** ** C23, C24: values that come back changed *)
Definition all_o {A} (x : A) : oct A := mkOct x x x x x x x x.
Lemma ad_refuted : exists e b e', full_ad e = true /\ ad_encode e = Ok b /\ ad_decode b = Ok e' /\
  o1 (ANS e) = 7 /\ o1 (ASFE e) = s1 /\ o8 (ASFE e) = s0 /\
  o1 (ASFE e') = s0 /\ o8 (ASFE e') = s1 /\ o8 (ANS e') = 7.
Proof.
  exists {| DIOE := all_o s0; DOUT := 0; ASFE := mkOct s1 s0 s0 s0 s0 s0 s0 s0; ADIO := all_o 0;
            ANS := mkOct 7 0 0 0 0 0 0 0 |}.
  do 2 eexists. do 3 (split; [vm_compute; reflexivity|]). repeat (split; [reflexivity|]). reflexivity.
Qed.
Lemma counters_refuted : exists e b e', full_counters e = true /\ counters_encode e = Ok b /\ counters_decode b = Ok e' /\
  o1 (CN e) = 5 /\ o2 (CN e) = 7 /\ o1 (CN e') = 7 /\ o2 (CN e') = 0.
Proof.
  exists {| CFE := mkOct s1 s1 s0 s0 s0 s0 s0 s0; CN := mkOct 5 7 0 0 0 0 0 0 |}.
  do 2 eexists. do 3 (split; [vm_compute; reflexivity|]). repeat (split; [reflexivity|]). reflexivity.
Qed.

(** ** C32 for lists *)
Definition nf {A} (r : res A) : Prop := r <> Fuel.
Lemma nf_bind {A B} (x : res A) (f : A -> res B) : nf x -> (forall a, nf (f a)) -> nf (bind x f).
Proof. unfold nf. destruct x; cbn; intros; try discriminate; auto. Qed.
Lemma sr_encode_nf d : nf (sr_encode d).
Proof.
  destruct d; try (apply sr_encode_total; discriminate). cbn. discriminate.
Qed.
Lemma sr_length_nf d : nf (sr_length d).
Proof.
  unfold sr_length. pose proof (sr_encode_nf d) as H. unfold nf in *.
  destruct d; try discriminate; destruct (sr_encode _); cbn; congruence.
Qed.
Lemma rd_encode_nf rd : nf (rd_encode rd).
Proof.
  unfold rd_encode. apply nf_bind.
  - destruct (SRT rd =? 0); [|discriminate]. destruct (SRD rd); cbn; discriminate.
  - intros t. apply nf_bind; [destruct (SRL rd =? 0); [apply sr_length_nf|discriminate]|].
    intros len. apply nf_bind; [apply sr_encode_nf|]. intros; discriminate.
Qed.
Lemma rds_encode_nf l : nf (rds_encode l).
Proof.
  induction l as [|rd l IH]; [discriminate|]. cbn [rds_encode]. apply nf_bind; [apply rd_encode_nf|].
  intros b. apply nf_bind; [exact IH|]. intros; discriminate.
Qed.
Lemma parse8_nf s : nf (parse8 s).
Proof. unfold parse8. destruct (parse_uint 255 s) as [v []]; discriminate. Qed.
Lemma sdr_encode_nf s : nf (sdr_encode s).
Proof.
  unfold sdr_encode. apply nf_bind; [apply rds_encode_nf|]. intros b. cbv zeta.
  apply nf_bind; [apply parse8_nf|]. intros; discriminate.
Qed.
Lemma sds_encode_nf l : nf (sds_encode l).
Proof.
  induction l as [|s l IH]; [discriminate|]. cbn [sds_encode]. apply nf_bind; [apply sdr_encode_nf|].
  intros b. apply nf_bind; [exact IH|]. intros; discriminate.
Qed.
Lemma length_of_matches r : nf r -> length_matches r (length_of r).
Proof. destruct r; cbn; intros H; try reflexivity. apply H. reflexivity. Qed.
Lemma lengths_match :
  (forall d, length_matches (sr_encode d) (sr_length d)) /\
  (forall l, length_matches (rds_encode l) (rds_length l)) /\
  (forall l, length_matches (sds_encode l) (sds_length l)) /\
  (forall p, length_matches (ptr_encode p) (ptr_length p)).
Proof.
  split; [|split; [|split]].
  - intros d. pose proof (length_of_matches _ (sr_encode_nf d)) as H. unfold sr_length. destruct d; exact H.
  - intros l. apply length_of_matches, rds_encode_nf.
  - intros l. apply length_of_matches, sds_encode_nf.
  - intros p. apply length_of_matches. unfold ptr_encode. apply nf_bind; [|intros; discriminate].
    destruct (SDRS p); [apply sds_encode_nf|discriminate].
Qed.
Definition np {A} (r : res A) : Prop := r <> Panic.
Lemma np_bind {A B} (x : res A) (f : A -> res B) : np x -> (forall a, np (f a)) -> np (bind x f).
Proof. unfold np. destruct x; cbn; intros; try discriminate; auto. Qed.
Lemma rds_encode_np l : Forall no_nil_rd l -> np (rds_encode l).
Proof.
  induction 1 as [|rd l H Hl IH]; [discriminate|]. cbn [rds_encode].
  assert (Hs : np (sr_encode (SRD rd))) by (apply sr_encode_total; exact H).
  apply np_bind; [|intros b; apply np_bind; [exact IH|intros; discriminate]].
  unfold rd_encode. apply np_bind.
  - destruct (SRT rd =? 0); [|discriminate]. destruct (SRD rd); cbn; discriminate.
  - intros t. apply np_bind.
    + destruct (SRL rd =? 0); [|discriminate]. unfold sr_length, np in *.
      destruct (SRD rd); try discriminate; destruct (sr_encode _); cbn; congruence.
    + intros len. apply np_bind; [exact Hs|]. intros; discriminate.
Qed.
Lemma sds_encode_np l : Forall no_nil_sdr l -> np (sds_encode l).
Proof.
  induction 1 as [|s l H Hl IH]; [discriminate|]. cbn [sds_encode].
  apply np_bind; [|intros b; apply np_bind; [exact IH|intros; discriminate]].
  unfold sdr_encode. apply np_bind; [apply rds_encode_np; exact H|]. intros b. cbv zeta.
  apply np_bind; [|intros; discriminate]. unfold np, parse8. destruct (parse_uint 255 _) as [v []]; discriminate.
Qed.
Lemma encode_no_panic :
  (forall d, d <> SRNil -> sr_encode d <> Panic) /\
  (forall l, Forall no_nil_rd l -> rds_encode l <> Panic) /\
  (forall l, Forall no_nil_sdr l -> sds_encode l <> Panic).
Proof.
  split; [intros d H; apply sr_encode_total; exact H|]. split; [exact rds_encode_np|exact sds_encode_np].
Qed.

Lemma infer_refuted : exists e, wf_disp e = true /\
  (exists b, sr_encode (SRDisp e) = Ok b) /\ rd_encode {| SRT := 0; SRL := 0; SRD := SRDisp e |} = Err /\
  exists b, rd_encode {| SRT := 5; SRL := 0; SRD := SRDisp e |} = Ok b.
Proof. exists {| DT := 0; DID := 71; DSCR := [] |}. split; [reflexivity|]. split; [eexists; reflexivity|]. split; [reflexivity|eexists; reflexivity]. Qed.

Lemma state_types e : wf_state e = true ->
  exists b, state_encode e = Ok b /\
    sub_decode 1 21 5 b = Ok (SRState e) /\ sub_decode 1 20 5 b = Ok (SRState e) /\
    forall len, len <> 5 -> sub_decode 1 20 len b = Err.
Proof.
  intros H. destruct (state_roundtrip e H) as (b & H1 & H2 & _). exists b. split; [exact H1|].
  assert (R : rmap SRState (state_decode b) = Ok (SRState e)) by (rewrite H2; reflexivity).
  split; [exact R|]. split; [exact R|]. intros len Hl. cbn [sub_decode].
  change (20 =? 20) with true. apply N.eqb_neq in Hl. cbn -[N.eqb]. rewrite Hl. reflexivity.
Qed.
End CodecFacts.
