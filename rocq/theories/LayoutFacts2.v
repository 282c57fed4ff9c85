(** * LayoutFacts2: the encoders write each field where Spec_Layout says. *)
From Coq Require Import Lia.
From Verif Require Import GoBase Float64 SubRecords Records Package Spec_Bits Spec_Wf Spec_Rec Spec_Pkg Spec_Layout
  BaseFacts SubFacts RecFacts DecFacts PkgFacts EncOk LayoutFacts.

Lemma num_at_mid pre x suf w off : off = length pre -> length x = w ->
  num_at (pre ++ x ++ suf) off w = le_dec x.
Proof.
  intros -> Hx. rewrite num_at_le by (rewrite !app_length; lia).
  rewrite skipn_app, skipn_all, Nat.sub_diag. cbn [app skipn]. rewrite firstn_exact by exact Hx. reflexivity.
Qed.
Lemma str_at_mid pre x suf w off : off = length pre -> length x = w -> str_at (pre ++ x ++ suf) off w = x.
Proof.
  intros -> Hx. unfold str_at. rewrite skipn_app, skipn_all, Nat.sub_diag. cbn [app skipn].
  rewrite firstn_exact by exact Hx. reflexivity.
Qed.

(** The bytes of a field, and when it is in range. *)
Definition field_bytes (f : field) : bytes :=
  match f with Num flag w v => opt_w flag (le_enc w v) | Str flag w s => opt_w flag s end.
Definition field_ok (f : field) : Prop :=
  match f with
  | Num flag w v => opt_num w flag v = true
  | Str flag w s => opt_bytes w flag s = true
  end.

Lemma field_bytes_len f : field_ok f -> length (field_bytes f) = field_size f.
Proof.
  destruct f as [fl w v|fl w s]; cbn [field_ok field_bytes field_size]; unfold opt_w; intros H; destruct (is1 fl) eqn:E1; try reflexivity.
  - apply length_le_enc.
  - unfold opt_bytes in H. rewrite E1 in H. apply andb_prop in H. destruct H as [_ H]. apply Nat.eqb_eq in H. exact H.
Qed.
Lemma field_at_enc f pre suf off : off = length pre -> field_ok f -> field_at (pre ++ field_bytes f ++ suf) off f.
Proof.
  intros -> H. pose proof (field_bytes_len f H) as HL.
  destruct f as [fl w v|fl w s]; cbn [field_ok field_bytes field_at field_size] in *; unfold opt_w in *; destruct (is1 fl) eqn:E1.
  - rewrite (num_at_mid pre (le_enc w v) suf w) by (reflexivity || apply length_le_enc).
    unfold opt_num in H. rewrite E1 in H. apply andb_prop in H. destruct H as [_ H]. apply N.ltb_lt in H.
    symmetry. apply le_dec_enc_id. exact H.
  - unfold opt_num in H. rewrite E1 in H. apply andb_prop in H. destruct H as [_ H]. apply N.eqb_eq in H. exact H.
  - rewrite (str_at_mid pre s suf w) by (reflexivity || exact HL). reflexivity.
  - unfold opt_bytes in H. rewrite E1 in H. apply andb_prop in H. destruct H as [_ H]. apply Nat.eqb_eq in H.
    destruct s; [reflexivity|discriminate].
Qed.
Lemma fields_from_enc l : forall pre suf off, off = length pre -> Forall field_ok l ->
  fields_from (pre ++ concat (map field_bytes l) ++ suf) off l.
Proof.
  induction l as [|f l IH]; intros pre suf off -> HF; cbn [map concat fields_from].
  - rewrite app_length. lia.
  - inversion HF as [|? ? H1 H2]; subst. rewrite <- app_assoc. split.
    + apply field_at_enc; [reflexivity|exact H1].
    + rewrite (app_assoc pre). apply IH; [|exact H2]. rewrite app_length, field_bytes_len by exact H1. reflexivity.
Qed.
(** the form used below: [b] given as header and fields *)
Lemma fields_of_enc b pre l suf off : b = pre ++ concat (map field_bytes l) ++ suf -> off = length pre -> Forall field_ok l ->
  fields_from b off l.
Proof. intros -> H1 H2. apply fields_from_enc; assumption. Qed.

Section LayoutFacts2.
Context {E : go_env}.

Ltac andb H := repeat match type of H with andb _ _ = true => apply andb_prop in H; let H' := fresh H in destruct H as [H H'] end.
Ltac fl Hv := match goal with
  | H : fbit ?i (fmt_b 8 ?v) = ?a |- ?a = bit_str (N.testbit ?v ?k) =>
      rewrite <- H; exact (fbit_bit i v Hv ltac:(cbn; lia)) end.

Lemma ext_encode_layout e b : wf_ext e = true -> ext_encode e = Ok b -> ext_layout b e.
Proof.
  intros Hw He. unfold wf_ext in Hw. andb Hw. unfold ext_encode in He.
  change [ch0; ch0; ch0] with (s0 ++ s0 ++ s0) in He. rewrite <- !app_assoc in He.
  destruct (bits_app8 s0 s0 s0 (NSFE e) (SFE e) (PFE e) (HFE e) (VFE e)) as (v & Hp & Hv & _ & _ & _ & G3 & G4 & G5 & G6 & G7);
    try reflexivity; try (eapply opt_num_flag; eassumption).
  rewrite Hp in He. cbn [bind] in He. apply Ok_inj in He.
  unfold ext_layout. split; [subst b; discriminate|].
  assert (Hn : nth 0 b 0 = v) by (subst b; reflexivity). unfold flag_at. rewrite Hn.
  split; [fl Hv|]. split; [fl Hv|]. split; [fl Hv|]. split; [fl Hv|]. split; [fl Hv|].
  eapply (fields_of_enc b [v] _ []); [|reflexivity|].
  - rewrite app_nil_r. subst b. cbn [map concat field_bytes app le_enc]. rewrite app_nil_r.
    assert (Hs : opt_w (SFE e) [SAT e mod 256] = opt_w (SFE e) [SAT e]).
    { match goal with H : opt_num 1 (SFE e) (SAT e) = true |- _ => apply opt_num1_byte in H; apply byte_ok_lt in H; rewrite N.mod_small by exact H end. reflexivity. }
    rewrite Hs. reflexivity.
  - repeat constructor; assumption.
Qed.

Lemma state_encode_layout e b : wf_state e = true -> state_encode e = Ok b -> state_layout b e.
Proof.
  intros Hw He. unfold wf_state in Hw. andb Hw. unfold state_encode in He.
  change [ch0; ch0; ch0; ch0; ch0] with (s0 ++ s0 ++ s0 ++ s0 ++ s0) in He. rewrite <- !app_assoc in He.
  destruct (bits_app8 s0 s0 s0 s0 s0 (NMS e) (IBU e) (BBU e)) as (v & Hp & Hv & _ & _ & _ & _ & _ & G5 & G6 & G7);
    try reflexivity; try assumption.
  rewrite Hp in He. cbn [bind] in He. apply Ok_inj in He. subst b. unfold state_layout, flag_at. cbn [app nth length].
  split; [lia|]. do 4 (split; [reflexivity|]). split; [fl Hv|]. split; [fl Hv|]. fl Hv.
Qed.

Lemma le_num k v pre suf off : off = length pre -> v < 256 ^ N.of_nat k -> num_at (pre ++ le_enc k v ++ suf) off k = v.
Proof. intros H1 H2. rewrite num_at_mid by (exact H1 || apply length_le_enc). apply le_dec_enc_id. exact H2. Qed.

Lemma liquid_encode_layout e b : wf_liquid e = true -> liquid_encode e = Ok b -> liquid_layout b e.
Proof.
  intros Hw He. pose proof (liquid_roundtrip e Hw) as (b' & He' & Hd & HL).
  assert (b' = b) by congruence. subst b'. unfold wf_liquid in Hw. andb Hw.
  unfold liquid_encode in He. destruct (parse8 _) as [v| | |] eqn:Hp; try discriminate. cbn [bind] in He. apply Ok_inj in He.
  pose proof (parse8_bound _ _ Hp) as Hv. apply byte_ok_lt in Hv.
  assert (Hn : nth 0 b 0 = v) by (subst b; reflexivity).
  unfold liquid_decode in Hd. subst b. cbn [app read_byte bind] in Hd.
  destruct (liq_flags v Hv) as [P1 P2]. rewrite P1, P2 in Hd. cbn [bind] in Hd.
  rewrite (read_le_enc 1) in Hd by (try reflexivity; assumption || (apply N.ltb_lt; assumption)). cbn [bind] in Hd.
  rewrite <- (app_nil_r (le_enc 4 (LLSD e))) in Hd.
  rewrite (read_le_enc 3) in Hd by (try reflexivity; assumption || (apply N.ltb_lt; assumption)). cbn [bind] in Hd.
  apply Ok_inj in Hd. unfold liquid_layout, flag_at. rewrite Hn.
  assert (B1 : bit_str (N.testbit v 6) = fbit 1 (fmt_b 8 v)) by (symmetry; exact (fbit_bit 1 v Hv ltac:(lia))).
  assert (B4 : bit_str (N.testbit v 3) = fbit 4 (fmt_b 8 v)) by (symmetry; exact (fbit_bit 4 v Hv ltac:(lia))).
  rewrite B1, B4.
  split; [cbn [app] in *; lia|].
  split; [apply (f_equal LLSEF) in Hd; symmetry; exact Hd|].
  split; [apply (f_equal LLSVU) in Hd; symmetry; exact Hd|].
  split; [apply (f_equal RDF) in Hd; symmetry; exact Hd|].
  split; [apply (f_equal LLSN) in Hd; symmetry; exact Hd|].
  split; symmetry.
  - apply (le_num 2 (MADDR e) [v]); [reflexivity|apply N.ltb_lt; assumption].
  - rewrite app_assoc. rewrite <- (app_nil_r (le_enc 4 (LLSD e))). apply (le_num 4 (LLSD e)); [reflexivity|apply N.ltb_lt; assumption].
Qed.

Lemma abs_cntr_encode_layout e b : wf_abs_cntr e = true -> abs_cntr_encode e = Ok b -> abs_cntr_layout b e.
Proof.
  intros Hw He. unfold wf_abs_cntr in Hw. andb Hw. apply N.ltb_lt in Hw0. unfold abs_cntr_encode in He. apply Ok_inj in He. subst b.
  unfold abs_cntr_layout. split; [cbn; lia|]. split; [reflexivity|]. symmetry.
  rewrite <- (app_nil_r (le_enc 3 (CounterValue e))). apply (le_num 3 _ [CounterNumber e]); [reflexivity|exact Hw0].
Qed.
Lemma abs_an_encode_layout e b : wf_abs_an e = true -> abs_an_encode e = Ok b -> abs_an_layout b e.
Proof.
  intros Hw He. unfold wf_abs_an in Hw. andb Hw. apply N.ltb_lt in Hw0. apply byte_ok_lt in Hw. rewrite abs_an_bytes in He. apply Ok_inj in He. subst b.
  unfold abs_an_layout. split; [cbn; lia|]. split; [cbn [nth]; unfold u8; rewrite N.mod_small by exact Hw; reflexivity|]. symmetry.
  rewrite <- (app_nil_r (le_enc 3 (Value e))). apply (le_num 3 _ [u8 (SensorNumber e)]); [reflexivity|exact Hw0].
Qed.
Lemma disp_encode_layout e b : wf_disp e = true -> disp_encode e = Ok b -> disp_layout b e.
Proof.
  intros Hw He. unfold wf_disp in Hw. andb Hw. unfold disp_encode in He. apply Ok_inj in He. subst b.
  unfold disp_layout. split; [cbn; lia|]. split; [reflexivity|]. split; [|reflexivity]. symmetry.
  apply (le_num 4 _ [DT e]); [reflexivity|apply N.ltb_lt; assumption].
Qed.
Lemma auth_encode_layout e b : wf_auth e = true -> auth_encode e = Ok b -> auth_layout b e.
Proof.
  intros Hw He. unfold wf_auth in Hw. andb Hw. unfold auth_encode in He. apply Ok_inj in He. subst b.
  unfold auth_layout. split; [assumption|]. split; [assumption|]. split; [assumption|].
  destruct (SSQ e) as [|x s]; [left; split; [rewrite app_nil_r; reflexivity|reflexivity]|].
  right. exists []. rewrite app_nil_r. reflexivity.
Qed.

Lemma opt_pad k fl s : opt_bytes k fl s = true -> opt_w fl (pad_to k s) = opt_w fl s.
Proof. apply pad_exact. Qed.

Lemma term_encode_layout e b : wf_term e = true -> term_encode e = Ok b -> term_layout b e.
Proof.
  intros Hw He. unfold wf_term in Hw. andb Hw. unfold term_encode in He.
  destruct (bits_app8 (MNE e) (BSE e) (NIDE e) (SSRA e) (LNGCE e) (IMSIE e) (IMEIE e) (HDIDE e))
    as (v & Hp & Hv & G0 & G1 & G2 & G3 & G4 & G5 & G6 & G7);
    try assumption; try (eapply opt_num_flag; eassumption); try (eapply opt_bytes_flag; eassumption).
  rewrite (parse8_uint _ _ Hp) in He. apply Ok_inj in He.
  rewrite !opt_pad in He by assumption.
  assert (Hn : nth 4 b 0 = v) by (subst b; reflexivity).
  unfold term_layout, flag_at. rewrite Hn.
  split; [subst b; rewrite !app_length, length_le_enc; cbn [length]; lia|].
  split. { subst b. symmetry. apply (le_num 4 _ []); [reflexivity|apply N.ltb_lt; assumption]. }
  do 8 (split; [fl Hv|]).
  eapply (fields_of_enc b (le_enc 4 (TID e) ++ [v]) _ []); [|reflexivity|].
  - rewrite app_nil_r. subst b. cbn [map concat field_bytes]. rewrite app_nil_r, <- app_assoc. reflexivity.
  - repeat constructor; assumption.
Qed.

Lemma flags8_enc fs v b off : v < 256 -> nth off b 0 = v -> flags_low_first (fmt_b 8 v) = fs -> fs = flags8_at b off.
Proof.
  intros Hv Hn <-. unfold flags_low_first, flags8_at, flag_at. rewrite Hn.
  rewrite !(fbit_bit _ v Hv) by lia. reflexivity.
Qed.

Lemma write_opt3_fields f v : write_opt3 f v = concat (map field_bytes (fields8 3 f v)).
Proof. unfold write_opt3, fields8. cbn [map concat field_bytes]. rewrite app_nil_r. reflexivity. Qed.

Lemma fields8_ok w f v : all8 (opt_num w) f v = true -> Forall field_ok (fields8 w f v).
Proof. intros H. apply all8_split in H. destruct H as (H1 & H2 & H3 & H4 & H5 & H6 & H7 & H8). repeat constructor; assumption. Qed.

Lemma counters_encode_layout e b : full_counters e = true -> counters_encode e = Ok b -> counters_layout b e.
Proof.
  intros Hw He. unfold counters_encode in He. pose proof (all8_split _ _ _ Hw) as (A1 & A2 & A3 & A4 & A5 & A6 & A7 & A8).
  destruct (flags_high_first (CFE e)) as (v & Hp & Hv & Hf); try (eapply opt_num_flag; eassumption).
  rewrite Hp in He. cbn [bind] in He. apply Ok_inj in He. unfold counters_layout.
  split; [subst b; discriminate|]. split; [apply (flags8_enc _ v); [exact Hv|subst b; reflexivity|exact Hf]|].
  eapply (fields_of_enc b [v] _ []); [|reflexivity|apply fields8_ok; exact Hw].
  rewrite app_nil_r. subst b. rewrite write_opt3_fields. reflexivity.
Qed.

Lemma opt_w_byte f x : opt_num 1 f x = true -> opt_w f [x] = opt_w f (le_enc 1 x).
Proof. intros H. apply opt_num1_byte in H. apply byte_ok_lt in H. cbn [le_enc]. rewrite N.mod_small by exact H. reflexivity. Qed.

Lemma ad_encode_layout e b : wf_ad e = true -> ad_encode e = Ok b -> ad_layout b e.
Proof.
  intros Hw He. unfold wf_ad in Hw. apply andb_prop in Hw. destruct Hw as [Hw Hpal].
  unfold full_ad in Hw. apply andb_prop in Hw. destruct Hw as [Hw HA]. apply andb_prop in Hw. destruct Hw as [HD Ho].
  pose proof (all8_split _ _ _ HD) as (D1 & D2 & D3 & D4 & D5 & D6 & D7 & D8).
  pose proof (all8_split _ _ _ HA) as (A1 & A2 & A3 & A4 & A5 & A6 & A7 & A8).
  unfold ad_encode in He. rewrite (palindrome_concat _ Hpal) in He.
  destruct (flags_high_first (DIOE e)) as (v & Hp & Hv & Hf); try (eapply opt_num_flag; eassumption).
  destruct (flags_high_first (ASFE e)) as (v2 & Hp2 & Hv2 & Hf2); try (eapply opt_num_flag; eassumption).
  rewrite Hp in He. cbn [bind] in He. rewrite Hp2 in He. cbn [bind] in He. apply Ok_inj in He. unfold ad_layout.
  split; [subst b; rewrite !app_length; cbn [length]; lia|].
  split; [apply (flags8_enc _ v); [exact Hv|subst b; reflexivity|exact Hf]|].
  split; [subst b; reflexivity|].
  split; [apply (flags8_enc _ v2); [exact Hv2|subst b; reflexivity|exact Hf2]|].
  eapply (fields_of_enc b [v; DOUT e; v2] _ []); [|reflexivity|].
  - rewrite app_nil_r. subst b. rewrite write_opt3_fields, map_app, concat_app. unfold fields8 at 2.
    cbn [map concat field_bytes]. rewrite <- !(opt_w_byte) by assumption. rewrite app_nil_r, <- !app_assoc. reflexivity.
  - apply Forall_app. split; apply fields8_ok; assumption.
Qed.
End LayoutFacts2.
