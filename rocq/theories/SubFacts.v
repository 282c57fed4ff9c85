(** * SubFacts: round trips of the subrecord codecs. *)
From Coq Require Import Lia ZifyBool ZifyNat ZifyN.
From Verif Require Import GoBase Spec_Bits BaseFacts Float64 SubRecords Records Spec_Wf.

Section SubFacts.
Context {E : go_env}.

(** ** Stepping lemmas for the readers *)
Lemma read_le_enc k tmp v r :
  length tmp = S k -> v < 256 ^ N.of_nat (S k) ->
  read_le tmp (le_enc (S k) v ++ r) = Ok (v, le_enc (S k) v, r).
Proof.
  intros Ht Hv. unfold read_le. rewrite reader_read_full.
  - cbn [bind]. rewrite le_dec_enc_id by exact Hv. reflexivity.
  - rewrite length_le_enc. congruence.
  - discriminate.
Qed.

Lemma opt_le_enc k flag cur tmp v r :
  length tmp = S k -> opt_num (S k) flag v = true ->
  exists tmp', length tmp' = S k /\
  opt_le flag cur tmp (opt_w flag (le_enc (S k) v) ++ r) =
    Ok (if is1 flag then v else cur, tmp', r).
Proof.
  intros Ht Ho. unfold opt_num in Ho. apply andb_true_iff in Ho. destruct Ho as [_ Ho].
  unfold opt_le, opt_w. destruct (is1 flag).
  - exists (le_enc (S k) v). split; [apply length_le_enc|].
    apply read_le_enc; [exact Ht|lia].
  - exists tmp. split; [exact Ht|]. reflexivity.
Qed.

(** With a zero default, the value read is the value written. *)
Lemma opt_le_enc0 k flag tmp v r :
  length tmp = S k -> opt_num (S k) flag v = true ->
  exists tmp', length tmp' = S k /\
  opt_le flag 0 tmp (opt_w flag (le_enc (S k) v) ++ r) = Ok (v, tmp', r).
Proof.
  intros Ht Ho. destruct (opt_le_enc k flag 0 tmp v r Ht Ho) as (tmp' & Hl & He).
  exists tmp'. split; [exact Hl|]. rewrite He.
  unfold opt_num in Ho. apply andb_true_iff in Ho. destruct Ho as [_ Ho].
  destruct (is1 flag); [reflexivity|]. apply N.eqb_eq in Ho. subst; reflexivity.
Qed.

Lemma opt_byte_enc flag v r :
  opt_num 1 flag v = true -> opt_byte flag 0 (opt_w flag [v] ++ r) = Ok (v, r).
Proof.
  intros Ho. unfold opt_num in Ho. apply andb_true_iff in Ho. destruct Ho as [_ Ho].
  unfold opt_byte, opt_w. destruct (is1 flag); [reflexivity|].
  apply N.eqb_eq in Ho. subst. reflexivity.
Qed.

Lemma opt_fresh_enc flag k s r :
  opt_bytes (S k) flag s = true ->
  opt_fresh flag [] (S k) (opt_w flag s ++ r) = Ok (s, r).
Proof.
  intros Ho. unfold opt_bytes in Ho. rewrite !andb_true_iff in Ho. destruct Ho as [[_ Hb] Hl].
  apply Nat.eqb_eq in Hl. unfold opt_fresh, opt_w. destruct (is1 flag).
  - apply reader_read_full; [rewrite length_zeros; exact Hl|].
    destruct s; [discriminate Hl|discriminate].
  - destruct s; [reflexivity|discriminate Hl].
Qed.

Lemma opt_num_flag k flag v : opt_num k flag v = true -> bits_ok 1 flag = true.
Proof. unfold opt_num. rewrite andb_true_iff. tauto. Qed.
Lemma opt_bytes_flag k flag v : opt_bytes k flag v = true -> bits_ok 1 flag = true.
Proof. unfold opt_bytes. rewrite !andb_true_iff. tauto. Qed.

Lemma bits_app8 a b c d e f g h :
  bits_ok 1 a = true -> bits_ok 1 b = true -> bits_ok 1 c = true -> bits_ok 1 d = true ->
  bits_ok 1 e = true -> bits_ok 1 f = true -> bits_ok 1 g = true -> bits_ok 1 h = true ->
  exists v, parse8 (a ++ b ++ c ++ d ++ e ++ f ++ g ++ h) = Ok v /\ v < 256 /\
    fbit 0 (fmt_b 8 v) = a /\ fbit 1 (fmt_b 8 v) = b /\ fbit 2 (fmt_b 8 v) = c /\
    fbit 3 (fmt_b 8 v) = d /\ fbit 4 (fmt_b 8 v) = e /\ fbit 5 (fmt_b 8 v) = f /\
    fbit 6 (fmt_b 8 v) = g /\ fbit 7 (fmt_b 8 v) = h.
Proof.
  intros Ha Hb Hc Hd He Hf Hg Hh.
  assert (bits_ok 8 (a ++ b ++ c ++ d ++ e ++ f ++ g ++ h) = true) as H8.
  { repeat (apply (bits_ok_app 1); [assumption|]). assumption. }
  destruct (parse8_bits _ H8) as (v & Hp & Hv & Hs). exists v. split; [exact Hp|]. split; [exact Hv|].
  rewrite Hs.
  apply bits1_char in Ha, Hb, Hc, Hd, He, Hf, Hg, Hh.
  destruct Ha as (? & -> & _), Hb as (? & -> & _), Hc as (? & -> & _), Hd as (? & -> & _),
    He as (? & -> & _), Hf as (? & -> & _), Hg as (? & -> & _), Hh as (? & -> & _).
  repeat split.
Qed.

(** ** EGTS_SR_EXT_POS_DATA *)
Lemma ext_roundtrip e : wf_ext e = true ->
  exists b, ext_encode e = Ok b /\ ext_decode b = Ok e.
Proof.
  unfold wf_ext. rewrite !andb_true_iff. intros [[[[Hv Hh] Hp] Hs] Hn].
  unfold ext_encode.
  destruct (bits_app8 [ch0] [ch0] [ch0] (NSFE e) (SFE e) (PFE e) (HFE e) (VFE e))
    as (v & Hpar & _ & _ & _ & _ & F3 & F4 & F5 & F6 & F7);
    try reflexivity; try (eapply opt_num_flag; eassumption).
  cbn [app] in Hpar. cbn [app]. rewrite Hpar. cbn [bind]. eexists. split; [reflexivity|].
  unfold ext_decode. cbn [read_byte bind]. rewrite F3, F4, F5, F6, F7.
  destruct (opt_le_enc0 1 (VFE e) (zeros 2) (VDOP e) (opt_w (HFE e) (le_enc 2 (HDOP e))
      ++ opt_w (PFE e) (le_enc 2 (PDOP e)) ++ opt_w (SFE e) [SAT e]
      ++ opt_w (NSFE e) (le_enc 2 (NS e))) eq_refl Hv) as (t1 & L1 & E1).
  rewrite E1. cbn [bind].
  destruct (opt_le_enc0 1 (HFE e) t1 (HDOP e) (opt_w (PFE e) (le_enc 2 (PDOP e)) ++ opt_w (SFE e) [SAT e]
      ++ opt_w (NSFE e) (le_enc 2 (NS e))) L1 Hh) as (t2 & L2 & E2).
  rewrite E2. cbn [bind].
  destruct (opt_le_enc0 1 (PFE e) t2 (PDOP e) (opt_w (SFE e) [SAT e]
      ++ opt_w (NSFE e) (le_enc 2 (NS e))) L2 Hp) as (t3 & L3 & E3).
  rewrite E3. cbn [bind]. rewrite opt_byte_enc by exact Hs. cbn [bind].
  destruct (opt_le_enc0 1 (NSFE e) t3 (NS e) [] L3 Hn) as (t4 & L4 & E4).
  rewrite app_nil_r in E4. rewrite E4. cbn [bind]. destruct e; reflexivity.
Qed.

(** ** EGTS_SR_STATE_DATA *)
Lemma state_roundtrip e : wf_state e = true ->
  exists b, state_encode e = Ok b /\ state_decode b = Ok e /\ length b = 5%nat.
Proof.
  unfold wf_state. rewrite !andb_true_iff. intros [[[[[[H1 H2] H3] H4] Hn] Hi] Hb].
  unfold state_encode.
  destruct (bits_app8 [ch0] [ch0] [ch0] [ch0] [ch0] (NMS e) (IBU e) (BBU e))
    as (v & Hpar & _ & _ & _ & _ & _ & _ & F5 & F6 & F7); try reflexivity; try assumption.
  cbn [app] in Hpar. cbn [app]. rewrite Hpar. cbn [bind]. eexists. split; [reflexivity|].
  split; [|reflexivity].
  unfold state_decode. cbn [read_byte bind]. rewrite F5, F6, F7. destruct e; reflexivity.
Qed.

(** ** EGTS_SR_LIQUID_LEVEL_SENSOR *)
Lemma liquid_num n : n < 8 ->
  exists a b c, fmt_b 3 n = [a; b; c] /\ bit_char a = true /\ bit_char b = true /\ bit_char c = true
    /\ parse8 [a; b; c] = Ok n.
Proof.
  intros H.
  assert (n = 0 \/ n = 1 \/ n = 2 \/ n = 3 \/ n = 4 \/ n = 5 \/ n = 6 \/ n = 7) as Hc by lia.
  repeat destruct Hc as [->|Hc]; try subst n; do 3 eexists; repeat split.
Qed.

Lemma liquid_roundtrip e : wf_liquid e = true ->
  exists b, liquid_encode e = Ok b /\ liquid_decode b = Ok e /\ length b = 7%nat.
Proof.
  unfold wf_liquid. rewrite !andb_true_iff. intros [[[[[Hf Hu] Hr] Hn] Hm] Hd].
  apply N.ltb_lt in Hn, Hm, Hd.
  unfold liquid_encode. destruct (liquid_num (LLSN e) Hn) as (a & b & c & Hs & Ha & Hb & Hc & Hp).
  rewrite Hs. apply bits2_char in Hu. destruct Hu as (u1 & u2 & Hu & Hu1 & Hu2). rewrite Hu.
  apply bits1_char in Hf, Hr. destruct Hf as (f & Hf & Hf1), Hr as (r & Hr & Hr1). rewrite Hf, Hr.
  assert (bits_ok 8 (s0 ++ [f] ++ [u1; u2] ++ [r] ++ [a; b; c]) = true) as H8.
  { unfold bits_ok. cbn. rewrite Hf1, Hu1, Hu2, Hr1, Ha, Hb, Hc. reflexivity. }
  destruct (parse8_bits _ H8) as (v & Hpar & Hv & Hfmt). rewrite Hpar. cbn [bind].
  eexists. split; [reflexivity|]. split; [|cbn [app length]; rewrite app_length, !length_le_enc; reflexivity].
  unfold liquid_decode. cbn [app read_byte bind]. rewrite Hfmt. cbn [app s0].
  cbn [skipn]. rewrite Hp. cbn [bind].
  rewrite (read_le_enc 1) by (reflexivity || assumption). cbn [bind].
  rewrite <- (app_nil_r (le_enc 4 (LLSD e))).
  rewrite (read_le_enc 3) by (reflexivity || assumption). cbn [bind].
  unfold fbit, substr. cbn. rewrite <- Hf, <- Hu, <- Hr. destruct e; reflexivity.
Qed.

(** ** EGTS_SR_ABS_CNTR_DATA, EGTS_SR_ABS_AN_SENS_DATA *)
Lemma abs_cntr_roundtrip e : wf_abs_cntr e = true ->
  exists b, abs_cntr_encode e = Ok b /\ abs_cntr_decode b = Ok e /\ length b = 4%nat.
Proof.
  unfold wf_abs_cntr. rewrite andb_true_iff. intros [_ Hv]. apply N.ltb_lt in Hv.
  unfold abs_cntr_encode. eexists. split; [reflexivity|]. split; [|reflexivity].
  unfold abs_cntr_decode. cbn [app read_byte bind]. rewrite <- (app_nil_r (le_enc 3 (CounterValue e))).
  rewrite (read_le_enc 2) by (reflexivity || assumption). cbn [bind]. destruct e; reflexivity.
Qed.

Lemma abs_an_bytes e : abs_an_encode e = Ok (u8 (SensorNumber e) :: le_enc 3 (Value e)).
Proof.
  unfold abs_an_encode, u8. cbn [le_enc]. rewrite !N.shiftr_div_pow2.
  change (2 ^ 8) with 256. change (2 ^ 16) with (256 * 256). rewrite N.div_div by lia. reflexivity.
Qed.
Lemma abs_an_decode_bytes n v : n < 256 -> v < 2 ^ 24 ->
  abs_an_decode (n :: le_enc 3 v) = Ok {| SensorNumber := n; Value := v |}.
Proof.
  intros Hn Hv. unfold abs_an_decode. unfold blen. cbn [length]. rewrite length_le_enc.
  change (N.of_nat 4 <? 4) with false. cbn match. cbn [nth].
  change (firstn 4 (n :: le_enc 3 v)) with (n :: le_enc 3 v).
  cbn [le_dec]. rewrite le_dec_enc_id by exact Hv. rewrite N.shiftr_div_pow2.
  change (2 ^ 8) with 256. rewrite N.mul_comm, N.div_add by lia. rewrite N.div_small by exact Hn.
  reflexivity.
Qed.
Lemma abs_an_roundtrip e : wf_abs_an e = true ->
  exists b, abs_an_encode e = Ok b /\ abs_an_decode b = Ok e /\ length b = 4%nat.
Proof.
  unfold wf_abs_an. rewrite andb_true_iff. intros [Hn Hv]. apply byte_ok_lt in Hn. apply N.ltb_lt in Hv.
  rewrite abs_an_bytes. eexists. split; [reflexivity|]. unfold u8. rewrite N.mod_small by exact Hn.
  split; [|reflexivity]. rewrite abs_an_decode_bytes by assumption. destruct e; reflexivity.
Qed.

(** ** EGTS_SR_DISPATCHER_IDENTITY *)
Lemma disp_roundtrip e : wf_disp e = true ->
  exists b, disp_encode e = Ok b /\ disp_decode b = Ok e.
Proof.
  unfold wf_disp. rewrite !andb_true_iff. intros [[_ Hd] _]. apply N.ltb_lt in Hd.
  unfold disp_encode. eexists. split; [reflexivity|]. unfold disp_decode. cbn [app read_byte bind].
  rewrite buffer_read_full by (try rewrite length_le_enc; try discriminate; reflexivity).
  cbn [bind]. rewrite le_dec_enc_id by exact Hd. destruct e; reflexivity.
Qed.

(** ** EGTS_SR_AUTH_INFO *)
Lemma read_string_nul s r : nul_free s = true -> read_string 0 (s ++ [0] ++ r) = Ok (s, r).
Proof.
  induction s as [|c s IH]; intros H; [reflexivity|].
  cbn [nul_free forallb] in H. apply andb_true_iff in H. destruct H as [Hc Hs].
  cbn [app read_string]. destruct (c =? 0); [discriminate|]. cbn [app] in IH. rewrite IH by exact Hs. reflexivity.
Qed.

Lemma auth_roundtrip e : wf_auth e = true ->
  exists b, auth_encode e = Ok b /\ auth_decode b = Ok e.
Proof.
  unfold wf_auth. rewrite !andb_true_iff. intros [[[_ Hu] Hp] Hs].
  unfold auth_encode. eexists. split; [reflexivity|]. unfold auth_decode.
  rewrite read_string_nul by exact Hu. cbn [bind]. rewrite read_string_nul by exact Hp. cbn [bind].
  destruct e as [u p s]. cbn [SSQ UNM UPSW] in *. destruct s as [|c s]; [reflexivity|].
  pose proof (read_string_nul (c :: s) [] Hs) as Hr. cbn [app] in Hr |- *. rewrite Hr. reflexivity.
Qed.

(** ** EGTS_SR_TERM_IDENTITY *)
Lemma parse8_uint s v : parse8 s = Ok v -> fst (parse_uint 255 s) = v.
Proof.
  unfold parse8. destruct (parse_uint 255 s) as [w ok]. destruct ok; [|discriminate].
  intros H. injection H as ->. reflexivity.
Qed.

Lemma pad_exact k s flag : opt_bytes k flag s = true -> opt_w flag (pad_to k s) = opt_w flag s.
Proof.
  unfold opt_bytes, opt_w. rewrite !andb_true_iff. intros [_ Hl]. apply Nat.eqb_eq in Hl.
  destruct (is1 flag); [|reflexivity]. unfold pad_to. rewrite Hl, Nat.sub_diag. apply app_nil_r.
Qed.

Lemma opt_fresh_num flag k v r :
  opt_num (S k) flag v = true ->
  exists b, opt_fresh flag [] (S k) (opt_w flag (le_enc (S k) v) ++ r) = Ok (b, r) /\ le_dec b = v.
Proof.
  unfold opt_num. rewrite andb_true_iff. intros [_ H]. unfold opt_fresh, opt_w. destruct (is1 flag).
  - exists (le_enc (S k) v). split.
    + apply reader_read_full; [rewrite length_zeros; apply length_le_enc|discriminate].
    + apply le_dec_enc_id. apply N.ltb_lt; exact H.
  - exists []. apply N.eqb_eq in H. subst. split; reflexivity.
Qed.

Lemma term_roundtrip e : wf_term e = true ->
  exists b, term_encode e = Ok b /\ term_decode b = Ok e.
Proof.
  unfold wf_term. rewrite !andb_true_iff.
  intros [[[[[[[[Ht Hs] Hhd] Him] His] Hlc] Hni] Hbs] Hmn]. apply N.ltb_lt in Ht.
  unfold term_encode.
  destruct (bits_app8 (MNE e) (BSE e) (NIDE e) (SSRA e) (LNGCE e) (IMSIE e) (IMEIE e) (HDIDE e))
    as (v & Hpar & _ & F0 & F1 & F2 & F3 & F4 & F5 & F6 & F7); try assumption;
    try (eapply opt_num_flag; eassumption); try (eapply opt_bytes_flag; eassumption).
  rewrite (parse8_uint _ _ Hpar). rewrite (pad_exact 15), (pad_exact 16) by assumption.
  eexists. split; [reflexivity|]. unfold term_decode.
  rewrite (read_le_enc 3) by (reflexivity || assumption). cbn [app read_byte bind].
  rewrite F0, F1, F2, F3, F4, F5, F6, F7.
  destruct (opt_fresh_num (HDIDE e) 1 (HDID e) (opt_w (IMEIE e) (IMEI e) ++ opt_w (IMSIE e) (IMSI e) ++
     opt_w (LNGCE e) (LNGC e) ++ opt_w (NIDE e) (NID e) ++ opt_w (BSE e) (le_enc 2 (BS e)) ++ opt_w (MNE e) (MSISDN e)) Hhd) as (b1 & E1 & D1).
  rewrite E1. cbn [bind].
  rewrite (opt_fresh_enc _ 14) by assumption. cbn [bind].
  rewrite (opt_fresh_enc _ 15) by assumption. cbn [bind].
  rewrite (opt_fresh_enc _ 2) by assumption. cbn [bind].
  rewrite (opt_fresh_enc _ 2) by assumption. cbn [bind].
  destruct (opt_fresh_num (BSE e) 1 (BS e) (opt_w (MNE e) (MSISDN e)) Hbs) as (b2 & E2 & D2).
  rewrite E2. cbn [bind].
  rewrite <- (app_nil_r (opt_w (MNE e) (MSISDN e))).
  rewrite (opt_fresh_enc _ 14) by assumption. cbn [bind]. rewrite D1, D2.
  destruct e; reflexivity.
Qed.

(** ** EGTS_SR_COUNTERS_DATA *)
Lemma all8_split {A B} (f : A -> B -> bool) a b : all8 f a b = true ->
  f (o1 a) (o1 b) = true /\ f (o2 a) (o2 b) = true /\ f (o3 a) (o3 b) = true /\ f (o4 a) (o4 b) = true /\
  f (o5 a) (o5 b) = true /\ f (o6 a) (o6 b) = true /\ f (o7 a) (o7 b) = true /\ f (o8 a) (o8 b) = true.
Proof. unfold all8. rewrite !andb_true_iff. tauto. Qed.

Lemma flags_high_first f : 
  bits_ok 1 (o1 f) = true -> bits_ok 1 (o2 f) = true -> bits_ok 1 (o3 f) = true -> bits_ok 1 (o4 f) = true ->
  bits_ok 1 (o5 f) = true -> bits_ok 1 (o6 f) = true -> bits_ok 1 (o7 f) = true -> bits_ok 1 (o8 f) = true ->
  exists v, parse8 (concat_high_first f) = Ok v /\ v < 256 /\ flags_low_first (fmt_b 8 v) = f.
Proof.
  intros. unfold concat_high_first.
  destruct (bits_app8 (o8 f) (o7 f) (o6 f) (o5 f) (o4 f) (o3 f) (o2 f) (o1 f))
    as (v & Hp & Hv & F0 & F1 & F2 & F3 & F4 & F5 & F6 & F7); try assumption.
  exists v. split; [exact Hp|]. split; [exact Hv|]. unfold flags_low_first.
  rewrite F0, F1, F2, F3, F4, F5, F6, F7. destruct f; reflexivity.
Qed.


Lemma counters_decode_encode e : full_counters e = true ->
  exists b, counters_encode e = Ok b /\ counters_decode b = Ok (counters_seen e).
Proof.
  unfold full_counters. intros H. apply all8_split in H.
  destruct H as (H1 & H2 & H3 & H4 & H5 & H6 & H7 & H8).
  unfold counters_encode.
  destruct (flags_high_first (CFE e)) as (v & Hp & _ & Hf); try (eapply opt_num_flag; eassumption).
  rewrite Hp. cbn [bind]. eexists. split; [reflexivity|].
  unfold counters_decode. cbn [app read_byte bind]. rewrite Hf. unfold write_opt3.
  destruct (opt_le_enc0 2 (o1 (CFE e)) (zeros 3) (o1 (CN e)) (opt_w (o2 (CFE e)) (le_enc 3 (o2 (CN e))) ++
      opt_w (o3 (CFE e)) (le_enc 3 (o3 (CN e))) ++ opt_w (o4 (CFE e)) (le_enc 3 (o4 (CN e))) ++
      opt_w (o5 (CFE e)) (le_enc 3 (o5 (CN e))) ++ opt_w (o6 (CFE e)) (le_enc 3 (o6 (CN e))) ++
      opt_w (o7 (CFE e)) (le_enc 3 (o7 (CN e))) ++ opt_w (o8 (CFE e)) (le_enc 3 (o8 (CN e)))) eq_refl H1)
    as (t1 & L1 & E1). rewrite E1. cbn [bind]. clear E1.
  destruct (opt_le_enc 2 (o2 (CFE e)) (o1 (CN e)) t1 (o2 (CN e)) (
      opt_w (o3 (CFE e)) (le_enc 3 (o3 (CN e))) ++ opt_w (o4 (CFE e)) (le_enc 3 (o4 (CN e))) ++
      opt_w (o5 (CFE e)) (le_enc 3 (o5 (CN e))) ++ opt_w (o6 (CFE e)) (le_enc 3 (o6 (CN e))) ++
      opt_w (o7 (CFE e)) (le_enc 3 (o7 (CN e))) ++ opt_w (o8 (CFE e)) (le_enc 3 (o8 (CN e)))) L1 H2)
    as (t2 & L2 & E2). rewrite E2. cbn [bind]. clear E2.
  destruct (opt_le_enc0 2 (o3 (CFE e)) t2 (o3 (CN e)) (opt_w (o4 (CFE e)) (le_enc 3 (o4 (CN e))) ++
      opt_w (o5 (CFE e)) (le_enc 3 (o5 (CN e))) ++ opt_w (o6 (CFE e)) (le_enc 3 (o6 (CN e))) ++
      opt_w (o7 (CFE e)) (le_enc 3 (o7 (CN e))) ++ opt_w (o8 (CFE e)) (le_enc 3 (o8 (CN e)))) L2 H3)
    as (t3 & L3 & E3). rewrite E3. cbn [bind]. clear E3.
  destruct (opt_le_enc0 2 (o4 (CFE e)) t3 (o4 (CN e)) (
      opt_w (o5 (CFE e)) (le_enc 3 (o5 (CN e))) ++ opt_w (o6 (CFE e)) (le_enc 3 (o6 (CN e))) ++
      opt_w (o7 (CFE e)) (le_enc 3 (o7 (CN e))) ++ opt_w (o8 (CFE e)) (le_enc 3 (o8 (CN e)))) L3 H4)
    as (t4 & L4 & E4). rewrite E4. cbn [bind]. clear E4.
  destruct (opt_le_enc0 2 (o5 (CFE e)) t4 (o5 (CN e)) (opt_w (o6 (CFE e)) (le_enc 3 (o6 (CN e))) ++
      opt_w (o7 (CFE e)) (le_enc 3 (o7 (CN e))) ++ opt_w (o8 (CFE e)) (le_enc 3 (o8 (CN e)))) L4 H5)
    as (t5 & L5 & E5). rewrite E5. cbn [bind]. clear E5.
  destruct (opt_le_enc0 2 (o6 (CFE e)) t5 (o6 (CN e)) (
      opt_w (o7 (CFE e)) (le_enc 3 (o7 (CN e))) ++ opt_w (o8 (CFE e)) (le_enc 3 (o8 (CN e)))) L5 H6)
    as (t6 & L6 & E6). rewrite E6. cbn [bind]. clear E6.
  destruct (opt_le_enc0 2 (o7 (CFE e)) t6 (o7 (CN e)) (opt_w (o8 (CFE e)) (le_enc 3 (o8 (CN e)))) L6 H7)
    as (t7 & L7 & E7). rewrite E7. cbn [bind]. clear E7.
  destruct (opt_le_enc0 2 (o8 (CFE e)) t7 (o8 (CN e)) [] L7 H8)
    as (t8 & L8 & E8). rewrite app_nil_r in E8. rewrite E8. cbn [bind]. reflexivity.
Qed.

Lemma counters_roundtrip e : wf_counters e = true ->
  exists b, counters_encode e = Ok b /\ counters_decode b = Ok e.
Proof.
  unfold wf_counters. rewrite andb_true_iff. intros [Hf H2].
  destruct (counters_decode_encode e Hf) as (b & Hb & Hd). exists b. split; [exact Hb|]. rewrite Hd.
  unfold full_counters in Hf. apply all8_split in Hf. destruct Hf as (_ & Hf2 & _).
  unfold opt_num in Hf2. apply andb_true_iff in Hf2. destruct Hf2 as [_ Hf2].
  unfold counters_seen. destruct (is1 (o2 (CFE e))); [discriminate|]. apply N.eqb_eq in Hf2.
  destruct e as [f [c1 c2 c3 c4 c5 c6 c7 c8]]. cbn in *. subst. reflexivity.
Qed.

(** ** EGTS_SR_AD_SENSORS_DATA *)
Lemma palindrome_concat f : flags_palindrome f = true -> concat_low_first f = concat_high_first f.
Proof.
  unfold flags_palindrome. rewrite !andb_true_iff, !str_eqb_spec. intros [[[H1 H2] H3] H4].
  unfold concat_low_first, concat_high_first. rewrite H1, H2, H3, H4. reflexivity.
Qed.

Lemma ad_roundtrip e : wf_ad e = true ->
  exists b, ad_encode e = Ok b /\ ad_decode b = Ok e.
Proof.
  unfold wf_ad, full_ad. rewrite !andb_true_iff. intros [[[Hd Ho] Ha] Hpal].
  apply all8_split in Hd. destruct Hd as (H1 & H2 & H3 & H4 & H5 & H6 & H7 & H8).
  apply all8_split in Ha. destruct Ha as (A1 & A2 & A3 & A4 & A5 & A6 & A7 & A8).
  unfold ad_encode. rewrite (palindrome_concat _ Hpal).
  destruct (flags_high_first (DIOE e)) as (v & Hp & _ & Hf); try (eapply opt_num_flag; eassumption).
  destruct (flags_high_first (ASFE e)) as (v2 & Hp2 & _ & Hf2); try (eapply opt_num_flag; eassumption).
  rewrite Hp, Hp2. cbn [bind]. eexists. split; [reflexivity|].
  unfold ad_decode. cbn [app read_byte bind]. rewrite Hf, Hf2.
  do 8 (rewrite opt_byte_enc by assumption; cbn [bind]).
  unfold write_opt3.
  destruct (opt_le_enc0 2 (o1 (ASFE e)) (zeros 3) (o1 (ANS e)) (opt_w (o2 (ASFE e)) (le_enc 3 (o2 (ANS e))) ++
      opt_w (o3 (ASFE e)) (le_enc 3 (o3 (ANS e))) ++ opt_w (o4 (ASFE e)) (le_enc 3 (o4 (ANS e))) ++
      opt_w (o5 (ASFE e)) (le_enc 3 (o5 (ANS e))) ++ opt_w (o6 (ASFE e)) (le_enc 3 (o6 (ANS e))) ++
      opt_w (o7 (ASFE e)) (le_enc 3 (o7 (ANS e))) ++ opt_w (o8 (ASFE e)) (le_enc 3 (o8 (ANS e)))) eq_refl A1)
    as (t1 & L1 & E1). rewrite E1. cbn [bind]. clear E1.
  destruct (opt_le_enc0 2 (o2 (ASFE e)) t1 (o2 (ANS e)) (
      opt_w (o3 (ASFE e)) (le_enc 3 (o3 (ANS e))) ++ opt_w (o4 (ASFE e)) (le_enc 3 (o4 (ANS e))) ++
      opt_w (o5 (ASFE e)) (le_enc 3 (o5 (ANS e))) ++ opt_w (o6 (ASFE e)) (le_enc 3 (o6 (ANS e))) ++
      opt_w (o7 (ASFE e)) (le_enc 3 (o7 (ANS e))) ++ opt_w (o8 (ASFE e)) (le_enc 3 (o8 (ANS e)))) L1 A2)
    as (t2 & L2 & E2). rewrite E2. cbn [bind]. clear E2.
  destruct (opt_le_enc0 2 (o3 (ASFE e)) t2 (o3 (ANS e)) (opt_w (o4 (ASFE e)) (le_enc 3 (o4 (ANS e))) ++
      opt_w (o5 (ASFE e)) (le_enc 3 (o5 (ANS e))) ++ opt_w (o6 (ASFE e)) (le_enc 3 (o6 (ANS e))) ++
      opt_w (o7 (ASFE e)) (le_enc 3 (o7 (ANS e))) ++ opt_w (o8 (ASFE e)) (le_enc 3 (o8 (ANS e)))) L2 A3)
    as (t3 & L3 & E3). rewrite E3. cbn [bind]. clear E3.
  destruct (opt_le_enc0 2 (o4 (ASFE e)) t3 (o4 (ANS e)) (
      opt_w (o5 (ASFE e)) (le_enc 3 (o5 (ANS e))) ++ opt_w (o6 (ASFE e)) (le_enc 3 (o6 (ANS e))) ++
      opt_w (o7 (ASFE e)) (le_enc 3 (o7 (ANS e))) ++ opt_w (o8 (ASFE e)) (le_enc 3 (o8 (ANS e)))) L3 A4)
    as (t4 & L4 & E4). rewrite E4. cbn [bind]. clear E4.
  destruct (opt_le_enc0 2 (o5 (ASFE e)) t4 (o5 (ANS e)) (opt_w (o6 (ASFE e)) (le_enc 3 (o6 (ANS e))) ++
      opt_w (o7 (ASFE e)) (le_enc 3 (o7 (ANS e))) ++ opt_w (o8 (ASFE e)) (le_enc 3 (o8 (ANS e)))) L4 A5)
    as (t5 & L5 & E5). rewrite E5. cbn [bind]. clear E5.
  destruct (opt_le_enc0 2 (o6 (ASFE e)) t5 (o6 (ANS e)) (
      opt_w (o7 (ASFE e)) (le_enc 3 (o7 (ANS e))) ++ opt_w (o8 (ASFE e)) (le_enc 3 (o8 (ANS e)))) L5 A6)
    as (t6 & L6 & E6). rewrite E6. cbn [bind]. clear E6.
  destruct (opt_le_enc0 2 (o7 (ASFE e)) t6 (o7 (ANS e)) (opt_w (o8 (ASFE e)) (le_enc 3 (o8 (ANS e)))) L6 A7)
    as (t7 & L7 & E7). rewrite E7. cbn [bind]. clear E7.
  destruct (opt_le_enc0 2 (o8 (ASFE e)) t7 (o8 (ANS e)) [] L7 A8)
    as (t8 & L8 & E8). rewrite app_nil_r in E8. rewrite E8. cbn [bind].
  destruct e as [d o a [x1 x2 x3 x4 x5 x6 x7 x8] [y1 y2 y3 y4 y5 y6 y7 y8]]. reflexivity.
Qed.

(** ** EGTS_SR_POS_DATA *)
(** One sweep over every (DIRH, ALTS, speed). *)
Definition speed_word (d a s : N) : N :=
  N.lor (N.lor (u16 (s * 10)) (u16 (N.shiftl d 15))) (u16 (N.shiftl a 14)).
Definition speed_check (d a s : N) : bool :=
  let w := speed_word d a s in
  (w <? 65536) && (N.land (N.shiftr w 15) 1 =? d) && (N.land (N.shiftr w 14) 1 =? a)
  && res_N_eqb (parse16 (skipn 2 (fmt_b 16 w))) (s * 10).
Lemma speed_sweep :
  forallb (fun d => forallb (fun a => forallb (speed_check d a) (map N.of_nat (seq 0 1639))) [0; 1]) [0; 1] = true.
Proof. vm_compute. reflexivity. Qed.

Lemma speed_ok d a s : d < 2 -> a < 2 -> s <= 1638 -> speed_check d a s = true.
Proof.
  intros Hd Ha Hs. pose proof speed_sweep as H. rewrite forallb_forall in H.
  assert (In d [0; 1]) as Hd' by (simpl; lia). specialize (H d Hd'). cbv beta in H.
  rewrite forallb_forall in H. assert (In a [0; 1]) as Ha' by (simpl; lia). specialize (H a Ha').
  cbv beta in H. rewrite forallb_forall in H. apply H. apply in_map_iff. exists (N.to_nat s).
  split; [lia|]. apply in_seq. lia.
Qed.

Definition dir_check (h d : N) : bool :=
  (negb ((h =? 0) || (128 <=? d)))
  || (N.lor (N.ldiff d (u8 (N.shiftl h 7))) (u8 (N.shiftl h 7)) =? d).
Lemma dir_ok h d : h < 2 -> d < 256 -> (if h =? 1 then 128 <=? d else true) = true ->
  N.lor (N.ldiff d (u8 (N.shiftl h 7))) (u8 (N.shiftl h 7)) = d.
Proof.
  intros Hh Hd Hc.
  assert (dir_check 0 d = true) as H0 by (revert d Hd Hc; intros d Hd _; revert d Hd; apply byte_sweep; vm_compute; reflexivity).
  assert (dir_check 1 d = true) as H1 by (revert d Hd Hc H0; intros d Hd _ _; revert d Hd; apply byte_sweep; vm_compute; reflexivity).
  assert (h = 0 \/ h = 1) as [->| ->] by lia.
  - unfold dir_check in H0. cbn [N.eqb orb negb] in H0. apply N.eqb_eq. exact H0.
  - unfold dir_check in H1. cbn [N.eqb Pos.eqb] in Hc. rewrite Hc in H1.
    rewrite orb_true_r in H1. cbn [negb orb] in H1. apply N.eqb_eq. exact H1.
Qed.

Lemma f_to_u32_lt f : f_to_u32 f < 2 ^ 32.
Proof.
  unfold f_to_u32, u32. destruct f as [s|s| |s m e].
  - reflexivity.
  - apply N.mod_upper_bound; discriminate.
  - apply N.mod_upper_bound; discriminate.
  - destruct (trunc_pos m e <? 4294967296) eqn:Hl; cbn [andb].
    + destruct (negb s || (trunc_pos m e =? 0)); [apply N.ltb_lt; exact Hl|apply N.mod_upper_bound; discriminate].
    + apply N.mod_upper_bound; discriminate.
Qed.

Lemma le_dec_pad3 v : v < 2 ^ 24 -> le_dec (le_enc 3 v ++ [0]) = v.
Proof. intros H. rewrite le_dec_app, le_dec_enc_id by exact H. cbn [le_dec]. lia. Qed.

Lemma pos_roundtrip e : wf_pos e = true ->
  exists b, pos_encode e = Ok b /\ pos_decode b = Ok (quant_pos e)
    /\ length b = (if is1 (ALTE e) then 24 else 21)%nat.
Proof.
  unfold wf_pos. rewrite !andb_true_iff.
  intros [[[[[[[[[[[[[[[Hlo Hla] Hmv] Hbb] Hcs] Hfix] Hvld] Hdh] Has] Hsp] Hdir] Hcon] Hod] Hdi] Hso] Halt].
  apply N.ltb_lt in Hdh, Has, Hdir, Hod. apply N.leb_le in Hsp.
  unfold pos_encode.
  destruct (bits_app8 (ALTE e) (LOHS e) (LAHS e) (MV e) (BB e) (CS e) (FIX e) (VLD e))
    as (v & Hpar & _ & F0 & F1 & F2 & F3 & F4 & F5 & F6 & F7); try assumption;
    try (eapply opt_num_flag; eassumption).
  rewrite Hpar. cbn [bind]. eexists. split; [reflexivity|]. split.
  2:{ unfold opt_w. rewrite !app_length, !length_le_enc. destruct (is1 (ALTE e)); rewrite ?length_le_enc; reflexivity. }
  unfold pos_decode.
  rewrite (read_le_enc 3) by (reflexivity || apply f_to_u32_lt). cbn [bind].
  rewrite (read_le_enc 3) by (apply length_le_enc || apply f_to_u32_lt). cbn [bind].
  rewrite (read_le_enc 3) by (apply length_le_enc || apply f_to_u32_lt). cbn [bind].
  cbn [app read_byte bind].
  pose proof (speed_ok _ _ _ Hdh Has Hsp) as Hs. unfold speed_check in Hs.
  change (speed_word (DirectionHighestBit e) (AltitudeSign e) (Speed e)) with (pos_speed_word e) in Hs.
  cbv zeta in Hs. rewrite !andb_true_iff in Hs. destruct Hs as [[[Hw Hs1] Hs2] Hs3].
  apply N.ltb_lt in Hw. apply N.eqb_eq in Hs1, Hs2.
  rewrite (read_le_enc 1) by (reflexivity || exact Hw). cbn [bind].
  destruct (parse16 (skipn 2 (fmt_b 16 (pos_speed_word e)))) as [sp| | |]; try discriminate Hs3.
  cbn [res_N_eqb] in Hs3. apply N.eqb_eq in Hs3. cbn [bind app read_byte].
  rewrite (read_le_enc 2) by (reflexivity || exact Hod). cbn [bind app read_byte].
  rewrite F0, F1, F2, F3, F4, F5, F6, F7, Hs1, Hs2.
  rewrite dir_ok by assumption. subst sp. rewrite N.div_mul by discriminate.
  assert (exists tmp, opt_le (ALTE e) 0 (zeros 4) (opt_w (ALTE e) (le_enc 3 (Altitude e))) = Ok (Altitude e, tmp, [])) as (tmp & Ha).
  { unfold opt_num in Halt. apply andb_true_iff in Halt. destruct Halt as [_ Halt].
    unfold opt_le, opt_w. destruct (is1 (ALTE e)).
    - apply N.ltb_lt in Halt. exists (le_enc 3 (Altitude e) ++ [0]).
      pose proof (le_dec_pad3 _ Halt) as Hd. unfold read_le.
      rewrite reader_read_short by (try rewrite length_le_enc, length_zeros; try discriminate; lia).
      rewrite length_le_enc. cbn [zeros repeat skipn bind]. rewrite Hd. reflexivity.
    - apply N.eqb_eq in Halt. rewrite Halt. exists (zeros 4). reflexivity. }
  rewrite Ha. cbn [bind]. reflexivity.
Qed.

End SubFacts.
