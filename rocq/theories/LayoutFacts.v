(** * LayoutFacts: the decoders read each field where Spec_Layout says. *)
From Coq Require Import Lia.
From Verif Require Import GoBase Float64 SubRecords Records Package Spec_Bits Spec_Wf Spec_Rec Spec_Pkg Spec_Layout
  BaseFacts SubFacts RecFacts DecFacts PkgFacts.

Lemma skipn_nil_len {A} off (b : list A) : (off < length b)%nat -> skipn off b <> [].
Proof. intros H E. apply (f_equal (@length A)) in E. rewrite skipn_length in E. cbn in E. lia. Qed.

Lemma skipn_nth off (b : bytes) : (off < length b)%nat -> skipn off b = nth off b 0 :: skipn (S off) b.
Proof.
  revert off. induction b as [|x b IH]; intros off H; [cbn in H; lia|].
  destruct off; [reflexivity|]. cbn [skipn nth]. rewrite IH by (cbn in H; lia). reflexivity.
Qed.

Lemma num_at_le b : forall w off, (off + w <= length b)%nat -> num_at b off w = le_dec (firstn w (skipn off b)).
Proof.
  induction w as [|w IH]; intros off H; [reflexivity|].
  rewrite (skipn_nth off) by lia. cbn [firstn le_dec num_at]. rewrite IH by lia. reflexivity.
Qed.

Lemma read_byte_at b off : (off < length b)%nat ->
  read_byte (skipn off b) = Ok (nth off b 0, skipn (S off) b).
Proof. intros H. rewrite skipn_nth by exact H. reflexivity. Qed.

Lemma reader_read_at tmp b off w : length tmp = w -> (0 < w)%nat -> (off + w <= length b)%nat ->
  reader_read tmp (skipn off b) = Ok (str_at b off w, skipn (off + w) b).
Proof.
  intros Ht Hw H. unfold reader_read, str_at.
  destruct (skipn off b) as [|x r] eqn:Es; [apply skipn_nil_len in Es; [destruct Es|lia]|].
  rewrite <- Es. unfold copy_into. rewrite Ht.
  assert (Hl : length (skipn off b) = (length b - off)%nat) by apply skipn_length.
  rewrite skipn_skipn_. rewrite (skipn_all2 tmp) by (rewrite Hl, Ht; lia).
  rewrite app_nil_r. reflexivity.
Qed.
Lemma length_str_at b off w : (off + w <= length b)%nat -> length (str_at b off w) = w.
Proof. intros H. unfold str_at. rewrite firstn_length, skipn_length. lia. Qed.
Lemma le_str_at b off w : (off + w <= length b)%nat -> le_dec (str_at b off w) = num_at b off w.
Proof. intros H. symmetry. apply num_at_le. exact H. Qed.

Lemma read_le_at tmp b off w : length tmp = w -> (0 < w)%nat -> (off + w <= length b)%nat ->
  read_le tmp (skipn off b) = Ok (num_at b off w, str_at b off w, skipn (off + w) b).
Proof.
  intros Ht Hw H. unfold read_le. rewrite (reader_read_at tmp b off w) by assumption. cbn [bind].
  rewrite le_str_at by exact H. reflexivity.
Qed.

Lemma opt_le_at f tmp b off w : length tmp = w -> (0 < w)%nat -> (off + field_size (Num f w 0) <= length b)%nat ->
  exists tmp', length tmp' = w /\
  opt_le f 0 tmp (skipn off b) =
    Ok (if is1 f then num_at b off w else 0, tmp', skipn (off + field_size (Num f w 0)) b).
Proof.
  intros Ht Hw H. unfold opt_le, field_size in *. destruct (is1 f).
  - exists (str_at b off w). split; [apply length_str_at; exact H|]. apply read_le_at; assumption.
  - exists tmp. split; [exact Ht|]. rewrite Nat.add_0_r. reflexivity.
Qed.
Lemma opt_byte_at f b off : (off + field_size (Num f 1 0) <= length b)%nat ->
  opt_byte f 0 (skipn off b) = Ok (if is1 f then num_at b off 1 else 0, skipn (off + field_size (Num f 1 0)) b).
Proof.
  intros H. unfold opt_byte, field_size in *. destruct (is1 f).
  - rewrite read_byte_at by lia. cbn [num_at]. rewrite N.mul_0_r, N.add_0_r, Nat.add_1_r. reflexivity.
  - rewrite Nat.add_0_r. reflexivity.
Qed.
Lemma opt_fresh_at f b off w : (0 < w)%nat -> (off + field_size (Str f w []) <= length b)%nat ->
  opt_fresh f [] w (skipn off b) = Ok (if is1 f then str_at b off w else [], skipn (off + field_size (Str f w [])) b).
Proof.
  intros Hw H. unfold opt_fresh, field_size in *. destruct (is1 f).
  - apply reader_read_at; [apply length_zeros|exact Hw|exact H].
  - rewrite Nat.add_0_r. reflexivity.
Qed.
Lemma opt4_at f b off : (off + field_size (Num f 4 0) <= length b)%nat ->
  opt4 f (skipn off b) = Ok (if is1 f then num_at b off 4 else 0, skipn (off + field_size (Num f 4 0)) b).
Proof.
  intros H. unfold opt4, field_size in *. destruct (is1 f).
  - rewrite (reader_read_at _ b off 4) by (try reflexivity; lia). cbn [bind]. rewrite le_str_at by exact H. reflexivity.
  - rewrite Nat.add_0_r. reflexivity.
Qed.

(** Flags of a byte. *)
Lemma fbit_bit i v : v < 256 -> (i < 8)%nat -> fbit i (fmt_b 8 v) = bit_str (N.testbit v (7 - N.of_nat i)).
Proof.
  intros Hv Hi.
  assert (H : forallb (fun v => forallb (fun i => str_eqb (fbit i (fmt_b 8 v)) (bit_str (N.testbit v (7 - N.of_nat i)))) (seq 0 8))
               all_bytes = true) by (vm_compute; reflexivity).
  rewrite forallb_forall in H. specialize (H v (all_bytes_spec v Hv)). cbn beta in H.
  rewrite forallb_forall in H. specialize (H i). cbn beta in H.
  apply str_eqb_spec. apply H. apply in_seq. lia.
Qed.
Lemma fbit_at b off i : bytes_ok b = true -> (i < 8)%nat ->
  fbit i (fmt_b 8 (nth off b 0)) = flag_at b off (7 - N.of_nat i).
Proof. intros Hb Hi. apply fbit_bit; [apply bytes_ok_nth; exact Hb|exact Hi]. Qed.
Lemma is1_bit_str x : is1 (bit_str x) = x.
Proof. destruct x; reflexivity. Qed.

Lemma fields_from_len b l : forall off, fields_from b off l ->
  (off + fold_right (fun f n => field_size f + n)%nat 0%nat l <= length b)%nat.
Proof.
  induction l as [|f l IH]; intros off H; cbn in *.
  - lia.
  - destruct H as [_ H]. apply IH in H. lia.
Qed.

Section LayoutFacts.
Context {E : go_env}.

Ltac flags Hb :=
  repeat match goal with
  | |- context [fbit ?i (fmt_b 8 (nth ?o ?b 0))] =>
      rewrite (fbit_at b o i Hb) by (cbn; lia);
      let k := eval cbv in (7 - N.of_nat i) in change (7 - N.of_nat i) with k
  end.


Ltac lens := cbn [field_size length] in *; lia.
Ltac rbyte := match goal with
  | |- context [read_byte (skipn ?o ?b)] => rewrite (read_byte_at b o) by lens; cbn [bind] end.
Ltac rle w := match goal with
  | |- context [read_le ?t (skipn ?o ?b)] =>
      rewrite (read_le_at t b o w) by (first [reflexivity | apply length_str_at; lens | lens]); cbn [bind] end.
Ltac ole w := match goal with
  | |- context [opt_le ?f 0 ?t (skipn ?o ?b)] =>
      let t' := fresh "t" in let L := fresh "L" in let R := fresh "R" in
      destruct (opt_le_at f t b o w) as (t' & L & R);
      [first [reflexivity | assumption] | lia | lens | rewrite R; clear R; cbn [bind]] end.
Ltac obyte := match goal with
  | |- context [opt_byte ?f 0 (skipn ?o ?b)] => rewrite (opt_byte_at f b o) by lens; cbn [bind] end.
Ltac ofresh := match goal with
  | |- context [opt_fresh ?f [] ?w (skipn ?o ?b)] => rewrite (opt_fresh_at f b o w) by lens; cbn [bind] end.

Lemma nonempty_len {A} (b : list A) : b <> [] -> (0 < length b)%nat.
Proof. destruct b; [congruence|cbn; lia]. Qed.

(** ** Extended position *)
Lemma ext_eta e : mkExt (NSFE e) (SFE e) (PFE e) (HFE e) (VFE e) (VDOP e) (HDOP e) (PDOP e) (SAT e) (NS e) = e.
Proof. destruct e; reflexivity. Qed.
Lemma ext_layout_decode b e : bytes_ok b = true -> ext_layout b e -> ext_decode b = Ok e.
Proof.
  intros Hb (Hne & F1 & F2 & F3 & F4 & F5 & HF). apply nonempty_len in Hne.
  pose proof (fields_from_len _ _ _ HF) as HL. cbn [fold_right] in HL.
  cbn [fields_from field_at] in HF. destruct HF as (V1 & V2 & V3 & V4 & V5 & _).
  unfold ext_decode. change b with (skipn 0 b) at 1. rbyte. flags Hb. rewrite <- F1, <- F2, <- F3, <- F4, <- F5.
  ole 2%nat. ole 2%nat. ole 2%nat. obyte. ole 2%nat.
  etransitivity; [|exact (f_equal Ok (ext_eta e))]. cbn [field_size] in *. f_equal. f_equal; try reflexivity; symmetry; assumption.
Qed.

(** ** State *)
Lemma state_layout_decode b e : bytes_ok b = true -> state_layout b e -> state_decode b = Ok e.
Proof.
  intros Hb (HL & F1 & F2 & F3 & F4 & F5 & F6 & F7).
  unfold state_decode. change b with (skipn 0 b) at 1. rbyte. rbyte. rbyte. rbyte. rbyte. flags Hb.
  destruct e as [a1 a2 a3 a4 a5 a6 a7]; cbn [State MPSV BBV IBV NMS IBU BBU] in *. subst. reflexivity.
Qed.

(** ** Liquid level *)
Lemma liq_flags v : v < 256 ->
  parse8 (skipn 5 (fmt_b 8 v)) = Ok (v mod 8) /\
  substr 2 4 (fmt_b 8 v) = bit_str (N.testbit v 5) ++ bit_str (N.testbit v 4).
Proof.
  intros Hv.
  assert (H : forallb (fun v => res_N_eqb (parse8 (skipn 5 (fmt_b 8 v))) (v mod 8) &&
     str_eqb (substr 2 4 (fmt_b 8 v)) (bit_str (N.testbit v 5) ++ bit_str (N.testbit v 4))) all_bytes = true) by (vm_compute; reflexivity).
  rewrite forallb_forall in H. specialize (H v (all_bytes_spec v Hv)). cbn beta in H.
  apply andb_prop in H. destruct H as [H1 H2]. split; [|apply str_eqb_spec; exact H2].
  unfold res_N_eqb in H1. destruct (parse8 _); try discriminate. apply N.eqb_eq in H1. congruence.
Qed.
Lemma liquid_layout_decode b e : bytes_ok b = true -> liquid_layout b e -> liquid_decode b = Ok e.
Proof.
  intros Hb (HL & F1 & F2 & F3 & F4 & F5 & F6).
  unfold liquid_decode. change b with (skipn 0 b) at 1. rbyte.
  destruct (liq_flags (nth 0 b 0)) as [P1 P2]; [apply bytes_ok_nth; exact Hb|].
  rewrite P1, P2. cbn [bind]. rle 2%nat. rle 4%nat. flags Hb.
  destruct e as [a1 a2 a3 a4 a5 a6]; cbn [LLSEF LLSVU RDF LLSN MADDR LLSD] in *. subst. reflexivity.
Qed.

(** ** Absolute counter and analogue sensor, result code, dispatcher *)
Lemma abs_cntr_layout_decode b e : abs_cntr_layout b e -> abs_cntr_decode b = Ok e.
Proof.
  intros (HL & F1 & F2). unfold abs_cntr_decode. change b with (skipn 0 b) at 1. rbyte. rle 3%nat.
  destruct e as [a1 a2]; cbn [CounterNumber CounterValue] in *. subst. reflexivity.
Qed.
Lemma abs_an_layout_decode b e : bytes_ok b = true -> abs_an_layout b e -> abs_an_decode b = Ok e.
Proof.
  intros Hb (HL & F1 & F2). unfold abs_an_decode. unfold blen.
  destruct (N.ltb_spec (N.of_nat (length b)) 4); [lia|].
  destruct b as [|x0 [|x1 [|x2 [|x3 b]]]]; cbn [length] in HL; try lia.
  cbn [firstn le_dec nth num_at] in *. rewrite !bytes_ok_cons in Hb.
  apply andb_prop in Hb. destruct Hb as [B0 Hb]. apply byte_ok_lt in B0.
  destruct e as [a1 a2]; cbn [SensorNumber Value] in *. subst. f_equal. f_equal.
  rewrite N.shiftr_div_pow2. change (2 ^ 8) with 256. rewrite N.add_comm, N.mul_comm, N.div_add_l by lia.
  rewrite (N.div_small x0) by exact B0. rewrite N.add_0_r. reflexivity.
Qed.
Lemma disp_layout_decode b e : disp_layout b e -> disp_decode b = Ok e.
Proof.
  intros (HL & F1 & F2 & F3). unfold disp_decode. change b with (skipn 0 b) at 1. rbyte.
  assert (Hr : buffer_read (zeros 4) (skipn 1 b) = Ok (str_at b 1 4, skipn 5 b)).
  { etransitivity; [|exact (reader_read_at (zeros 4) b 1 4 eq_refl ltac:(lia) ltac:(lia))].
    unfold buffer_read, reader_read. destruct (skipn 1 b) eqn:Es; [|reflexivity].
    apply (f_equal (@length N)) in Es. rewrite skipn_length in Es. cbn in Es. lia. }
  rewrite Hr. cbn [bind]. rewrite le_str_at by lia.
  destruct e as [a1 a2 a3]; cbn [DT DID DSCR] in *. subst. reflexivity.
Qed.

(** ** Authentication *)
Lemma read_string_at s r : nul_free s = true -> read_string 0 (s ++ 0 :: r) = Ok (s, r).
Proof.
  induction s as [|c s IH]; intros H; cbn [app read_string]; [reflexivity|].
  cbn [nul_free forallb] in H. apply andb_prop in H. destruct H as [Hc Hs].
  destruct (c =? 0); [discriminate|]. rewrite IH by exact Hs. reflexivity.
Qed.
Lemma auth_layout_decode b e : auth_layout b e -> auth_decode b = Ok e.
Proof.
  intros (N1 & N2 & N3 & [[-> Hs]|[rest ->]]); unfold auth_decode; cbn [app].
  - rewrite (read_string_at (UNM e)) by exact N1. cbn [bind].
    rewrite (read_string_at (UPSW e)) by exact N2. cbn [bind].
    destruct e as [a1 a2 a3]; cbn [UNM UPSW SSQ] in *. subst. reflexivity.
  - rewrite (read_string_at (UNM e)) by exact N1. cbn [bind].
    rewrite (read_string_at (UPSW e)) by exact N2. cbn [bind].
    destruct (SSQ e ++ 0 :: rest) as [|x r] eqn:Es; [destruct (SSQ e); discriminate|].
    rewrite <- Es. rewrite (read_string_at (SSQ e)) by exact N3. cbn [bind].
    destruct e; reflexivity.
Qed.

(** ** Terminal identity *)
Lemma term_eta e : mkTerm (TID e) (MNE e) (BSE e) (NIDE e) (SSRA e) (LNGCE e) (IMSIE e) (IMEIE e) (HDIDE e)
  (HDID e) (IMEI e) (IMSI e) (LNGC e) (NID e) (BS e) (MSISDN e) = e.
Proof. destruct e; reflexivity. Qed.
Lemma le_dec_opt f b off w : (off + field_size (Str f w []) <= length b)%nat ->
  le_dec (if is1 f then str_at b off w else []) = if is1 f then num_at b off w else 0.
Proof. intros H. cbn [field_size] in H. destruct (is1 f); [apply le_str_at; exact H|reflexivity]. Qed.
Lemma term_layout_decode b e : bytes_ok b = true -> term_layout b e -> term_decode b = Ok e.
Proof.
  intros Hb (HL0 & FT & F1 & F2 & F3 & F4 & F5 & F6 & F7 & F8 & HF).
  pose proof (fields_from_len _ _ _ HF) as HL. cbn [fold_right] in HL.
  cbn [fields_from field_at] in HF. destruct HF as (V1 & V2 & V3 & V4 & V5 & V6 & V7 & _).
  unfold term_decode. change b with (skipn 0 b) at 1. rle 4%nat. cbn [Nat.add]. rbyte. flags Hb.
  rewrite <- F1, <- F2, <- F3, <- F4, <- F5, <- F6, <- F7, <- F8.
  ofresh. ofresh. ofresh. ofresh. ofresh. ofresh. ofresh.
  rewrite !le_dec_opt by lens. etransitivity; [|exact (f_equal Ok (term_eta e))].
  cbn [field_size] in *. f_equal. f_equal; try reflexivity; symmetry; assumption.
Qed.

(** ** Counters and sensors *)
Lemma flags_low_first_at b off : bytes_ok b = true ->
  flags_low_first (fmt_b 8 (nth off b 0)) = flags8_at b off.
Proof. intros Hb. unfold flags_low_first, flags8_at. flags Hb. reflexivity. Qed.

Lemma oct_eta {A} (o : oct A) : mkOct (o1 o) (o2 o) (o3 o) (o4 o) (o5 o) (o6 o) (o7 o) (o8 o) = o.
Proof. destruct o; reflexivity. Qed.

Lemma opt_le_keep f cur tmp r : is1 f = false -> opt_le f cur tmp r = Ok (cur, tmp, r).
Proof. intros H. unfold opt_le. rewrite H. reflexivity. Qed.

Lemma counters_eta e : mkCounters (CFE e) (CN e) = e.
Proof. destruct e; reflexivity. Qed.
Lemma counters_layout_decode b e : bytes_ok b = true -> counters_layout b e -> o2 (CFE e) = s0 ->
  counters_decode b = Ok e.
Proof.
  intros Hb (Hne & F & HF) H2. apply nonempty_len in Hne.
  pose proof (fields_from_len _ _ _ HF) as HL. unfold fields8 in HL. cbn [fold_right] in HL.
  unfold fields8 in HF. cbn [fields_from field_at] in HF. destruct HF as (V1 & V2 & V3 & V4 & V5 & V6 & V7 & V8 & _).
  unfold counters_decode. change b with (skipn 0 b) at 1. rbyte.
  rewrite flags_low_first_at by exact Hb. rewrite <- F.
  rewrite H2 in V2. cbn [is1 str_eqb] in V2. change (is1 s0) with false in V2. cbv iota in V2.
  ole 3%nat. rewrite (opt_le_keep (o2 (CFE e))) by (rewrite H2; reflexivity). cbn [bind].
  ole 3%nat. ole 3%nat. ole 3%nat. ole 3%nat. ole 3%nat. ole 3%nat.
  etransitivity; [|exact (f_equal Ok (counters_eta e))]. f_equal. f_equal.
  etransitivity; [|exact (oct_eta (CN e))].
  assert (Z : field_size (Num (o2 (CFE e)) 3 0) = 0%nat) by (rewrite H2; reflexivity).
  cbn [field_size] in *. rewrite Z in *. rewrite !Nat.add_0_r in *.
  f_equal; symmetry; assumption.
Qed.

Lemma fields_from_app b l1 : forall off l2, fields_from b off (l1 ++ l2) ->
  fields_from b (off + fold_right (fun f n => field_size f + n)%nat 0%nat l1) l2.
Proof.
  induction l1 as [|f l1 IH]; intros off l2 H; cbn [app fields_from fold_right] in *.
  - rewrite Nat.add_0_r. exact H.
  - destruct H as [_ H]. apply IH in H. rewrite Nat.add_assoc. exact H.
Qed.

Lemma ad_eta e : mkAd (DIOE e) (DOUT e) (ASFE e) (ADIO e) (ANS e) = e.
Proof. destruct e; reflexivity. Qed.
Lemma ad_layout_decode b e : bytes_ok b = true -> ad_layout b e -> ad_decode b = Ok e.
Proof.
  intros Hb (HL0 & F1 & F2 & F3 & HF).
  pose proof (fields_from_len _ _ _ HF) as HL. unfold fields8 in HL. cbn [app fold_right] in HL.
  unfold fields8 in HF. cbn [app fields_from field_at] in HF.
  destruct HF as (V1 & V2 & V3 & V4 & V5 & V6 & V7 & V8 & W1 & W2 & W3 & W4 & W5 & W6 & W7 & W8 & _).
  unfold ad_decode. change b with (skipn 0 b) at 1. rbyte. rbyte. rbyte.
  rewrite !flags_low_first_at by exact Hb. rewrite <- F1, <- F3.
  obyte. obyte. obyte. obyte. obyte. obyte. obyte. obyte.
  ole 3%nat. ole 3%nat. ole 3%nat. ole 3%nat. ole 3%nat. ole 3%nat. ole 3%nat. ole 3%nat.
  etransitivity; [|exact (f_equal Ok (ad_eta e))]. f_equal. cbn [field_size] in *. f_equal.
  - symmetry. exact F2.
  - etransitivity; [|exact (oct_eta (ADIO e))]. f_equal; symmetry; assumption.
  - etransitivity; [|exact (oct_eta (ANS e))]. f_equal; symmetry; assumption.
Qed.

(** ** Position *)
Definition speed_ok (v : N) : bool := res_N_eqb (parse16 (skipn 2 (fmt_b 16 v))) (v mod 2 ^ 14).
Lemma speed_sweep : forallb speed_ok (upto (N.to_nat 65536) 0) = true.
Proof. vm_compute. reflexivity. Qed.
Lemma res_N_eqb_ok r x : res_N_eqb r x = true -> r = Ok x.
Proof. destruct r; cbn; intros H; try discriminate. apply N.eqb_eq in H. subst. reflexivity. Qed.
Lemma speed_word v : v < 65536 ->
  parse16 (skipn 2 (fmt_b 16 v)) = Ok (v mod 2 ^ 14) /\
  N.land (N.shiftr v 15) 1 = v / 2 ^ 15 /\ N.land (N.shiftr v 14) 1 = (v / 2 ^ 14) mod 2.
Proof.
  intros Hv. split; [|split].
  - apply res_N_eqb_ok. exact (upto_sweep speed_ok 65536 speed_sweep v Hv).
  - rewrite N.shiftr_div_pow2. change 1 with (N.ones 1) at 1. rewrite N.land_ones. apply N.mod_small.
    change (2 ^ 1) with 2. change (2 ^ 15) with 32768. apply N.div_lt_upper_bound; lia.
  - rewrite N.shiftr_div_pow2. change 1 with (N.ones 1) at 1. rewrite N.land_ones. reflexivity.
Qed.
Lemma num_at_bound b : bytes_ok b = true -> forall w off, num_at b off w < 256 ^ N.of_nat w.
Proof.
  intros Hb. induction w as [|w IH]; intros off; [cbn; lia|].
  cbn [num_at]. rewrite Nat2N.inj_succ, N.pow_succ_r'. pose proof (IH (S off)). pose proof (bytes_ok_nth b off Hb). lia.
Qed.
Lemma pos_eta e : mkPos (NavigationTime e) (Latitude e) (Longitude e) (ALTE e) (LOHS e) (LAHS e) (MV e) (BB e) (CS e) (FIX e) (VLD e)
  (DirectionHighestBit e) (AltitudeSign e) (Speed e) (Direction e) (Odometer e) (DigitalInputs e) (Source e) (Altitude e) = e.
Proof. destruct e; reflexivity. Qed.

Lemma alt_read b off : length b = (off + 3)%nat -> (0 < length b)%nat ->
  exists t r, read_le (zeros 4) (skipn off b) = Ok (num_at b off 3, t, r).
Proof.
  intros HL _. unfold read_le. rewrite reader_read_short.
  - cbn [bind]. do 2 eexists. rewrite skipn_length, HL. replace (off + 3 - off)%nat with 3%nat by lia.
    cbn [zeros repeat skipn]. rewrite le_dec_app. cbn [le_dec]. rewrite N.mul_0_r, N.add_0_r.
    replace (skipn off b) with (firstn 3 (skipn off b)) by (apply firstn_all2; rewrite skipn_length; lia).
    rewrite <- num_at_le by lia. reflexivity.
  - rewrite skipn_length, length_zeros. lia.
  - apply skipn_nil_len. lia.
Qed.

Lemma pos_fields_decode b e : bytes_ok b = true -> (21 <= length b)%nat -> pos_fields b e ->
  (exists t r, opt_le (flag_at b 12 7) 0 (zeros 4) (skipn 21 b) = Ok (Altitude e, t, r)) ->
  pos_decode b = Ok e.
Proof.
  intros Hb HL21 (FT & Fla & Flo & F1 & F2 & F3 & F4 & F5 & F6 & F7 & F8 & Fs & Fa & Fd & Fdir & Fo & Fi & Fsrc) HA.
  unfold pos_decode. change b with (skipn 0 b) at 1. rle 4%nat. rle 4%nat. rle 4%nat. cbn [Nat.add]. rbyte. rle 2%nat. cbn [Nat.add].
  destruct (speed_word (num_at b 13 2)) as (P1 & P2 & P3); [apply (num_at_bound b Hb 2)|].
  rewrite P1, P2, P3. cbn [bind]. rbyte. rle 3%nat. cbn [Nat.add]. rbyte. rbyte. flags Hb.
  destruct HA as (t & r & ->). cbn [bind].
  apply (f_equal Ok). rewrite <- (pos_eta e).
  assert (HD : N.lor (nth 15 b 0) (u8 (N.shiftl (num_at b 13 2 / 2 ^ 15) 7)) = Direction e).
  { rewrite Fdir, Fd. unfold u8. rewrite N.shiftl_mul_pow2. change (2 ^ 7) with 128. rewrite (N.mul_comm _ 128).
    rewrite N.mod_small; [reflexivity|]. pose proof (num_at_bound b Hb 2 13) as HB. change (256 ^ N.of_nat 2) with 65536 in HB.
    assert (num_at b 13 2 / 2 ^ 15 < 2) by (change (2 ^ 15) with 32768; apply N.div_lt_upper_bound; lia). lia. }
  rewrite HD. clear HD HL21 Fdir P1 P2 P3.
  rewrite <- F1, <- F2, <- F3, <- F4, <- F5, <- F6, <- F7, <- F8, <- Fs, <- Fa, <- Fd, <- Fo, <- Fi, <- Fsrc.
  rewrite <- Fla, <- Flo.
  replace (time_decode (num_at b 0 4)) with (NavigationTime e) by exact FT. reflexivity.
Qed.
Lemma pos_layout_decode b e : bytes_ok b = true -> pos_layout b e -> pos_decode b = Ok e.
Proof.
  intros Hb (HL & HF & Falt).
  apply pos_fields_decode; [exact Hb|destruct (N.testbit (nth 12 b 0) 7); lia|exact HF|].
  unfold opt_le, flag_at. rewrite is1_bit_str, Falt. destruct (N.testbit (nth 12 b 0) 7).
  - apply alt_read; lia.
  - do 2 eexists. reflexivity.
Qed.

Lemma nth_app_l (b r : bytes) i : (i < length b)%nat -> nth i (b ++ r) 0 = nth i b 0.
Proof. intros H. apply app_nth1. exact H. Qed.
Lemma num_at_app0 (b r : bytes) : forall w off, (off + w <= length b)%nat -> num_at (b ++ r) off w = num_at b off w.
Proof.
  induction w as [|w IH]; intros off H; [reflexivity|]. cbn [num_at]. rewrite nth_app_l by lia. rewrite IH by lia. reflexivity.
Qed.
Lemma pos_fields_app b r e : (21 <= length b)%nat -> pos_fields b e -> pos_fields (b ++ r) e.
Proof.
  intros H HF. unfold pos_fields, flag_at in *. rewrite !num_at_app0, !nth_app_l by lia. exact HF.
Qed.

(** What the decoder makes of a position followed by more bytes. *)
Lemma pos_no_altitude_tail b rest e : bytes_ok (b ++ rest) = true -> pos_layout b e -> N.testbit (nth 12 b 0) 7 = false ->
  pos_decode (b ++ rest) = Ok e.
Proof.
  intros Hb (HL & HF & Falt) Ht. rewrite Ht in *.
  apply pos_fields_decode; [exact Hb|rewrite app_length; lia|apply pos_fields_app; [lia|exact HF]|].
  unfold opt_le, flag_at. rewrite is1_bit_str, nth_app_l, Ht by lia. rewrite Falt. do 2 eexists. reflexivity.
Qed.
Definition with_altitude (e : pos_data) (a : N) : pos_data :=
  mkPos (NavigationTime e) (Latitude e) (Longitude e) (ALTE e) (LOHS e) (LAHS e) (MV e) (BB e) (CS e) (FIX e) (VLD e)
  (DirectionHighestBit e) (AltitudeSign e) (Speed e) (Direction e) (Odometer e) (DigitalInputs e) (Source e) a.
Lemma pos_altitude_tail b x rest e : bytes_ok (b ++ x :: rest) = true -> pos_layout b e -> N.testbit (nth 12 b 0) 7 = true ->
  pos_decode (b ++ x :: rest) = Ok (with_altitude e (Altitude e + 2 ^ 24 * x)).
Proof.
  intros Hb (HL & HF & Falt) Ht. rewrite Ht in *.
  apply pos_fields_decode; [exact Hb|rewrite app_length; lia|apply pos_fields_app; [lia|exact HF]|].
  unfold opt_le, flag_at. rewrite is1_bit_str, nth_app_l, Ht by lia.
  rewrite (read_le_at _ _ 21 4) by (try reflexivity; rewrite ?app_length; cbn [length]; lia).
  do 2 eexists. f_equal. f_equal. f_equal. cbn [with_altitude Altitude]. rewrite Falt.
  cbn [num_at]. rewrite !(nth_app_l b) by lia. rewrite (app_nth2 b) by lia. replace (24 - length b)%nat with 0%nat by lia.
  cbn [nth]. change (2 ^ 24) with (256 * (256 * 256)). lia.
Qed.

(** ** One subrecord *)
Lemma means_decode dep t b d : bytes_ok b = true -> means t b d -> sub_decode (S dep) t (blen b) b = Ok d.
Proof.
  intros Hb H. destruct d; cbn [means] in H.
  - destruct H as [-> H]. cbn [sub_decode N.eqb Pos.eqb]. rewrite (pos_layout_decode b e Hb H). reflexivity.
  - destruct H as [-> H]. cbn [sub_decode N.eqb Pos.eqb]. rewrite (term_layout_decode b e Hb H). reflexivity.
  - destruct H as (-> & HL & -> & ->). cbn [sub_decode N.eqb Pos.eqb].
    destruct b as [|x0 [|x1 [|x2 [|]]]]; cbn [length] in HL; try lia. reflexivity.
  - destruct H as (-> & HL & ->). cbn [sub_decode N.eqb Pos.eqb]. destruct b; [congruence|reflexivity].
  - destruct H as [-> H]. cbn [sub_decode N.eqb Pos.eqb]. rewrite (ext_layout_decode b e Hb H). reflexivity.
  - destruct H as [-> H]. cbn [sub_decode N.eqb Pos.eqb]. rewrite (ad_layout_decode b e Hb H). reflexivity.
  - destruct H as [[->|[-> HL]] H]; cbn [sub_decode N.eqb Pos.eqb]; rewrite (state_layout_decode b e Hb H); [reflexivity|].
    unfold blen. rewrite HL. reflexivity.
  - destruct H as [-> H]. cbn [sub_decode N.eqb Pos.eqb]. rewrite (liquid_layout_decode b e Hb H). reflexivity.
  - destruct H as [-> H]. cbn [sub_decode N.eqb Pos.eqb]. rewrite (abs_cntr_layout_decode b e H). reflexivity.
  - destruct H as [-> H]. cbn [sub_decode N.eqb Pos.eqb]. rewrite (auth_layout_decode b e H). reflexivity.
  - destruct H as (-> & H & H2). cbn [sub_decode N.eqb Pos.eqb]. rewrite (counters_layout_decode b e Hb H H2). reflexivity.
  - destruct H as [-> H]. cbn [sub_decode N.eqb Pos.eqb]. unfold plus_decode. rewrite H. reflexivity.
  - destruct H as [-> H]. cbn [sub_decode N.eqb Pos.eqb]. rewrite (abs_an_layout_decode b e Hb H). reflexivity.
  - destruct H as [-> H]. cbn [sub_decode N.eqb Pos.eqb]. rewrite (disp_layout_decode b e H). reflexivity.
  - destruct H.
Qed.

(** ** Sequences of subrecords and records *)
Lemma subs_decode dep b l : subs_of b l -> bytes_ok b = true ->
  forall fuel, (length b <= fuel)%nat -> rds_loop (sub_decode (S dep)) fuel b = Ok l.
Proof.
  induction 1 as [|t len b rest d l Hlen Hlt Hm Hr IH]; intros Hb fuel Hf.
  - destruct fuel; reflexivity.
  - rewrite !bytes_ok_app in Hb. apply andb_prop in Hb. destruct Hb as [_ Hb].
    apply andb_prop in Hb. destruct Hb as [_ Hb]. apply andb_prop in Hb. destruct Hb as [Hb1 Hb2].
    destruct fuel as [|fuel]; [cbn in Hf; lia|].
    cbn [app rds_loop read_byte bind]. 
    change (len mod 256 :: len / 256 :: b ++ rest) with ([len mod 256; len / 256] ++ (b ++ rest)).
    rewrite buffer_read_full by (try reflexivity; discriminate). cbn [bind].
    assert (Hd : le_dec [len mod 256; len / 256] = len).
    { cbn [le_dec]. rewrite N.mul_0_r, N.add_0_r. pose proof (N.div_mod len 256). lia. }
    rewrite Hd, Hlen, buffer_next_app. rewrite (means_decode dep t b d Hb1 Hm). cbn [bind].
    rewrite IH; [reflexivity|exact Hb2|]. rewrite !app_length in Hf. cbn in Hf. lia.
Qed.

Lemma rpp_bits v : v < 256 -> substr 3 5 (fmt_b 8 v) = bit_str (N.testbit v 4) ++ bit_str (N.testbit v 3).
Proof.
  intros Hv.
  assert (H : forallb (fun v => str_eqb (substr 3 5 (fmt_b 8 v)) (bit_str (N.testbit v 4) ++ bit_str (N.testbit v 3))) all_bytes = true)
    by (vm_compute; reflexivity).
  rewrite forallb_forall in H. specialize (H v (all_bytes_spec v Hv)). apply str_eqb_spec. exact H.
Qed.

Lemma num_at_app h r : forall w off, (off + w <= length h)%nat -> num_at (h ++ r) off w = num_at h off w.
Proof.
  induction w as [|w IH]; intros off H; [reflexivity|]. cbn [num_at]. rewrite app_nth1 by lia. rewrite IH by lia. reflexivity.
Qed.

Lemma sdr_eta s : mkSDR (RL s) (RN s) (SSOD s) (RSOD s) (GRP s) (RPP s) (TMFE s) (EVFE s) (OBFE s)
  (OID s) (EVID s) (TM s) (SST s) (RST s) (RD s) = s.
Proof. destruct s; reflexivity. Qed.

Lemma record_decode rdsdec h body rest s : bytes_ok h = true ->
  header_layout h s -> RL s = blen body -> rdsdec body = Ok (RD s) -> (body = [] -> RD s = []) ->
  sdr_decode rdsdec (h ++ body ++ rest) = Ok (s, rest).
Proof.
  intros Hb (FL & FN & F1 & F2 & F3 & F4 & F5 & F6 & F7 & HF & HL) Hrl Hd He.
  cbn [fields_from field_at] in HF. destruct HF as (V1 & V2 & V3 & V4 & V5 & _).
  assert (Hap : forall off, (off <= length h)%nat -> skipn off (h ++ body ++ rest) = skipn off h ++ body ++ rest).
  { intros off Ho. rewrite skipn_app. replace (off - length h)%nat with 0%nat by lia. reflexivity. }
  set (m := h ++ body ++ rest).
  assert (HLm : (length h <= length m)%nat) by (unfold m; rewrite app_length; lia).
  assert (Hn : forall off w, (off + w <= length h)%nat -> num_at m off w = num_at h off w) by (intros; apply num_at_app; assumption).
  assert (Hbyte : forall i, (i < length h)%nat -> nth i m 0 = nth i h 0) by (intros; unfold m; apply app_nth1; assumption).
  unfold sdr_decode. change m with (skipn 0 m) at 1.
  rewrite (reader_read_at _ m 0 2) by (try reflexivity; lens). cbn [bind Nat.add].
  rewrite (reader_read_at _ m 2 2) by (first [apply length_str_at; lens | lens]). cbn [bind Nat.add].
  rewrite (read_byte_at m 4) by lens. cbn [bind].
  rewrite !le_str_at by lens. rewrite !Hn by lens. rewrite Hbyte by lens.
  rewrite rpp_bits by (apply bytes_ok_nth; exact Hb). flags Hb.
  rewrite <- F1, <- F2, <- F3, <- F5, <- F6, <- F7.
  rewrite (opt4_at _ m 5) by lens. cbn [bind].
  match goal with |- context [opt4 (EVFE s) (skipn ?o m)] => rewrite (opt4_at _ m o) by lens; cbn [bind] end.
  match goal with |- context [opt4 (TMFE s) (skipn ?o m)] => rewrite (opt4_at _ m o) by lens; cbn [bind] end.
  rewrite read_byte_at by lens. cbn [bind]. rewrite read_byte_at by lens. cbn [bind].
  match goal with |- context [skipn ?o m] => replace o with (length h) by (rewrite HL; lens) end.
  assert (Hm : skipn (length h) m = body ++ rest) by (unfold m; rewrite (Hap (length h)) by lia; rewrite skipn_all; reflexivity).
  rewrite Hm.
  assert (HR : match body ++ rest with
     | [] => Ok ([], [])
     | _ :: _ => '(rb, r') <- reader_read (zeros (N.to_nat (num_at h 0 2))) (body ++ rest) ;; rd <- rdsdec rb ;; Ok (rd, r')
     end = Ok (RD s, rest)).
  { destruct (body ++ rest) as [|x y] eqn:Eb.
    - apply app_eq_nil in Eb. destruct Eb as [Eb1 ->]. rewrite (He Eb1). reflexivity.
    - rewrite <- Eb. rewrite reader_read_full; [cbn [bind]; rewrite Hd; reflexivity| |rewrite Eb; discriminate].
      rewrite length_zeros, <- FL, Hrl. unfold blen. rewrite Nat2N.id. reflexivity. }
  cbv zeta. rewrite HR. cbn [bind]. f_equal. f_equal.
  etransitivity; [|exact (sdr_eta s)].
  rewrite FL, FN, F4. cbn [field_size] in *. change (is1 s1) with true in *. cbv iota in *.
  assert (HO : forall f off, (if is1 f then off + 4 <= length h else True)%nat ->
    (if is1 f then num_at m off 4 else 0) = if is1 f then num_at h off 4 else 0).
  { intros f off Ho. destruct (is1 f); [apply Hn; exact Ho|reflexivity]. }
  f_equal.
  - rewrite V1 at 1. apply HO. destruct (is1 (OBFE s)); [lia|exact I].
  - rewrite V2 at 1. apply HO. destruct (is1 (EVFE s)); [lia|exact I].
  - rewrite V3 at 1. apply HO. destruct (is1 (TMFE s)); [lia|exact I].
  - rewrite V4 at 1. cbn [num_at]. rewrite N.mul_0_r, N.add_0_r. apply Hbyte. lia.
  - rewrite V5 at 1. cbn [num_at]. rewrite N.mul_0_r, N.add_0_r. rewrite Hbyte by lia. f_equal. lia.
Qed.

Lemma header_len h s : header_layout h s -> (7 <= length h)%nat.
Proof. intros (_ & _ & _ & _ & _ & _ & _ & _ & _ & _ & H). lia. Qed.

Lemma records_loop dep b l : records_of b l -> bytes_ok b = true ->
  forall fuel, (length b <= fuel)%nat -> sds_loop (rds_decode_d (S dep)) fuel b = Ok l.
Proof.
  induction 1 as [|h body rest s l Hh Hrl Hs Hr IH]; intros Hb fuel Hf.
  - destruct fuel; reflexivity.
  - rewrite !bytes_ok_app in Hb. apply andb_prop in Hb. destruct Hb as [Hb0 Hb].
    apply andb_prop in Hb. destruct Hb as [Hb1 Hb2]. pose proof (header_len _ _ Hh) as H7.
    destruct fuel as [|fuel]; [rewrite app_length in Hf; lia|].
    cbn [sds_loop]. destruct (h ++ body ++ rest) eqn:Eh; [apply app_eq_nil in Eh; destruct Eh as [-> _]; cbn in H7; lia|].
    rewrite <- Eh in *. rewrite (record_decode _ h body rest s Hb0 Hh Hrl).
    + cbn [bind]. rewrite IH; [reflexivity|exact Hb2|]. rewrite !app_length in Hf. lia.
    + unfold rds_decode_d. apply subs_decode; [exact Hs|exact Hb1|lia].
    + intros ->. inversion Hs; reflexivity.
Qed.
Lemma records_decode b l : bytes_ok b = true -> records_of b l -> sds_decode b = Ok l.
Proof. intros Hb H. unfold sds_decode, sds_decode_d, depth_for. apply records_loop; [exact H|exact Hb|lia]. Qed.
Lemma subs_of_decode b l : bytes_ok b = true -> subs_of b l -> rds_decode b = Ok l.
Proof. intros Hb H. unfold rds_decode, rds_decode_d, depth_for. apply subs_decode; [exact H|exact Hb|lia]. Qed.

Lemma response_decode_of b p : bytes_ok b = true -> response_of b p -> ptr_decode b = Ok p.
Proof.
  intros Hb (lo & hi & pr & rest & -> & F1 & F2 & F3). unfold ptr_decode.
  change ([lo; hi; pr] ++ rest) with ([lo; hi] ++ pr :: rest).
  rewrite buffer_read_full by (try reflexivity; discriminate). cbn [bind read_byte].
  assert (Hl : le_dec [lo; hi] = RPID p) by (cbn [le_dec]; rewrite F1; lia). rewrite Hl, <- F2.
  rewrite bytes_ok_app in Hb. apply andb_prop in Hb. destruct Hb as [_ Hb].
  destruct p as [a c [l|]]; cbn [SDRS RPID PR] in *.
  - destruct F3 as [Hne Hr]. destruct rest as [|x r]; [congruence|]. rewrite (records_decode _ _ Hb Hr). reflexivity.
  - subst. reflexivity.
Qed.

Lemma frame_means_decode pt b f : bytes_ok b = true -> frame_means pt b f -> frame_decode pt b = Ok f.
Proof.
  intros Hb H. destruct f; cbn [frame_means] in H; destruct H as [-> H]; unfold frame_decode; cbn [N.eqb Pos.eqb PtAppdataPacket].
  - rewrite (records_decode b l Hb H). reflexivity.
  - rewrite (response_decode_of b p Hb H). reflexivity.
Qed.

(** ** No complete subrecord is refused *)
Ltac lens2 := cbn [field_size length app] in *; unfold flag_at, opt_sizes8, opt_size in *; rewrite ?is1_bit_str; lia.
Lemma opt_le_ok f cur tmp b off w : length tmp = w -> (0 < w)%nat -> (off + field_size (Num f w 0) <= length b)%nat ->
  exists v tmp', length tmp' = w /\ opt_le f cur tmp (skipn off b) = Ok (v, tmp', skipn (off + field_size (Num f w 0)) b).
Proof.
  intros Ht Hw H. unfold opt_le, field_size in *. destruct (is1 f).
  - exists (num_at b off w), (str_at b off w). split; [apply length_str_at; exact H|]. apply read_le_at; assumption.
  - exists cur, tmp. split; [exact Ht|]. rewrite Nat.add_0_r. reflexivity.
Qed.
Ltac ole2 w := match goal with
  | |- context [opt_le ?f ?c ?t (skipn ?o ?b)] =>
      let v := fresh "v" in let t' := fresh "t" in let L := fresh "L" in let R := fresh "R" in
      destruct (opt_le_ok f c t b o w) as (v & t' & L & R);
      [first [reflexivity | assumption] | lia | lens2 | rewrite R; clear R; cbn [bind]] end.
Ltac obyte2 := match goal with
  | |- context [opt_byte ?f 0 (skipn ?o ?b)] => rewrite (opt_byte_at f b o) by lens2; cbn [bind] end.
Ltac ofresh2 := match goal with
  | |- context [opt_fresh ?f [] ?w (skipn ?o ?b)] => rewrite (opt_fresh_at f b o w) by lens2; cbn [bind] end.

Lemma complete_ext b n : bytes_ok b = true -> sub_size 17 b = Some n -> (n <= length b)%nat -> exists e, ext_decode b = Ok e.
Proof.
  cbn [sub_size]. intros Hb Hn HL. assert (Hn' := f_equal (fun o => match o with Some x => x | None => O end) Hn). cbv beta iota in Hn'. subst n. clear Hn.
  unfold ext_decode. change b with (skipn 0 b) at 1. rewrite (read_byte_at b 0) by lia. cbn [bind]. flags Hb.
  ole2 2%nat. ole2 2%nat. ole2 2%nat. obyte2. ole2 2%nat. eexists. reflexivity.
Qed.
Lemma complete_term b n : bytes_ok b = true -> sub_size 1 b = Some n -> (n <= length b)%nat -> exists e, term_decode b = Ok e.
Proof.
  cbn [sub_size]. intros Hb Hn HL. assert (Hn' := f_equal (fun o => match o with Some x => x | None => O end) Hn). cbv beta iota in Hn'. subst n. clear Hn.
  unfold term_decode. change b with (skipn 0 b) at 1. rewrite (read_le_at _ b 0 4) by (try reflexivity; lia). cbn [bind Nat.add].
  rewrite (read_byte_at b 4) by lia. cbn [bind]. flags Hb.
  ofresh2. ofresh2. ofresh2. ofresh2. ofresh2. ofresh2. ofresh2. eexists. reflexivity.
Qed.
Lemma complete_counters b n : bytes_ok b = true -> sub_size 19 b = Some n -> (n <= length b)%nat -> exists e, counters_decode b = Ok e.
Proof.
  cbn [sub_size]. intros Hb Hn HL. assert (Hn' := f_equal (fun o => match o with Some x => x | None => O end) Hn). cbv beta iota in Hn'. subst n. clear Hn.
  unfold counters_decode. change b with (skipn 0 b) at 1. rewrite (read_byte_at b 0) by lia. cbn [bind].
  rewrite flags_low_first_at by exact Hb. unfold flags8_at. cbn [o1 o2 o3 o4 o5 o6 o7 o8].
  ole2 3%nat. ole2 3%nat. ole2 3%nat. ole2 3%nat. ole2 3%nat. ole2 3%nat. ole2 3%nat. ole2 3%nat. eexists. reflexivity.
Qed.
Lemma complete_ad b n : bytes_ok b = true -> sub_size 18 b = Some n -> (n <= length b)%nat -> exists e, ad_decode b = Ok e.
Proof.
  cbn [sub_size]. intros Hb Hn HL. assert (Hn' := f_equal (fun o => match o with Some x => x | None => O end) Hn). cbv beta iota in Hn'. subst n. clear Hn.
  unfold ad_decode. change b with (skipn 0 b) at 1. rewrite (read_byte_at b 0) by lia. cbn [bind].
  rewrite (read_byte_at b 1) by lia. cbn [bind]. rewrite (read_byte_at b 2) by lia. cbn [bind].
  rewrite !flags_low_first_at by exact Hb. unfold flags8_at. cbn [o1 o2 o3 o4 o5 o6 o7 o8].
  obyte2. obyte2. obyte2. obyte2. obyte2. obyte2. obyte2. obyte2.
  ole2 3%nat. ole2 3%nat. ole2 3%nat. ole2 3%nat. ole2 3%nat. ole2 3%nat. ole2 3%nat. ole2 3%nat. eexists. reflexivity.
Qed.
Lemma complete_pos b n : bytes_ok b = true -> sub_size 16 b = Some n -> (n <= length b)%nat -> exists e, pos_decode b = Ok e.
Proof.
  cbn [sub_size]. intros Hb Hn HL. assert (Hn' := f_equal (fun o => match o with Some x => x | None => O end) Hn). cbv beta iota in Hn'. subst n. clear Hn.
  unfold pos_decode. change b with (skipn 0 b) at 1. rle 4%nat. rle 4%nat. rle 4%nat. cbn [Nat.add]. rbyte. rle 2%nat. cbn [Nat.add].
  destruct (speed_word (num_at b 13 2)) as (P1 & _ & _); [apply (num_at_bound b Hb 2)|].
  rewrite P1. cbn [bind]. rbyte. rle 3%nat. cbn [Nat.add]. rbyte. rbyte. flags Hb.
  unfold opt_le, flag_at. rewrite is1_bit_str. unfold opt_size in HL. destruct (N.testbit (nth 12 b 0) 7); [|eexists; reflexivity].
  unfold read_le, reader_read. destruct (skipn 21 b) eqn:Es; [apply skipn_nil_len in Es; [destruct Es|lia]|].
  cbn [bind]. eexists. reflexivity.
Qed.
Lemma complete_decodes dep t b n : bytes_ok b = true -> sub_size t b = Some n -> (n <= length b)%nat ->
  exists d, sub_decode (S dep) t (blen b) b = Ok d.
Proof.
  intros Hb Hn HL.
  assert (HT : t = 1 \/ t = 5 \/ t = 9 \/ t = 16 \/ t = 17 \/ t = 18 \/ t = 19 \/ t = 21 \/ t = 24 \/ t = 25 \/ t = 27).
  { unfold sub_size in Hn. repeat match type of Hn with context [match ?x with _ => _ end] => destruct x end; try discriminate; auto 12. }
  destruct HT as [-> |[-> |[-> |[-> |[-> |[-> |[-> |[-> |[-> |[-> | -> ]]]]]]]]]]; cbn [sub_decode N.eqb Pos.eqb].
  - destruct (complete_term b n Hb Hn HL) as (e & ->). eexists. reflexivity.
  - assert (n = 5%nat) by (cbn [sub_size] in Hn; congruence). subst n.
    rewrite (disp_layout_decode b (mkDisp (nth 0 b 0) (num_at b 1 4) (skipn 5 b))); [eexists; reflexivity|]. repeat split. exact HL.
  - assert (n = 1%nat) by (cbn [sub_size] in Hn; congruence). subst n. destruct b; [cbn in HL; lia|eexists; reflexivity].
  - destruct (complete_pos b n Hb Hn HL) as (e & ->). eexists. reflexivity.
  - destruct (complete_ext b n Hb Hn HL) as (e & ->). eexists. reflexivity.
  - destruct (complete_ad b n Hb Hn HL) as (e & ->). eexists. reflexivity.
  - destruct (complete_counters b n Hb Hn HL) as (e & ->). eexists. reflexivity.
  - assert (n = 5%nat) by (cbn [sub_size] in Hn; congruence). subst n.
    rewrite (state_layout_decode b (mkState (nth 0 b 0) (nth 1 b 0) (nth 2 b 0) (nth 3 b 0) (flag_at b 4 2) (flag_at b 4 1) (flag_at b 4 0)) Hb);
      [eexists; reflexivity|]. repeat split. exact HL.
  - assert (n = 4%nat) by (cbn [sub_size] in Hn; congruence). subst n.
    rewrite (abs_an_layout_decode b (mkAbsAn (nth 0 b 0) (num_at b 1 3)) Hb); [eexists; reflexivity|]. repeat split. exact HL.
  - assert (n = 4%nat) by (cbn [sub_size] in Hn; congruence). subst n.
    rewrite (abs_cntr_layout_decode b (mkAbsCntr (nth 0 b 0) (num_at b 1 3))); [eexists; reflexivity|]. repeat split. exact HL.
  - assert (n = 7%nat) by (cbn [sub_size] in Hn; congruence). subst n.
    rewrite (liquid_layout_decode b (mkLiquid (flag_at b 0 6) (flag_at b 0 5 ++ flag_at b 0 4) (flag_at b 0 3) (nth 0 b 0 mod 8) (num_at b 1 2) (num_at b 3 4)) Hb);
      [eexists; reflexivity|]. repeat split. exact HL.
Qed.

End LayoutFacts.
