(** * DecWf: what the decoders produce is well formed. *)
From Coq Require Import Lia ZifyBool ZifyNat ZifyN.
From Verif Require Import GoBase Spec_Bits BaseFacts Float64 SubRecords Records Package
  Spec_Wf Spec_Rec SubFacts RecFacts DecFacts.

Section DecWf.
Context {E : go_env}.

Lemma read_byte_ok r x r' : read_byte r = Ok (x, r') -> bytes_ok r = true ->
  byte_ok x = true /\ bytes_ok r' = true.
Proof. intros H Hr. apply read_byte_inv in H. subst r. cbn in Hr. apply andb_true_iff in Hr. exact Hr. Qed.

Lemma reader_read_ok buf r x r' : reader_read buf r = Ok (x, r') ->
  bytes_ok buf = true -> bytes_ok r = true ->
  bytes_ok x = true /\ length x = length buf /\ bytes_ok r' = true.
Proof.
  intros H Hb Hr. apply reader_read_inv in H. destruct H as (-> & -> & _).
  split; [apply copy_into_ok; assumption|]. split; [apply length_copy_into|]. apply bytes_ok_skipn; exact Hr.
Qed.
Lemma buffer_read_ok buf r x r' : buffer_read buf r = Ok (x, r') ->
  bytes_ok buf = true -> bytes_ok r = true ->
  bytes_ok x = true /\ length x = length buf /\ bytes_ok r' = true.
Proof.
  intros H Hb Hr. apply buffer_read_inv in H. destruct H as (-> & ->).
  split; [apply copy_into_ok; assumption|]. split; [apply length_copy_into|]. apply bytes_ok_skipn; exact Hr.
Qed.

Lemma read_le_ok k tmp r v tmp' r' : read_le tmp r = Ok (v, tmp', r') ->
  bytes_ok tmp = true -> length tmp = k -> bytes_ok r = true ->
  v < 256 ^ N.of_nat k /\ bytes_ok tmp' = true /\ length tmp' = k /\ bytes_ok r' = true.
Proof.
  unfold read_le. intros H Ht Hk Hr. apply bind_ok in H. destruct H as ([x y] & H & Heq).
  injection Heq as <- <- <-. apply reader_read_ok in H; [|assumption|assumption].
  destruct H as (Hx & Hl & Hy). rewrite Hk in Hl. repeat split; try assumption.
  rewrite <- Hl. apply le_dec_bound; exact Hx.
Qed.

Lemma opt_le_ok k flag tmp r v tmp' r' : opt_le flag 0 tmp r = Ok (v, tmp', r') ->
  bits_ok 1 flag = true -> bytes_ok tmp = true -> length tmp = k -> bytes_ok r = true ->
  opt_num k flag v = true /\ bytes_ok tmp' = true /\ length tmp' = k /\ bytes_ok r' = true.
Proof.
  unfold opt_le, opt_num. intros H Hf Ht Hk Hr. rewrite Hf. destruct (is1 flag).
  - destruct (read_le_ok k _ _ _ _ _ H Ht Hk Hr) as (Hv & H1). cbn [andb]. split; [apply N.ltb_lt; exact Hv|exact H1].
  - injection H as <- <- <-. auto.
Qed.
Lemma opt_byte_ok flag r v r' : opt_byte flag 0 r = Ok (v, r') ->
  bits_ok 1 flag = true -> bytes_ok r = true ->
  opt_num 1 flag v = true /\ bytes_ok r' = true.
Proof.
  unfold opt_byte, opt_num. intros H Hf Hr. rewrite Hf. destruct (is1 flag).
  - destruct (read_byte_ok _ _ _ H Hr) as [Hv H1]. split; [exact Hv|exact H1].
  - injection H as <- <-. auto.
Qed.
Lemma opt_fresh_ok flag k r s r' : opt_fresh flag [] k r = Ok (s, r') ->
  bits_ok 1 flag = true -> bytes_ok r = true ->
  opt_bytes k flag s = true /\ opt_num k flag (le_dec s) = true /\ bytes_ok r' = true.
Proof.
  unfold opt_fresh, opt_bytes, opt_num. intros H Hf Hr. rewrite Hf. destruct (is1 flag).
  - apply reader_read_ok in H; [|apply bytes_ok_zeros|exact Hr]. destruct H as (Hs & Hl & Hr').
    rewrite length_zeros in Hl. rewrite Hs, Hl, Nat.eqb_refl. split; [reflexivity|]. split; [|exact Hr'].
    cbn [andb]. apply N.ltb_lt. rewrite <- Hl. apply le_dec_bound; exact Hs.
  - injection H as <- <-. auto.
Qed.
Lemma opt4_ok flag r v r' : opt4 flag r = Ok (v, r') ->
  bits_ok 1 flag = true -> bytes_ok r = true ->
  opt_num 4 flag v = true /\ bytes_ok r' = true.
Proof.
  unfold opt4, opt_num. intros H Hf Hr. rewrite Hf. destruct (is1 flag).
  - apply bind_ok in H. destruct H as ([x y] & H & Heq). injection Heq as <- <-.
    apply reader_read_ok in H; [|reflexivity|exact Hr]. destruct H as (Hs & Hl & Hr').
    cbn [andb]. split; [|exact Hr']. apply N.ltb_lt. change 4%nat with (length (zeros 4)). rewrite <- Hl.
    apply le_dec_bound; exact Hs.
  - injection H as <- <-. auto.
Qed.

(** the eight digits of a byte *)
Definition fbits_check (v : N) : bool :=
  forallb (fun i => bits_ok 1 (fbit i (fmt_b 8 v))) [0;1;2;3;4;5;6;7]%nat
  && bits_ok 2 (substr 3 5 (fmt_b 8 v)) && bits_ok 2 (substr 2 4 (fmt_b 8 v))
  && bits_ok 2 (substr 0 2 (fmt_b 8 v)) && bits_ok 2 (skipn 6 (fmt_b 8 v))
  && bits_ok 3 (skipn 5 (fmt_b 8 v)).
Lemma fbits v : byte_ok v = true -> fbits_check v = true.
Proof. intros H. apply byte_ok_lt in H. revert v H. apply byte_sweep. vm_compute. reflexivity. Qed.
Lemma fbit_ok i v : byte_ok v = true -> (i < 8)%nat -> bits_ok 1 (fbit i (fmt_b 8 v)) = true.
Proof.
  intros Hv Hi. apply fbits in Hv. unfold fbits_check in Hv. rewrite !andb_true_iff in Hv.
  destruct Hv as [[[[[H _] _] _] _] _]. rewrite forallb_forall in H. apply H. simpl. lia.
Qed.
Lemma substr35_ok v : byte_ok v = true -> bits_ok 2 (substr 3 5 (fmt_b 8 v)) = true.
Proof. intros Hv. apply fbits in Hv. unfold fbits_check in Hv. rewrite !andb_true_iff in Hv. tauto. Qed.
Lemma substr24_ok v : byte_ok v = true -> bits_ok 2 (substr 2 4 (fmt_b 8 v)) = true.
Proof. intros Hv. apply fbits in Hv. unfold fbits_check in Hv. rewrite !andb_true_iff in Hv. tauto. Qed.
Lemma substr02_ok v : byte_ok v = true -> bits_ok 2 (substr 0 2 (fmt_b 8 v)) = true.
Proof. intros Hv. apply fbits in Hv. unfold fbits_check in Hv. rewrite !andb_true_iff in Hv. tauto. Qed.
Lemma skipn6_ok v : byte_ok v = true -> bits_ok 2 (skipn 6 (fmt_b 8 v)) = true.
Proof. intros Hv. apply fbits in Hv. unfold fbits_check in Hv. rewrite !andb_true_iff in Hv. tauto. Qed.

Ltac dbind H :=
  let a := fresh "a" in let Ha := fresh "Ha" in
  apply bind_ok in H; destruct H as (a & Ha & H);
  repeat (match type of a with (_ * _)%type => destruct a as [a ?] end);
  cbv zeta in H; cbv beta iota in H.

(** propagate well-formedness of the unread bytes *)
Ltac fbok := first [apply fbit_ok; [assumption|lia] | assumption].
Ltac prop1 :=
  match goal with
  | H : read_byte ?r = Ok _, Hr : bytes_ok ?r = true |- _ =>
      apply read_byte_ok in H; [destruct H|exact Hr]
  | H : reader_read (zeros ?n) ?r = Ok _, Hr : bytes_ok ?r = true |- _ =>
      apply reader_read_ok in H; [destruct H as (? & ? & ?)|apply bytes_ok_zeros|exact Hr]
  | H : reader_read ?t ?r = Ok _, Hr : bytes_ok ?r = true |- _ =>
      apply reader_read_ok in H; [destruct H as (? & ? & ?)|assumption|exact Hr]
  | H : buffer_read (zeros ?n) ?r = Ok _, Hr : bytes_ok ?r = true |- _ =>
      apply buffer_read_ok in H; [destruct H as (? & ? & ?)|apply bytes_ok_zeros|exact Hr]
  | H : read_le (zeros ?n) ?r = Ok _, Hr : bytes_ok ?r = true |- _ =>
      apply (read_le_ok n) in H; [destruct H as (? & ? & ? & ?)|apply bytes_ok_zeros|apply length_zeros|exact Hr]
  | H : read_le ?t ?r = Ok _, Hr : bytes_ok ?r = true, Hl : length ?t = ?n |- _ =>
      apply (read_le_ok n) in H; [destruct H as (? & ? & ? & ?)|assumption|exact Hl|exact Hr]
  | H : opt_le _ 0 (zeros ?n) ?r = Ok _, Hr : bytes_ok ?r = true |- _ =>
      apply (opt_le_ok n) in H; [destruct H as (? & ? & ? & ?)|fbok|apply bytes_ok_zeros|apply length_zeros|exact Hr]
  | H : opt_le _ 0 ?t ?r = Ok _, Hr : bytes_ok ?r = true, Hl : length ?t = ?n |- _ =>
      apply (opt_le_ok n) in H; [destruct H as (? & ? & ? & ?)|fbok|assumption|exact Hl|exact Hr]
  | H : opt_byte _ 0 ?r = Ok _, Hr : bytes_ok ?r = true |- _ =>
      apply opt_byte_ok in H; [destruct H|fbok|exact Hr]
  | H : opt_fresh _ [] ?k ?r = Ok _, Hr : bytes_ok ?r = true |- _ =>
      apply (opt_fresh_ok _ k) in H; [destruct H as (? & ? & ?)|fbok|exact Hr]
  | H : opt4 _ ?r = Ok _, Hr : bytes_ok ?r = true |- _ =>
      apply opt4_ok in H; [destruct H|fbok|exact Hr]
  end.
Ltac finish :=
  rewrite ?andb_true_iff; repeat split;
  first [assumption | fbok | apply substr24_ok; assumption | apply substr35_ok; assumption
        | apply N.ltb_lt; assumption | idtac].

Lemma ext_dec_wf b e : bytes_ok b = true -> ext_decode b = Ok e -> wf_ext e = true.
Proof.
  intros Hb H. unfold ext_decode in H. repeat (dbind H; prop1). apply Ok_inj in H; subst e.
  unfold wf_ext. cbn. finish.
Qed.
Lemma state_dec_wf b e : bytes_ok b = true -> state_decode b = Ok e -> wf_state e = true.
Proof.
  intros Hb H. unfold state_decode in H. repeat (dbind H; prop1). apply Ok_inj in H; subst e.
  unfold wf_state. cbn [State MPSV BBV IBV NMS IBU BBU]. finish.
Qed.
Lemma abs_cntr_dec_wf b e : bytes_ok b = true -> abs_cntr_decode b = Ok e -> wf_abs_cntr e = true.
Proof.
  intros Hb H. unfold abs_cntr_decode in H. repeat (dbind H; prop1). apply Ok_inj in H; subst e.
  unfold wf_abs_cntr. cbn [CounterNumber CounterValue]. finish.
Qed.
Lemma abs_an_dec_wf b e : bytes_ok b = true -> abs_an_decode b = Ok e -> wf_abs_an e = true.
Proof.
  intros Hb H. unfold abs_an_decode in H. destruct (blen b <? 4) eqn:Hl; [discriminate|]. apply Ok_inj in H; subst e.
  unfold wf_abs_an. cbn [SensorNumber Value]. rewrite andb_true_iff. split.
  - apply byte_ok_lt. apply bytes_ok_nth; exact Hb.
  - apply N.ltb_lt. unfold blen in Hl.
    pose proof (le_dec_bound (firstn 4 b) (bytes_ok_firstn _ _ Hb)) as Hbd.
    rewrite firstn_length_le in Hbd by lia. rewrite N.shiftr_div_pow2.
    apply N.div_lt_upper_bound; [discriminate|]. exact Hbd.
Qed.
Lemma disp_dec_wf b e : bytes_ok b = true -> disp_decode b = Ok e -> wf_disp e = true.
Proof.
  intros Hb H. unfold disp_decode in H. repeat (dbind H; prop1). apply Ok_inj in H; subst e.
  unfold wf_disp. cbn [DT DID DSCR]. finish. apply N.ltb_lt.
  match goal with Hl : length ?x = length (zeros 4) |- le_dec ?x < _ =>
    pose proof (le_dec_bound x ltac:(assumption)) as HH; rewrite Hl in HH; exact HH end.
Qed.
Lemma read_string_ok r s r' : read_string 0 r = Ok (s, r') -> bytes_ok r = true ->
  bytes_ok s = true /\ nul_free s = true /\ bytes_ok r' = true.
Proof.
  revert s r'. induction r as [|c r IH]; intros s r' H Hr; [discriminate|].
  cbn [read_string] in H. cbn in Hr. apply andb_true_iff in Hr. destruct Hr as [Hc Hr].
  destruct (c =? 0) eqn:H0.
  - injection H as <- <-. auto.
  - apply bind_ok in H. destruct H as ([s2 r2] & H & Heq). injection Heq as <- <-.
    destruct (IH _ _ H Hr) as (H1 & H2 & H3). rewrite bytes_ok_cons, Hc, H1. cbn [nul_free forallb]. rewrite H0. auto.
Qed.
Lemma auth_dec_wf b e : bytes_ok b = true -> auth_decode b = Ok e -> wf_auth e = true.
Proof.
  intros Hb H. unfold auth_decode in H.
  apply bind_ok in H. destruct H as ([u r] & H1 & H). apply read_string_ok in H1; [|exact Hb].
  destruct H1 as (? & ? & Hr).
  apply bind_ok in H. destruct H as ([p r2] & H2 & H). apply read_string_ok in H2; [|exact Hr].
  destruct H2 as (? & ? & Hr2).
  destruct r2 as [|c r2].
  - apply Ok_inj in H; subst e. unfold wf_auth. cbn [UNM UPSW SSQ]. finish; reflexivity.
  - apply bind_ok in H. destruct H as ([s r3] & Hs3 & H). apply read_string_ok in Hs3; [|exact Hr2].
    destruct Hs3 as (? & ? & Hr3). apply Ok_inj in H; subst e. unfold wf_auth. cbn [UNM UPSW SSQ]. finish.
Qed.
Lemma term_dec_wf b e : bytes_ok b = true -> term_decode b = Ok e -> wf_term e = true.
Proof.
  intros Hb H. unfold term_decode in H. repeat (dbind H; prop1). apply Ok_inj in H; subst e.
  unfold wf_term. cbn [TID MNE BSE NIDE SSRA LNGCE IMSIE IMEIE HDIDE HDID IMEI IMSI LNGC NID BS MSISDN]. finish.
Qed.

Lemma flags_low_ok v : byte_ok v = true ->
  bits_ok 1 (o1 (flags_low_first (fmt_b 8 v))) = true /\ bits_ok 1 (o2 (flags_low_first (fmt_b 8 v))) = true /\
  bits_ok 1 (o3 (flags_low_first (fmt_b 8 v))) = true /\ bits_ok 1 (o4 (flags_low_first (fmt_b 8 v))) = true /\
  bits_ok 1 (o5 (flags_low_first (fmt_b 8 v))) = true /\ bits_ok 1 (o6 (flags_low_first (fmt_b 8 v))) = true /\
  bits_ok 1 (o7 (flags_low_first (fmt_b 8 v))) = true /\ bits_ok 1 (o8 (flags_low_first (fmt_b 8 v))) = true.
Proof. intros H. unfold flags_low_first. cbn [o1 o2 o3 o4 o5 o6 o7 o8]. repeat split; apply fbit_ok; auto; lia. Qed.

Lemma opt_le_ok_cur k flag cur tmp r v tmp' r' : opt_le flag cur tmp r = Ok (v, tmp', r') ->
  cur < 256 ^ N.of_nat k -> bytes_ok tmp = true -> length tmp = k -> bytes_ok r = true ->
  v < 256 ^ N.of_nat k /\ bytes_ok tmp' = true /\ length tmp' = k /\ bytes_ok r' = true
  /\ (is1 flag = false -> v = cur).
Proof.
  unfold opt_le. intros H Hc Ht Hk Hr. destruct (is1 flag).
  - destruct (read_le_ok k _ _ _ _ _ H Ht Hk Hr) as (Hv & H1 & H2 & H3). repeat split; try assumption. discriminate.
  - injection H as <- <- <-. auto.
Qed.

(** Counters: all values below 2^24; the second is always 0. *)
Definition dec_counters (e : counters) : Prop :=
  (exists v, byte_ok v = true /\ CFE e = flags_low_first (fmt_b 8 v)) /\
  o1 (CN e) < 2 ^ 24 /\ (is1 (o1 (CFE e)) = false -> is1 (o2 (CFE e)) = false -> o1 (CN e) = 0) /\
  o2 (CN e) = 0 /\
  opt_num 3 (o3 (CFE e)) (o3 (CN e)) = true /\ opt_num 3 (o4 (CFE e)) (o4 (CN e)) = true /\
  opt_num 3 (o5 (CFE e)) (o5 (CN e)) = true /\ opt_num 3 (o6 (CFE e)) (o6 (CN e)) = true /\
  opt_num 3 (o7 (CFE e)) (o7 (CN e)) = true /\ opt_num 3 (o8 (CFE e)) (o8 (CN e)) = true.

Lemma opt_num_lt k f v : opt_num k f v = true -> v < 256 ^ N.of_nat k.
Proof.
  unfold opt_num. rewrite andb_true_iff. intros [_ H]. destruct (is1 f).
  - apply N.ltb_lt; exact H.
  - apply N.eqb_eq in H. subst. apply N.neq_0_lt_0. apply N.pow_nonzero. discriminate.
Qed.

Lemma counters_dec_wf b e : bytes_ok b = true -> counters_decode b = Ok e -> dec_counters e.
Proof.
  intros Hb H. unfold counters_decode in H. dbind H. prop1.
  match goal with Hf : byte_ok a = true |- _ => rename Hf into Hflag; destruct (flags_low_ok a Hflag) as (F1 & F2 & F3 & F4 & F5 & F6 & F7 & F8) end.
  set (f := flags_low_first (fmt_b 8 a)) in *.
  dbind H. prop1. dbind H.
  match goal with Hx : opt_le (o2 f) _ _ _ = Ok _, H1 : opt_num 3 (o1 f) _ = true |- _ =>
    pose proof (opt_num_lt _ _ _ H1) as Hlt; apply (opt_le_ok_cur 3) in Hx; try assumption;
    destruct Hx as (HX1 & HX2 & HX3 & HX4 & HX5) end.
  repeat (dbind H; prop1). apply Ok_inj in H; subst e. unfold dec_counters.
  cbn [CFE CN o1 o2 o3 o4 o5 o6 o7 o8]. split; [exists a; auto|].
  split; [assumption|]. split.
  - intros Hf1 Hf2. rewrite (HX5 Hf2).
    match goal with H1 : opt_num 3 (o1 f) _ = true |- _ => unfold opt_num in H1;
      apply andb_true_iff in H1; destruct H1 as [_ H1]; rewrite Hf1 in H1; apply N.eqb_eq; exact H1 end.
  - repeat split; assumption.
Qed.

Definition dec_ad (e : ad_sensors) : Prop :=
  (exists v, byte_ok v = true /\ DIOE e = flags_low_first (fmt_b 8 v)) /\
  (exists v, byte_ok v = true /\ ASFE e = flags_low_first (fmt_b 8 v)) /\ full_ad e = true.

Lemma ad_dec_wf b e : bytes_ok b = true -> ad_decode b = Ok e -> dec_ad e.
Proof.
  intros Hb H. unfold ad_decode in H. dbind H. prop1.
  match goal with Hf : byte_ok a = true |- _ => destruct (flags_low_ok a Hf) as (F1 & F2 & F3 & F4 & F5 & F6 & F7 & F8) end.
  set (f := flags_low_first (fmt_b 8 a)) in *.
  dbind H. prop1. dbind H. prop1.
  match goal with Hf : byte_ok ?x = true, H : context [flags_low_first (fmt_b 8 ?x)] |- _ => 
    destruct (flags_low_ok x Hf) as (G1 & G2 & G3 & G4 & G5 & G6 & G7 & G8); set (g := flags_low_first (fmt_b 8 x)) in * end.
  repeat (dbind H; prop1). apply Ok_inj in H; subst e. unfold dec_ad, full_ad, all8.
  cbn [DIOE DOUT ASFE ADIO ANS o1 o2 o3 o4 o5 o6 o7 o8].
  split; [exists a; auto|]. split; [eexists; split; [|reflexivity]; assumption|].
  finish.
Qed.

(** Liquid level sensor *)
Definition liq_check (v : N) : bool :=
  match parse8 (skipn 5 (fmt_b 8 v)) with Ok n => n <? 8 | _ => false end.
Lemma liquid_dec_wf b e : bytes_ok b = true -> liquid_decode b = Ok e -> wf_liquid e = true.
Proof.
  intros Hb H. unfold liquid_decode in H. dbind H. prop1. dbind H.
  repeat (dbind H; prop1). apply Ok_inj in H; subst e.
  assert (liq_check a = true) as Hc.
  { match goal with Hf : byte_ok a = true |- _ => apply byte_ok_lt in Hf; clear - Hf; revert a Hf end.
    apply byte_sweep. vm_compute. reflexivity. }
  unfold liq_check in Hc. match goal with Hp : parse8 _ = Ok _ |- _ => rewrite Hp in Hc end.
  unfold wf_liquid. cbn [LLSEF LLSVU RDF LLSN MADDR LLSD]. finish.
Qed.

(** Position: everything but the altitude is as expected; the altitude may have
    picked up a fourth byte. *)
Definition pos_alt0 (e : pos_data) : pos_data :=
  {| NavigationTime := NavigationTime e; Latitude := Latitude e; Longitude := Longitude e;
     ALTE := ALTE e; LOHS := LOHS e; LAHS := LAHS e; MV := MV e; BB := BB e; CS := CS e;
     FIX := FIX e; VLD := VLD e; DirectionHighestBit := DirectionHighestBit e;
     AltitudeSign := AltitudeSign e; Speed := Speed e; Direction := Direction e;
     Odometer := Odometer e; DigitalInputs := DigitalInputs e; Source := Source e;
     Altitude := 0 |}.

Definition spd_check (w : N) : bool :=
  res_N_eqb (parse16 (skipn 2 (fmt_b 16 w))) (w mod 16384).
Lemma spd_sweep : forallb spd_check (upto (N.to_nat 65536) 0) = true.
Proof. vm_compute. reflexivity. Qed.
Lemma spd_parse w : w < 65536 -> parse16 (skipn 2 (fmt_b 16 w)) = Ok (w mod 16384).
Proof.
  intros H. pose proof (upto_sweep spd_check 65536 spd_sweep w H) as Hc.
  unfold spd_check in Hc. destruct (parse16 (skipn 2 (fmt_b 16 w))); try discriminate.
  cbn in Hc. apply N.eqb_eq in Hc. congruence.
Qed.

Lemma land1_lt x : N.land x 1 < 2.
Proof. change 1 with (N.ones 1). rewrite N.land_ones. apply N.mod_upper_bound. discriminate. Qed.

Definition dirh_check (d : N) : bool :=
  (N.lor d (u8 (N.shiftl 1 7)) <? 256) && (128 <=? N.lor d (u8 (N.shiftl 1 7)))
  && (N.lor d (u8 (N.shiftl 0 7)) <? 256).

Lemma pos_dec_wf b e : bytes_ok b = true -> pos_decode b = Ok e ->
  wf_pos (pos_alt0 e) = true /\ opt_num 4 (ALTE e) (Altitude e) = true /\
  (exists v, v < 2 ^ 32 /\ NavigationTime e = time_decode v) /\
  (exists v, v < 2 ^ 32 /\ Latitude e = coord_decode 90 v) /\
  (exists v, v < 2 ^ 32 /\ Longitude e = coord_decode 180 v).
Proof.
  intros Hb H. unfold pos_decode in H. do 5 (dbind H; prop1). dbind H. repeat (dbind H; prop1). apply Ok_inj in H; subst e.
  unfold wf_pos, pos_alt0.
  cbn [NavigationTime Latitude Longitude ALTE LOHS LAHS MV BB CS FIX VLD DirectionHighestBit AltitudeSign Speed
    Direction Odometer DigitalInputs Source Altitude].
  match goal with Hp : parse16 (skipn 2 (fmt_b 16 ?w)) = Ok _ |- _ => rewrite (spd_parse w) in Hp by assumption; injection Hp as <- end.
  split; [|split; [assumption|split; [|split]; eexists; (split; [|reflexivity]); assumption]].
  match goal with |- context [N.land (N.shiftr ?w 15) 1] => set (dh := N.land (N.shiftr w 15) 1);
    assert (dh < 2) as Hdh by apply land1_lt; clearbody dh end.
  match goal with |- context [N.lor ?x _ <? 256] => assert (dirh_check x = true) as Hd;
    [match goal with Hx : byte_ok x = true |- _ => apply byte_ok_lt in Hx; clear - Hx; revert Hx; generalize x; apply byte_sweep; vm_compute; reflexivity end|] end.
  unfold dirh_check in Hd. rewrite !andb_true_iff in Hd. destruct Hd as [[Hd1 Hd2] Hd3].
  assert (dh = 0 \/ dh = 1) as Hdc by (clear - Hdh; lia).
  finish.
  - apply N.ltb_lt. apply land1_lt.
  - apply N.leb_le. match goal with |- ?w mod 16384 / 10 <= 1638 => pose proof (N.mod_upper_bound w 16384 ltac:(discriminate)) end.
    apply N.lt_succ_r. apply N.div_lt_upper_bound; [discriminate|]. eapply N.lt_trans; [eassumption|reflexivity].
  - destruct Hdc as [-> | ->]; assumption.
  - destruct Hdc as [-> | ->]; [reflexivity|assumption].
  - unfold opt_num. rewrite fbit_ok by (assumption || lia). cbn [andb]. destruct (is1 _); reflexivity.
Qed.

End DecWf.
