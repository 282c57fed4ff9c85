(** * TruncFacts: what the decoders accept of a truncated subrecord; the nesting
    bound is irrelevant; missing record bytes read as zeros. *)
From Coq Require Import Lia ZifyBool ZifyNat ZifyN.
From Verif Require Import GoBase Spec_Bits BaseFacts Float64 SubRecords Records Spec_Wf Spec_Rec SubFacts
  RecFacts DecFacts DecWf DecWf2.

Section TruncFacts.
Context {E : go_env}.

(** [track n0 s k r]: the decoder has asked for [s] of the [n0] bytes, at most
    [k] more than there were, and [r] is what is left. *)
Definition track (n0 s k : nat) (r : bytes) : Prop := (length r = n0 - s)%nat /\ (s <= n0 + k)%nat.

Lemma track_byte n0 s k r x r' : read_byte r = Ok (x, r') -> track n0 s k r -> track n0 (S s) 0 r'.
Proof. intros H [Hl Hs]. apply read_byte_inv in H. subst r. cbn [length] in Hl. split; lia. Qed.
Lemma track_reader n0 s k buf r x r' : reader_read buf r = Ok (x, r') -> track n0 s k r ->
  track n0 (s + length buf) (length buf - 1) r' /\ length x = length buf.
Proof.
  intros H [Hl Hs]. apply reader_read_inv in H. destruct H as (-> & -> & Hn).
  assert (0 < length r)%nat by (destruct r; [contradiction|cbn; lia]).
  unfold track. rewrite skipn_length, length_copy_into. repeat split; lia.
Qed.
Lemma track_le n0 s k tmp r v tmp' r' : read_le tmp r = Ok (v, tmp', r') -> track n0 s k r ->
  track n0 (s + length tmp) (length tmp - 1) r' /\ length tmp' = length tmp.
Proof.
  unfold read_le. intros H T. apply bind_ok in H. destruct H as ([x y] & Hr & He).
  apply Ok_inj in He. injection He as <- <- <-. eapply track_reader; eassumption.
Qed.
Lemma track_opt_le n0 s k flag cur tmp r v tmp' r' : opt_le flag cur tmp r = Ok (v, tmp', r') ->
  (length tmp - 1 <= k)%nat -> track n0 s k r ->
  track n0 (s + (if is1 flag then length tmp else 0)) k r' /\ length tmp' = length tmp.
Proof.
  unfold opt_le. intros H Hk T. destruct (is1 flag).
  - destruct (track_le _ _ _ _ _ _ _ _ H T) as [[A B] C]. repeat split; lia.
  - apply Ok_inj in H. injection H as <- <- <-. rewrite Nat.add_0_r. split; [exact T|reflexivity].
Qed.
Lemma track_opt_byte n0 s k flag cur r v r' : opt_byte flag cur r = Ok (v, r') -> track n0 s k r ->
  track n0 (s + (if is1 flag then 1 else 0)) k r'.
Proof.
  unfold opt_byte. intros H T. destruct (is1 flag).
  - destruct (track_byte _ _ _ _ _ _ H T) as [A B]. split; lia.
  - apply Ok_inj in H. injection H as <- <-. rewrite Nat.add_0_r. exact T.
Qed.
Lemma track_opt_fresh n0 s k flag cur w r v r' : opt_fresh flag cur w r = Ok (v, r') ->
  (w - 1 <= k)%nat -> track n0 s k r ->
  track n0 (s + (if is1 flag then w else 0)) k r'.
Proof.
  unfold opt_fresh. intros H Hk T. destruct (is1 flag).
  - destruct (track_reader _ _ _ _ _ _ _ H T) as [[A B] C]. rewrite length_zeros in *. split; lia.
  - apply Ok_inj in H. injection H as <- <-. rewrite Nat.add_0_r. exact T.
Qed.
Lemma track_start b k : track (length b) 0 k b.
Proof. split; lia. Qed.
Lemma track_weak n0 s k k' r : (k <= k')%nat -> track n0 s k r -> track n0 s k' r.
Proof. intros H [A B]. split; lia. Qed.
Lemma length_opt_w f b : length (opt_w f b) = if is1 f then length b else 0%nat.
Proof. unfold opt_w. destruct (is1 f); reflexivity. Qed.

Ltac lens := rewrite ?app_length, ?length_opt_w, ?length_le_enc; cbn [length].

Lemma ext_trunc b e b' : ext_decode b = Ok e -> ext_encode e = Ok b' -> (length b' <= length b + 1)%nat.
Proof.
  unfold ext_decode. intros H He. pose proof (track_start b 1) as T.
  apply bind_ok in H. destruct H as ([fl r0] & R & H). apply (track_byte _ _ _ _ _ _ R) in T. clear R.
  apply (track_weak _ _ 0 1) in T; [|lia]. cbv zeta in H.
  apply bind_ok in H. destruct H as ([[v1 t1] r1] & R & H).
  apply (track_opt_le (length b) 1 1) in R; [destruct R as [T1 L1]|rewrite ?length_zeros; lia|assumption].
  apply bind_ok in H. destruct H as ([[v2 t2] r2] & R & H).
  eapply track_opt_le in R; [destruct R as [T2 L2]| |exact T1]; [|rewrite L1, length_zeros; lia].
  apply bind_ok in H. destruct H as ([[v3 t3] r3] & R & H).
  eapply track_opt_le in R; [destruct R as [T3 L3]| |exact T2]; [|rewrite L2, L1, length_zeros; lia].
  apply bind_ok in H. destruct H as ([v4 r4] & R & H).
  eapply track_opt_byte in R; [|exact T3]. rename R into T4.
  apply bind_ok in H. destruct H as ([[v5 t5] r5] & R & H).
  eapply track_opt_le in R; [destruct R as [T5 L5]| |exact T4]; [|rewrite L3, L2, L1, length_zeros; lia].
  apply Ok_inj in H. subst e. unfold ext_encode in He. cbn [VFE HFE PFE SFE NSFE] in He.
  apply bind_ok in He. destruct He as (fl' & _ & He). apply Ok_inj in He. subst b'.
  destruct T5 as [_ T5]. rewrite ?L3, ?L2, ?L1, ?length_zeros in T5. lens. lia.
Qed.

Lemma counters_trunc b e b' : counters_decode b = Ok e -> counters_encode e = Ok b' -> (length b' <= length b + 2)%nat.
Proof.
  unfold counters_decode. intros H He. pose proof (track_start b 2) as T.
  apply bind_ok in H. destruct H as ([fl r0] & R & H). apply (track_byte _ _ _ _ _ _ R) in T. clear R.
  apply (track_weak _ _ 0 2) in T; [|lia]. cbv zeta in H.
  assert (Z3 : length (zeros 3) = 3%nat) by reflexivity.
  set (tmp0 := zeros 3) in *. clearbody tmp0.
  do 8 (
    let v := fresh "v" in let t := fresh "t" in let r := fresh "r" in let R := fresh "R" in
    apply bind_ok in H; destruct H as ([[v t] r] & R & H);
    eapply track_opt_le in R; [| |exact T]; [|rewrite Z3; lia];
    rewrite Z3 in R; clear T Z3; destruct R as [T Z3]).
  apply Ok_inj in H. subst e. unfold counters_encode, write_opt3 in He. cbn [CFE CN] in He.
  apply bind_ok in He. destruct He as (fl' & _ & He). apply Ok_inj in He. subst b'.
  destruct T as [_ T]. lens. lia.
Qed.

Lemma ad_trunc b e b' : ad_decode b = Ok e -> ad_encode e = Ok b' -> (length b' <= length b + 2)%nat.
Proof.
  unfold ad_decode. intros H He. pose proof (track_start b 2) as T.
  apply bind_ok in H. destruct H as ([fl r0] & R & H). apply (track_byte _ _ _ _ _ _ R) in T. clear R. cbv zeta in H.
  apply bind_ok in H. destruct H as ([dout r1] & R & H). apply (track_byte _ _ _ _ _ _ R) in T. clear R.
  apply bind_ok in H. destruct H as ([fl2 r2] & R & H). apply (track_byte _ _ _ _ _ _ R) in T. clear R. cbv zeta in H.
  apply (track_weak _ _ 0 2) in T; [|lia].
  do 8 (
    let v := fresh "v" in let r := fresh "r" in let R := fresh "R" in
    apply bind_ok in H; destruct H as ([v r] & R & H);
    eapply track_opt_byte in R; [|exact T]; clear T; rename R into T).
  assert (Z3 : length (zeros 3) = 3%nat) by reflexivity.
  set (tmp0 := zeros 3) in *. clearbody tmp0.
  do 8 (
    let v := fresh "v" in let t := fresh "t" in let r := fresh "r" in let R := fresh "R" in
    apply bind_ok in H; destruct H as ([[v t] r] & R & H);
    eapply track_opt_le in R; [| |exact T]; [|rewrite Z3; lia];
    rewrite Z3 in R; clear T Z3; destruct R as [T Z3]).
  apply Ok_inj in H. subst e. unfold ad_encode, write_opt3 in He. cbn [DIOE ASFE DOUT ADIO ANS] in He.
  apply bind_ok in He. destruct He as (fl' & _ & He). apply bind_ok in He. destruct He as (fl2' & _ & He).
  apply Ok_inj in He. subst b'.
  destruct T as [_ T]. lens. lia.
Qed.

Lemma opt_fresh_len flag k r s r' : opt_fresh flag [] k r = Ok (s, r') ->
  length s = if is1 flag then k else 0%nat.
Proof.
  unfold opt_fresh. intros H. destruct (is1 flag).
  - apply reader_read_inv in H. destruct H as (-> & _). rewrite length_copy_into, length_zeros. reflexivity.
  - apply Ok_inj in H. injection H as <- _. reflexivity.
Qed.

Lemma length_pad k s : length (pad_to k s) = Nat.max k (length s).
Proof. unfold pad_to. rewrite app_length, length_zeros. lia. Qed.

Lemma term_trunc b e b' : term_decode b = Ok e -> term_encode e = Ok b' -> (length b' <= length b + 15)%nat.
Proof.
  unfold term_decode. intros H He. pose proof (track_start b 15) as T.
  apply bind_ok in H. destruct H as ([[tid tmp] r0] & R & H).
  apply (track_le _ _ _ _ _ _ _ _ R) in T. destruct T as [T _]. clear R. rewrite length_zeros in T.
  apply bind_ok in H. destruct H as ([fl r1] & R & H). apply (track_byte _ _ _ _ _ _ R) in T. clear R. cbv zeta in H.
  apply (track_weak _ _ 0 15) in T; [|lia].
  do 7 (
    let v := fresh "v" in let r := fresh "r" in let R := fresh "R" in let L := fresh "L" in
    apply bind_ok in H; destruct H as ([v r] & R & H);
    pose proof (opt_fresh_len _ _ _ _ _ R) as L;
    eapply track_opt_fresh in R; [| |exact T]; [|lia]; clear T; rename R into T).
  apply Ok_inj in H. subst e. unfold term_encode in He.
  cbn [TID HDIDE HDID IMEIE IMEI IMSIE IMSI LNGCE LNGC NIDE NID BSE BS MNE MSISDN] in He.
  apply Ok_inj in He. subst b'. destruct T as [_ T].
  rewrite ?app_length, ?length_opt_w, ?length_le_enc, ?length_pad. cbn [length].
  repeat match goal with |- context [if ?x then _ else _] => destruct x end; lia.
Qed.

Lemma pos_trunc b e b' : pos_decode b = Ok e -> pos_encode e = Ok b' -> (length b' <= length b + 2)%nat.
Proof.
  unfold pos_decode. intros H He. pose proof (track_start b 0) as T.
  apply bind_ok in H. destruct H as ([[v1 t1] r1] & R & H). apply (track_le _ _ _ _ _ _ _ _ R) in T.
  destruct T as [T L1]. clear R. rewrite length_zeros in T, L1.
  apply bind_ok in H. destruct H as ([[v2 t2] r2] & R & H). apply (track_le _ _ _ _ _ _ _ _ R) in T.
  destruct T as [T L2]. clear R. rewrite L1 in T, L2.
  apply bind_ok in H. destruct H as ([[v3 t3] r3] & R & H). apply (track_le _ _ _ _ _ _ _ _ R) in T.
  destruct T as [T _]. clear R. rewrite L2 in T.
  apply bind_ok in H. destruct H as ([fl r4] & R & H). apply (track_byte _ _ _ _ _ _ R) in T. clear R. cbv zeta in H.
  apply bind_ok in H. destruct H as ([[spd ?] ?] & R & H). apply (track_le _ _ _ _ _ _ _ _ R) in T. destruct T as [T _]. clear R.
  apply bind_ok in H. destruct H as (sp & _ & H).
  apply bind_ok in H. destruct H as ([dir ?] & R & H). apply (track_byte _ _ _ _ _ _ R) in T. clear R.
  apply bind_ok in H. destruct H as ([[odm ?] ?] & R & H). apply (track_le _ _ _ _ _ _ _ _ R) in T. destruct T as [T _]. clear R.
  apply bind_ok in H. destruct H as ([din ?] & R & H). apply (track_byte _ _ _ _ _ _ R) in T. clear R.
  apply bind_ok in H. destruct H as ([src ?] & R & H). apply (track_byte _ _ _ _ _ _ R) in T. clear R.
  apply bind_ok in H. destruct H as ([[alt ?] ?] & R & H).
  destruct T as [TA TB]. rewrite !length_zeros in TB.
  assert (T : track (length b) 21 3 b6) by (split; [rewrite TA, !length_zeros; reflexivity|lia]).
  eapply track_opt_le in R; [| |exact T]; [|rewrite length_zeros; lia]. destruct R as [[_ R] _].
  apply Ok_inj in H. subst e. unfold pos_encode in He.
  apply bind_ok in He. destruct He as (fl' & _ & He). cbn [ALTE] in He. apply Ok_inj in He. subst b'.
  rewrite !length_zeros in R. lens.
  repeat match goal with |- context [if ?x then _ else _] => destruct x end; lia.
Qed.

Lemma liquid_trunc b e b' : liquid_decode b = Ok e -> liquid_encode e = Ok b' -> (length b' <= length b + 3)%nat.
Proof.
  unfold liquid_decode. intros H He. pose proof (track_start b 0) as T.
  apply bind_ok in H. destruct H as ([fl r1] & R & H). apply (track_byte _ _ _ _ _ _ R) in T. clear R. cbv zeta in H.
  apply bind_ok in H. destruct H as (num & _ & H).
  apply bind_ok in H. destruct H as ([[v1 t1] r2] & R & H). apply (track_le _ _ _ _ _ _ _ _ R) in T. destruct T as [T _]. clear R.
  apply bind_ok in H. destruct H as ([[v2 t2] r3] & R & H). apply (track_le _ _ _ _ _ _ _ _ R) in T. destruct T as [[_ T] _]. clear R.
  rewrite !length_zeros in T. unfold liquid_encode in He. apply bind_ok in He. destruct He as (fl' & _ & He).
  apply Ok_inj in He. subst b'. lens. lia.
Qed.
Lemma abs_cntr_trunc b e b' : abs_cntr_decode b = Ok e -> abs_cntr_encode e = Ok b' -> (length b' <= length b + 2)%nat.
Proof.
  unfold abs_cntr_decode. intros H He. pose proof (track_start b 0) as T.
  apply bind_ok in H. destruct H as ([fl r1] & R & H). apply (track_byte _ _ _ _ _ _ R) in T. clear R.
  apply bind_ok in H. destruct H as ([[v1 t1] r2] & R & H). apply (track_le _ _ _ _ _ _ _ _ R) in T. destruct T as [[_ T] _]. clear R.
  rewrite !length_zeros in T. unfold abs_cntr_encode in He.
  apply Ok_inj in He. subst b'. lens. lia.
Qed.
Lemma state_trunc b e b' : state_decode b = Ok e -> state_encode e = Ok b' -> (length b' <= length b)%nat.
Proof.
  unfold state_decode. intros H He. pose proof (track_start b 0) as T.
  do 5 (let R := fresh "R" in apply bind_ok in H; destruct H as ([? ?] & R & H); apply (track_byte _ _ _ _ _ _ R) in T).
  destruct T as [_ T].
  unfold state_encode in He. apply bind_ok in He. destruct He as (fl' & _ & He).
  apply Ok_inj in He. subst b'. lens. lia.
Qed.
Lemma abs_an_trunc b e b' : abs_an_decode b = Ok e -> abs_an_encode e = Ok b' -> (length b' <= length b)%nat.
Proof.
  unfold abs_an_decode, abs_an_encode. intros H He. apply Ok_inj in He. subst b'.
  destruct (blen b <? 4) eqn:L; [discriminate|]. unfold blen in L. cbn [length]. lia.
Qed.
Lemma result_trunc b e b' : result_decode b = Ok e -> result_encode e = Ok b' -> (length b' <= length b)%nat.
Proof.
  unfold result_decode, result_encode. intros H He. apply Ok_inj in He. subst b'.
  destruct b; [discriminate|cbn; lia].
Qed.
Lemma disp_trunc b e b' : disp_decode b = Ok e -> disp_encode e = Ok b' -> (length b' <= length b + 3)%nat.
Proof.
  unfold disp_decode, disp_encode. intros H He. apply Ok_inj in He. subst b'.
  apply bind_ok in H. destruct H as ([dt r] & R & H). apply read_byte_inv in R. subst b.
  apply bind_ok in H. destruct H as ([x r'] & R & H). apply Ok_inj in H. subst e. cbn [DSCR DID DT].
  destruct r as [|c r0]; [discriminate R|]. apply buffer_read_inv in R. destruct R as [-> ->].
  lens. rewrite skipn_length, length_zeros. cbn [length]. lia.
Qed.
Lemma read_string_len r s r' : read_string 0 r = Ok (s, r') -> length r = (length s + 1 + length r')%nat.
Proof.
  revert s r'. induction r as [|c r IH]; intros s r'; cbn [read_string]; [discriminate|].
  destruct (c =? 0).
  - intros H. apply Ok_inj in H. injection H as <- <-. cbn. lia.
  - intros H. apply bind_ok in H. destruct H as ([s1 r1] & R & H). apply Ok_inj in H. injection H as <- <-.
    apply IH in R. cbn [length]. lia.
Qed.
Lemma auth_trunc b e b' : auth_decode b = Ok e -> auth_encode e = Ok b' -> (length b' <= length b)%nat.
Proof.
  unfold auth_decode, auth_encode. intros H He. apply Ok_inj in He. subst b'.
  apply bind_ok in H. destruct H as ([u r] & R & H). apply read_string_len in R.
  apply bind_ok in H. destruct H as ([p r2] & R2 & H). apply read_string_len in R2.
  destruct r2 as [|c r2].
  - apply Ok_inj in H. subst e. cbn [UNM UPSW SSQ]. lens. cbn [length] in *. lia.
  - apply bind_ok in H. destruct H as ([s r3] & R3 & H). apply read_string_len in R3.
    apply Ok_inj in H. subst e. cbn [UNM UPSW SSQ]. lens. destruct s; rewrite ?app_length; cbn [length] in *; lia.
Qed.
Lemma resp_trunc sds b d b' : response_decode sds b = Ok d -> sr_encode d = Ok b' -> (length b' <= length b)%nat.
Proof.
  unfold response_decode. intros H He.
  apply bind_ok in H. destruct H as ([x r] & R & H). apply bind_ok in H. destruct H as ([st r2] & R2 & H).
  apply bind_ok in H. destruct H as (l & _ & H). apply Ok_inj in H. subst d.
  apply buffer_read_inv in R. destruct R as [-> ->]. apply read_byte_inv in R2.
  cbn [sr_encode] in He. unfold srresp_encode in He. apply Ok_inj in He. subst b'. lens.
  apply (f_equal (@length N)) in R2. rewrite skipn_length, length_zeros in R2. cbn [length] in R2. lia.
Qed.

Lemma sub_trunc depth t len b d b' : sub_decode depth t len b = Ok d -> sr_encode d = Ok b' ->
  (match d with SRPlus _ => False | _ => True end) -> (length b' <= length b + slack d)%nat.
Proof.
  intros H He Hp. destruct depth as [|dp]; [discriminate|]. cbn [sub_decode] in H. cbv zeta in H.
  repeat match type of H with (if ?c then _ else _) = _ => destruct c end; try discriminate;
    try (apply rmap_ok in H; destruct H as (e & H & ->); cbn [sr_encode slack] in *);
    rewrite ?Nat.add_0_r.
  - eapply pos_trunc; eassumption.
  - eapply term_trunc; eassumption.
  - assert (slack d = 0%nat) as ->.
    { unfold response_decode in H. apply bind_ok in H. destruct H as ([? ?] & _ & H).
      apply bind_ok in H. destruct H as ([? ?] & _ & H). apply bind_ok in H. destruct H as (? & _ & H).
      apply Ok_inj in H. subst d. reflexivity. }
    rewrite Nat.add_0_r. eapply resp_trunc; eassumption.
  - eapply result_trunc; eassumption.
  - eapply ext_trunc; eassumption.
  - eapply ad_trunc; eassumption.
  - eapply state_trunc; eassumption.
  - eapply state_trunc; eassumption.
  - eapply liquid_trunc; eassumption.
  - eapply abs_cntr_trunc; eassumption.
  - eapply auth_trunc; eassumption.
  - eapply counters_trunc; eassumption.
  - contradiction.
  - eapply abs_an_trunc; eassumption.
  - eapply disp_trunc; eassumption.
Qed.

(** ** Stale bytes *)
Lemma stale_refuted : exists b e, ext_decode b = Ok e /\ length b = 4%nat /\ HFE e = s1 /\
  VDOP e = 258 /\ HDOP e = 259 /\ b = [3; 2; 1; 3].
Proof. exists [3; 2; 1; 3]. eexists. repeat (split; [vm_compute; reflexivity|]). reflexivity. Qed.

(** ** The nesting bound does not matter *)
Lemma bind_fuel {A B} (x : res A) (f : A -> res B) : bind x f <> Fuel -> x <> Fuel.
Proof. destruct x; cbn; congruence. Qed.

Lemma rds_loop_mono dec dec' : (forall t len b, dec t len b <> Fuel -> dec' t len b = dec t len b) ->
  forall fuel fuel' r, (fuel <= fuel')%nat -> rds_loop dec fuel r <> Fuel ->
  rds_loop dec' fuel' r = rds_loop dec fuel r.
Proof.
  intros Hd. induction fuel as [|f IH]; intros fuel' r Hf Hn; destruct r as [|c r0].
  - destruct fuel'; reflexivity.
  - cbn in Hn. contradiction.
  - destruct fuel'; reflexivity.
  - destruct fuel' as [|f']; [lia|]. cbn [rds_loop] in *. cbn [read_byte bind] in *.
    destruct (buffer_read (zeros 2) r0) as [[lb r1]| | |]; cbn [bind] in *; try reflexivity.
    destruct (buffer_next (le_dec lb) r1) as [sub r2].
    rewrite Hd by (eapply bind_fuel; exact Hn).
    destruct (dec c (le_dec lb) sub); cbn [bind] in *; try reflexivity.
    rewrite (IH f' r2) by (try lia; eapply bind_fuel; exact Hn). reflexivity.
Qed.
Lemma sdr_decode_mono dec dec' r : (forall b, dec b <> Fuel -> dec' b = dec b) ->
  sdr_decode dec r <> Fuel -> sdr_decode dec' r = sdr_decode dec r.
Proof.
  intros Hd Hn. unfold sdr_decode in *. cbv zeta in *.
  destruct (reader_read (zeros 2) r) as [[b1 r1]| | |]; cbn [bind] in *; try reflexivity.
  destruct (reader_read b1 r1) as [[b2 r2]| | |]; cbn [bind] in *; try reflexivity.
  destruct (read_byte r2) as [[fl r3]| | |]; cbn [bind] in *; try reflexivity.
  destruct (opt4 _ r3) as [[o r4]| | |]; cbn [bind] in *; try reflexivity.
  destruct (opt4 _ r4) as [[ev r5]| | |]; cbn [bind] in *; try reflexivity.
  destruct (opt4 _ r5) as [[tm r6]| | |]; cbn [bind] in *; try reflexivity.
  destruct (read_byte r6) as [[st r7]| | |]; cbn [bind] in *; try reflexivity.
  destruct (read_byte r7) as [[rt r8]| | |]; cbn [bind] in *; try reflexivity.
  destruct r8 as [|c r8]; [reflexivity|].
  destruct (reader_read _ (c :: r8)) as [[rb r']| | |]; cbn [bind] in *; try reflexivity.
  rewrite Hd; [reflexivity|]. intros Hf. rewrite Hf in Hn. apply Hn. reflexivity.
Qed.
Lemma sds_loop_mono dec dec' : (forall b, dec b <> Fuel -> dec' b = dec b) ->
  forall fuel fuel' r, (fuel <= fuel')%nat -> sds_loop dec fuel r <> Fuel ->
  sds_loop dec' fuel' r = sds_loop dec fuel r.
Proof.
  intros Hd. induction fuel as [|f IH]; intros fuel' r Hf Hn; destruct r as [|c r0].
  - destruct fuel'; reflexivity.
  - cbn in Hn. contradiction.
  - destruct fuel'; reflexivity.
  - destruct fuel' as [|f']; [lia|]. cbn [sds_loop] in *.
    rewrite (sdr_decode_mono dec dec') by (auto; eapply bind_fuel; exact Hn).
    destruct (sdr_decode dec (c :: r0)) as [[s r1]| | |]; cbn [bind] in *; try reflexivity.
    rewrite (IH f' r1) by (try lia; eapply bind_fuel; exact Hn). reflexivity.
Qed.
Lemma sub_decode_mono d : forall d' t len b, (d <= d')%nat -> sub_decode d t len b <> Fuel ->
  sub_decode d' t len b = sub_decode d t len b.
Proof.
  induction d as [|d IH]; intros d' t len b Hd Hn; [cbn in Hn; contradiction|].
  destruct d' as [|d']; [lia|]. cbn [sub_decode] in *. cbv zeta in *.
  destruct (t =? 16); [reflexivity|]. destruct (t =? 1); [reflexivity|].
  destruct (t =? 0).
  - unfold response_decode in *. destruct (buffer_read (zeros 2) b) as [[x r]| | |]; cbn [bind] in *; try reflexivity.
    destruct (read_byte r) as [[st r2]| | |]; cbn [bind] in *; try reflexivity.
    rewrite (sds_loop_mono (fun rb => rds_loop (sub_decode d) (length rb) rb)
              (fun rb => rds_loop (sub_decode d') (length rb) rb)) with (fuel := length r2); [reflexivity| |lia|eapply bind_fuel; exact Hn].
    intros b0 Hb. apply rds_loop_mono; [|lia|exact Hb]. intros t' len' b' H'. apply IH; [lia|exact H'].
  - reflexivity.
Qed.
Lemma sds_decode_depth d b : (length b < d)%nat -> sds_decode_d d b = sds_decode b.
Proof.
  intros Hd. unfold sds_decode, sds_decode_d, depth_for.
  assert (R1 : returns (sds_decode_d d b)) by (apply (sds_decode_d_returns d (length b)); [exact Hd|apply supp_length]).
  assert (R2 : returns (sds_decode_d (S (S (length b))) b)) by (apply (sds_decode_d_returns _ (length b)); [lia|apply supp_length]).
  unfold sds_decode_d in R1, R2.
  assert (M : forall a c, (a <= c)%nat -> forall b0, rds_decode_d a b0 <> Fuel -> rds_decode_d c b0 = rds_decode_d a b0).
  { intros a c Hac b0 Hb. apply rds_loop_mono; [|lia|exact Hb]. intros; apply sub_decode_mono; assumption. }
  destruct (le_lt_dec d (S (S (length b)))) as [L|L].
  - symmetry. apply sds_loop_mono; [apply M; exact L|lia|]. destruct (sds_loop _ _ _); cbn in *; try discriminate; contradiction.
  - apply sds_loop_mono; [apply M; lia|lia|]. destruct (sds_loop (rds_decode_d (S (S (length b)))) _ _); cbn in *; try discriminate; contradiction.
Qed.

(** ** Records shorter than they declare *)
Lemma fbit_testbit fl : fl < 256 ->
  is1 (fbit 7 (fmt_b 8 fl)) = N.testbit fl 0 /\ is1 (fbit 6 (fmt_b 8 fl)) = N.testbit fl 1 /\
  is1 (fbit 5 (fmt_b 8 fl)) = N.testbit fl 2.
Proof.
  intros H.
  assert (S : (Bool.eqb (is1 (fbit 7 (fmt_b 8 fl))) (N.testbit fl 0)
            && Bool.eqb (is1 (fbit 6 (fmt_b 8 fl))) (N.testbit fl 1)
            && Bool.eqb (is1 (fbit 5 (fmt_b 8 fl))) (N.testbit fl 2)) = true).
  { revert fl H. apply byte_sweep. vm_compute. reflexivity. }
  apply andb_prop in S. destruct S as [S S3]. apply andb_prop in S. destruct S as [S1 S2].
  apply eqb_prop in S1, S2, S3. auto.
Qed.
Lemma opt4_full f (o r : bytes) : length o = (if is1 f then 4 else 0)%nat ->
  opt4 f (o ++ r) = Ok (if is1 f then le_dec o else 0, r).
Proof.
  unfold opt4. destruct (is1 f); intros H.
  - rewrite reader_read_full; [reflexivity|rewrite length_zeros; exact H|destruct o; discriminate].
  - destruct o; [reflexivity|discriminate].
Qed.
Lemma split_len {A} (l : list A) a b : length l = (a + b)%nat ->
  exists x y, l = x ++ y /\ length x = a /\ length y = b.
Proof.
  intros H. exists (firstn a l), (skipn a l). rewrite firstn_skipn, firstn_length, skipn_length. repeat split; lia.
Qed.
Lemma sdr_decode_header h rl : record_header h rl ->
  exists mk : list record_data -> sdr, (forall l, RD (mk l) = l /\ RL (mk l) = rl) /\
  forall dec tail, sdr_decode dec (h ++ tail) =
    match tail with
    | [] => Ok (mk [], [])
    | _ :: _ => '(rb, r') <- reader_read (zeros (N.to_nat rl)) tail ;; rd <- dec rb ;; Ok (mk rd, r')
    end.
Proof.
  intros (rn & fl & opts & sst & rst & -> & Hrl & Hfl & Ho).
  destruct (fbit_testbit fl Hfl) as (F7 & F6 & F5). rewrite <- F7, <- F6, <- F5 in Ho.
  apply split_len in Ho. destruct Ho as (o12 & o3 & -> & Ho & H3).
  apply split_len in Ho. destruct Ho as (o1 & o2 & -> & H1 & H2).
  set (fb := fmt_b 8 fl) in *.
  exists (fun rd => {| RL := rl; RN := le_dec (le_enc 2 rn); SSOD := fbit 0 fb; RSOD := fbit 1 fb; GRP := fbit 2 fb;
         RPP := substr 3 5 fb; TMFE := fbit 5 fb; EVFE := fbit 6 fb; OBFE := fbit 7 fb;
         OID := if is1 (fbit 7 fb) then le_dec o1 else 0; EVID := if is1 (fbit 6 fb) then le_dec o2 else 0;
         TM := if is1 (fbit 5 fb) then le_dec o3 else 0; SST := sst; RST := rst; RD := rd |}).
  split; [intros l; split; reflexivity|]. intros dec tail. rewrite <- !app_assoc.
  unfold sdr_decode.
  rewrite (reader_read_full (zeros 2)) by (try discriminate; rewrite length_zeros, length_le_enc; reflexivity).
  cbn [bind]. cbv zeta. rewrite (reader_read_full (le_enc 2 rl)) by (try discriminate; rewrite !length_le_enc; reflexivity).
  cbn [bind app read_byte]. fold fb. rewrite (opt4_full _ o1) by exact H1. cbn [bind].
  rewrite (opt4_full _ o2) by exact H2. cbn [bind]. rewrite (opt4_full _ o3) by exact H3. cbn [bind read_byte].
  rewrite le_dec_enc_id by exact Hrl. destruct tail as [|c tail]; [reflexivity|].
  cbn [reader_read bind]. destruct (dec _); reflexivity.
Qed.
Lemma record_header_nonempty h rl : record_header h rl -> exists c h', h = c :: h'.
Proof. intros (rn & fl & opts & sst & rst & -> & _). cbn [le_enc app]. eauto. Qed.

(** nothing follows the header: no subrecords, whatever length was declared *)
Lemma empty_record h rl : record_header h rl -> exists s, sds_decode h = Ok [s] /\ RD s = [] /\ RL s = rl.
Proof.
  intros H. destruct (sdr_decode_header h rl H) as (mk & Hmk & Hd). destruct (record_header_nonempty h rl H) as (c & h' & ->).
  unfold sds_decode, sds_decode_d. cbn [length sds_loop]. specialize (Hd (rds_decode_d (depth_for (c :: h'))) []).
  rewrite app_nil_r in Hd. rewrite Hd. cbn [bind]. exists (mk []). destruct (length h'); (split; [reflexivity|]); apply Hmk.
Qed.
Lemma skipn_zeros k n : skipn k (zeros n) = zeros (n - k).
Proof. revert n. induction k as [|k IH]; intros n; destruct n; try reflexivity. apply IH. Qed.
(** fewer bytes follow than declared: decoded as if zero bytes followed *)
Lemma short_record h rl tail : record_header h rl -> tail <> [] -> blen tail < rl ->
  sds_decode (h ++ tail) = sds_decode (h ++ tail ++ zeros (N.to_nat rl - length tail)).
Proof.
  intros H Ht Hl. destruct (sdr_decode_header h rl H) as (mk & _ & Hd).
  set (pad := zeros (N.to_nat rl - length tail)).
  set (d := S (length (h ++ tail ++ pad))).
  rewrite <- (sds_decode_depth d (h ++ tail)) by (unfold d; rewrite !app_length; lia).
  rewrite <- (sds_decode_depth d (h ++ tail ++ pad)) by (unfold d; lia).
  destruct (record_header_nonempty h rl H) as (c & h' & E0).
  assert (U : forall l, l <> [] -> (length l <= N.to_nat rl)%nat ->
     sds_decode_d d (h ++ l) = (rd <- rds_decode_d d (l ++ zeros (N.to_nat rl - length l)) ;; Ok [mk rd])).
  { intros l Hn Hle. unfold sds_decode_d. specialize (Hd (rds_decode_d d) l).
    rewrite E0 in *. cbn [app length sds_loop] in *. rewrite Hd. destruct l as [|l0 l1]; [contradiction|].
    rewrite reader_read_short by (rewrite ?length_zeros; assumption). cbn [bind].
    rewrite skipn_zeros.
    destruct (rds_decode_d d _); cbn [bind]; try reflexivity.
    destruct (length (h' ++ l0 :: l1)); reflexivity. }
  unfold blen in Hl. rewrite (U tail) by (try exact Ht; lia).
  rewrite (U (tail ++ pad)).
  - assert (Ez : (N.to_nat rl - length (tail ++ pad) = 0)%nat)
      by (rewrite app_length; unfold pad; rewrite length_zeros; lia).
    rewrite Ez. cbn [zeros repeat]. rewrite app_nil_r. reflexivity.
  - intros E1. apply app_eq_nil in E1. apply Ht, E1.
  - rewrite app_length. unfold pad. rewrite length_zeros. lia.
Qed.
(** ... so that subrecords are fabricated *)
Lemma short_refuted : exists h tail s, record_header h 6 /\ blen tail < 6 /\ tail = [0; 3] /\
  sds_decode (h ++ tail) = Ok [s] /\ RD s = [{| SRT := 0; SRL := 3; SRD := SRResp 0 0 |}].
Proof.
  exists [6;0; 1;0; 0; 2; 2], [0;3]. eexists. split.
  - exists 1, 0, [], 2, 2. repeat split.
  - split; [reflexivity|]. split; [reflexivity|]. split; vm_compute; reflexivity.
Qed.
End TruncFacts.
