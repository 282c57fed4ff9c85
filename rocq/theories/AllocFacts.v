(** * AllocFacts: bounds on the buffers held by the decoders. *)
From Verif Require Import GoBase Crc Float64 SubRecords Records Package.
From Verif Require Import Spec_Bits Spec_Wf Spec_Rec Spec_Pkg BaseFacts SubFacts RecFacts DecFacts CrcFacts PkgFacts PkgFacts2 Alloc.
From Coq Require Import Lia ZifyBool ZifyN ZifyNat.

Section AllocFacts.
Context {E : go_env}.

(** At most [n] bytes followed by zeros. *)
Definition padded (n : nat) (b : bytes) : Prop := exists x k, b = x ++ zeros k /\ (length x <= n)%nat.

Lemma zeros_app a b : zeros a ++ zeros b = zeros (a + b).
Proof. unfold zeros. symmetry. apply repeat_app. Qed.
Lemma skipn_zeros j k : skipn j (zeros k) = zeros (k - j).
Proof. revert k. induction j as [|j IH]; intros [|k]; try reflexivity. cbn. apply IH. Qed.
Lemma firstn_zeros j k : firstn j (zeros k) = zeros (Nat.min j k).
Proof. revert k. induction j as [|j IH]; intros [|k]; try reflexivity. cbn. f_equal. apply IH. Qed.

Lemma padded_self b : padded (length b) b.
Proof. exists b, 0%nat. rewrite app_nil_r. auto. Qed.
Lemma padded_skipn n j b : padded n b -> padded (n - j) (skipn j b).
Proof.
  intros (x & k & -> & H). rewrite skipn_app, skipn_zeros. eexists _, _. split; [reflexivity|].
  rewrite skipn_length. lia.
Qed.
Lemma padded_firstn n j b : padded n b -> padded n (firstn j b).
Proof.
  intros (x & k & -> & H). rewrite firstn_app, firstn_zeros. eexists _, _. split; [reflexivity|].
  rewrite firstn_length. lia.
Qed.
Lemma padded_copy n j b : padded n b -> padded n (copy_into (zeros j) b).
Proof.
  intros Hp. unfold copy_into. rewrite length_zeros, skipn_zeros.
  destruct (Nat.le_gt_cases j (length b)) as [Hj|Hj].
  - replace (j - length b)%nat with 0%nat by lia. cbn. rewrite app_nil_r. apply padded_firstn, Hp.
  - rewrite firstn_all2 by lia. destruct Hp as (x & k & -> & H).
    rewrite <- app_assoc, zeros_app. eexists _, _. split; [reflexivity|exact H].
Qed.
Lemma padded_mono n m b : (n <= m)%nat -> padded n b -> padded m b.
Proof. intros Hn (x & k & -> & H). exists x, k. split; [reflexivity|lia]. Qed.

Lemma bytes_ok_zeros k : bytes_ok (zeros k) = true.
Proof. induction k; [reflexivity|exact IHk]. Qed.
Lemma bytes_ok_firstn' j b : bytes_ok b = true -> bytes_ok (firstn j b) = true.
Proof.
  revert b. induction j as [|j IH]; intros [|x b] H; try reflexivity.
  cbn [firstn bytes_ok forallb] in *. apply andb_prop in H. destruct H as [H1 H2]. rewrite H1. apply IH, H2.
Qed.
Lemma bytes_ok_skipn' j b : bytes_ok b = true -> bytes_ok (skipn j b) = true.
Proof.
  revert b. induction j as [|j IH]; intros [|x b] H; try reflexivity; [exact H|].
  cbn [skipn bytes_ok forallb] in *. apply andb_prop in H. destruct H as [H1 H2]. apply IH, H2.
Qed.
Lemma bytes_ok_copy j b : bytes_ok b = true -> bytes_ok (copy_into (zeros j) b) = true.
Proof.
  intros H. unfold copy_into. rewrite bytes_ok_app, skipn_zeros, bytes_ok_zeros.
  rewrite bytes_ok_firstn' by exact H. reflexivity.
Qed.

(** ** The reading primitives consume a known number of bytes. *)
Lemma reader_skip buf r b r' : reader_read buf r = Ok (b, r') -> r' = skipn (length buf) r /\ b = copy_into buf r.
Proof. destruct r; [discriminate|]. intros H. apply Ok_inj in H. injection H as <- <-. auto. Qed.
Lemma buffer_skip buf r b r' : buffer_read buf r = Ok (b, r') -> r' = skipn (length buf) r /\ b = copy_into buf r.
Proof.
  destruct r, buf; try discriminate; intros H; apply Ok_inj in H; injection H as <- <-; auto.
Qed.
Lemma byte_skip r b r' : read_byte r = Ok (b, r') -> r' = skipn 1 r.
Proof. destruct r; [discriminate|]. intros H. apply Ok_inj in H. injection H as <- <-. reflexivity. Qed.
Lemma opt4_skip f r v r' : opt4 f r = Ok (v, r') -> exists k, r' = skipn k r.
Proof.
  unfold opt4. destruct (is1 f).
  - intros H. apply bind_ok in H. destruct H as ([b r1] & H1 & H). apply reader_skip in H1. destruct H1 as [-> _].
    apply Ok_inj in H. exists 4%nat. apply (f_equal snd) in H. symmetry. exact H.
  - intros H. apply Ok_inj in H. injection H as _ <-. exists 0%nat. reflexivity.
Qed.
Lemma skipn_skipn' {A} i j (l : list A) : skipn i (skipn j l) = skipn (i + j) l.
Proof.
  revert l. induction j as [|j IH]; intros l; [rewrite Nat.add_0_r; reflexivity|].
  destruct l; [rewrite !skipn_nil; reflexivity|]. rewrite Nat.add_succ_r. cbn. apply IH.
Qed.
Lemma length_copy buf r : length (copy_into buf r) = length buf.
Proof. unfold copy_into. rewrite app_length, firstn_length, skipn_length. lia. Qed.

Lemma rec_head_skip r rl r' : rec_head r = Ok (rl, r') ->
  rl = le_dec (copy_into (zeros 2) r) /\ exists k, (7 <= k)%nat /\ r' = skipn k r.
Proof.
  unfold rec_head. cbv zeta. intros H.
  apply bind_ok in H. destruct H as ([b r1] & H1 & H). apply reader_skip in H1. destruct H1 as [-> ->].
  apply bind_ok in H. destruct H as ([b2 r2] & H2 & H). apply reader_skip in H2. destruct H2 as [-> ->].
  apply bind_ok in H. destruct H as ([fl r3] & H3 & H). apply byte_skip in H3. subst r3.
  apply bind_ok in H. destruct H as ([x4 r4] & H4 & H). apply opt4_skip in H4. destruct H4 as [k4 ->].
  apply bind_ok in H. destruct H as ([x5 r5] & H5 & H). apply opt4_skip in H5. destruct H5 as [k5 ->].
  apply bind_ok in H. destruct H as ([x6 r6] & H6 & H). apply opt4_skip in H6. destruct H6 as [k6 ->].
  apply bind_ok in H. destruct H as ([x7 r7] & H7 & H). apply byte_skip in H7. subst r7.
  apply bind_ok in H. destruct H as ([x8 r8] & H8 & H). apply byte_skip in H8. subst r8.
  apply Ok_inj in H. pose proof (f_equal fst H) as Hf. pose proof (f_equal snd H) as Hs. cbn [fst snd] in Hf, Hs. clear H.
  split; [symmetry; exact Hf|].
  rewrite !skipn_skipn', length_copy, length_zeros in Hs. eexists. split; [|symmetry; exact Hs]. lia.
Qed.

Lemma sdr_decode_skip rdsdec r s r' : sdr_decode rdsdec r = Ok (s, r') -> exists k, r' = skipn k r.
Proof.
  intros H. unfold sdr_decode in H. cbv zeta in H.
  apply bind_ok in H. destruct H as ([b r1] & H1 & H). apply reader_skip in H1. destruct H1 as [-> ->].
  apply bind_ok in H. destruct H as ([b2 r2] & H2 & H). apply reader_skip in H2. destruct H2 as [-> ->].
  apply bind_ok in H. destruct H as ([fl r3] & H3 & H). apply byte_skip in H3. subst r3.
  apply bind_ok in H. destruct H as ([x4 r4] & H4 & H). apply opt4_skip in H4. destruct H4 as [k4 ->].
  apply bind_ok in H. destruct H as ([x5 r5] & H5 & H). apply opt4_skip in H5. destruct H5 as [k5 ->].
  apply bind_ok in H. destruct H as ([x6 r6] & H6 & H). apply opt4_skip in H6. destruct H6 as [k6 ->].
  apply bind_ok in H. destruct H as ([x7 r7] & H7 & H). apply byte_skip in H7. subst r7.
  apply bind_ok in H. destruct H as ([x8 r8] & H8 & H). apply byte_skip in H8. subst r8.
  apply bind_ok in H. destruct H as ([rd r9] & H9 & H). apply Ok_inj in H. apply (f_equal snd) in H. cbn [snd] in H. subst r9.
  rewrite !skipn_skipn' in H9.
  match type of H9 with context [skipn ?j r] => set (rr := skipn j r) in *; assert (Hrr : exists k, rr = skipn k r) by (eexists; reflexivity) end.
  clearbody rr. destruct Hrr as [k ->].
  destruct (skipn k r) as [|y r8] eqn:Er.
  - apply Ok_inj in H9. apply (f_equal snd) in H9. cbn [snd] in H9. subst r'. exists k. symmetry. exact Er.
  - apply bind_ok in H9. destruct H9 as ([rb ra] & Ha & H9). apply reader_skip in Ha. destruct Ha as [-> ->].
    apply bind_ok in H9. destruct H9 as (l & _ & H9). apply Ok_inj in H9. apply (f_equal snd) in H9. cbn [snd] in H9. subst r'.
    rewrite <- Er, skipn_skipn'. eexists. reflexivity.
Qed.

(** ** The bound *)
Definition levels (n : nat) : nat := ((n + 12) / 13)%nat.
Definition cap (n : nat) : N := 65535 * N.of_nat (levels n).

Lemma levels_0 : levels 0 = 0%nat. Proof. reflexivity. Qed.
Lemma levels_mono n m : (n <= m)%nat -> (levels n <= levels m)%nat.
Proof. intros H. unfold levels. apply Nat.div_le_mono; lia. Qed.
Lemma levels_step n : (1 <= n)%nat -> (S (levels (n - 13)) <= levels n)%nat.
Proof.
  intros H. unfold levels. destruct (Nat.le_gt_cases 13 n) as [Hn|Hn].
  - replace (n + 12)%nat with ((n - 13 + 12) + 1 * 13)%nat by lia. rewrite Nat.div_add by lia. lia.
  - replace (n - 13)%nat with 0%nat by lia. change ((0 + 12) / 13)%nat with 0%nat.
    apply Nat.div_le_lower_bound; lia.
Qed.
Lemma cap_mono n m : (n <= m)%nat -> cap n <= cap m.
Proof. intros H. apply levels_mono in H. unfold cap. lia. Qed.

Lemma rl_bound b : bytes_ok b = true -> le_dec (copy_into (zeros 2) b) <= 65535.
Proof.
  intros Hb. pose proof (bytes_ok_copy 2 b Hb) as Hc. pose proof (length_copy (zeros 2) b) as Hl.
  rewrite length_zeros in Hl. destruct (copy_into (zeros 2) b) as [|x [|y [|]]]; try discriminate.
  rewrite le_dec2. pose proof (bytes_ok_nth _ 0 Hc) as H0. pose proof (bytes_ok_nth _ 1 Hc) as H1.
  cbn [nth] in H0, H1. lia.
Qed.
Lemma rl_zeros k : le_dec (copy_into (zeros 2) (zeros k)) = 0.
Proof.
  destruct k as [|[|k]]; try reflexivity. unfold copy_into. rewrite !length_zeros, firstn_zeros, skipn_zeros, zeros_app.
  replace (Nat.min 2 (S (S k)) + (2 - S (S k)))%nat with 2%nat by lia. reflexivity.
Qed.

Lemma sdr_held_bound rdsm r n :
  (forall b m, bytes_ok b = true -> padded m b -> rdsm b <= cap (m - 6)) ->
  bytes_ok r = true -> padded n r -> sdr_held rdsm r <= cap n.
Proof.
  intros Hm Hb Hp. unfold sdr_held. destruct (rec_head r) as [[rl r']| | |] eqn:Hh; try apply N.le_0_l.
  apply rec_head_skip in Hh. destruct Hh as (Hrl & k & Hk & Hr'). 
  assert (Hp' : padded (n - 7) r').
  { rewrite Hr'. apply padded_mono with (n - k)%nat; [lia|]. apply padded_skipn, Hp. }
  assert (Hb' : bytes_ok r' = true) by (rewrite Hr'; apply bytes_ok_skipn', Hb).
  destruct r' as [|y r2] eqn:Er; [apply N.le_0_l|]. rewrite <- Er in *.
  pose proof (Hm (copy_into (zeros (N.to_nat rl)) r') (n - 7)%nat (bytes_ok_copy _ _ Hb') (padded_copy _ _ _ Hp')) as H.
  destruct n as [|n].
  - destruct Hp as (x & j & Hx & Hlen). destruct x; [|cbn in Hlen; lia]. cbn [app] in Hx. rewrite Hx, rl_zeros in Hrl.
    rewrite Hrl in *. change (cap (0 - 7 - 6)) with 0 in H. change (cap 0) with 0. lia.
  - pose proof (rl_bound r Hb) as Hbd. rewrite <- Hrl in Hbd.
    pose proof (levels_step (S n) ltac:(lia)) as Hs. unfold cap in *.
    replace (S n - 7 - 6)%nat with (S n - 13)%nat in H by lia. lia.
Qed.

Lemma sds_held_bound rdsdec rdsm fuel : 
  (forall b m, bytes_ok b = true -> padded m b -> rdsm b <= cap (m - 6)) ->
  forall r n, bytes_ok r = true -> padded n r -> sds_held_loop rdsdec rdsm fuel r <= cap n.
Proof.
  intros Hm. induction fuel as [|fuel IH]; intros r n Hb Hp; (destruct r as [|x r]; [apply N.le_0_l|]); [apply N.le_0_l|].
  cbn [sds_held_loop]. apply N.max_lub; [apply sdr_held_bound; assumption|].
  destruct (sdr_decode rdsdec (x :: r)) as [[s r']| | |] eqn:Hs; try apply N.le_0_l.
  apply sdr_decode_skip in Hs. destruct Hs as [k ->].
  apply IH; [apply bytes_ok_skipn', Hb|]. apply padded_mono with (n - k)%nat; [lia|]. apply padded_skipn, Hp.
Qed.

Lemma rds_held_bound dec subm fuel :
  (forall t b m, bytes_ok b = true -> padded m b -> subm t b <= cap (m - 3)) ->
  forall r n, bytes_ok r = true -> padded n r -> rds_held_loop dec subm fuel r <= cap (n - 6).
Proof.
  intros Hm. induction fuel as [|fuel IH]; intros r n Hb Hp; (destruct r as [|x r]; [apply N.le_0_l|]); [apply N.le_0_l|].
  cbn [rds_held_loop].
  match goal with |- context [match ?h with Ok _ => _ | _ => _ end] => destruct h as [[[t len] r']| | |] eqn:Hh end; try apply N.le_0_l.
  apply bind_ok in Hh. destruct Hh as ([t1 r1] & H1 & Hh). apply byte_skip in H1.
  apply bind_ok in Hh. destruct Hh as ([lb r2] & H2 & Hh). apply buffer_skip in H2. destruct H2 as [H2 _].
  apply Ok_inj in Hh. injection Hh as _ _ <-. rewrite length_zeros in H2. rewrite H1, skipn_skipn' in H2.
  unfold buffer_next. rewrite H2.
  assert (Hp3 : padded (n - 3) (skipn (2 + 1) (x :: r))) by (apply padded_skipn, Hp).
  assert (Hb3 : bytes_ok (skipn (2 + 1) (x :: r)) = true) by (apply bytes_ok_skipn', Hb).
  apply N.max_lub.
  - replace (n - 6)%nat with (n - 3 - 3)%nat by lia. apply Hm; [apply bytes_ok_firstn', Hb3|apply padded_firstn, Hp3].
  - destruct (dec _ _ _); try apply N.le_0_l.
    apply N.le_trans with (cap (n - 3 - N.to_nat len - 6)); [|apply cap_mono; lia].
    apply IH; [apply bytes_ok_skipn', Hb3|apply padded_skipn, Hp3].
Qed.

Lemma sub_held_bound d : forall t b n, bytes_ok b = true -> padded n b -> sub_held d t b <= cap (n - 3).
Proof.
  induction d as [|d IH]; intros t b n Hb Hp; [apply N.le_0_l|]. cbn [sub_held].
  destruct (t =? 0); [|apply N.le_0_l].
  match goal with |- context [match ?h with Ok _ => _ | _ => _ end] => destruct h as [r'| | |] eqn:Hh end; try apply N.le_0_l.
  apply bind_ok in Hh. destruct Hh as ([lb r2] & H2 & Hh). apply buffer_skip in H2. destruct H2 as [H2 _].
  apply bind_ok in Hh. destruct Hh as ([t1 r1] & H1 & Hh). apply byte_skip in H1.
  apply Ok_inj in Hh. subst r'. rewrite length_zeros in H2. rewrite H2, skipn_skipn' in H1. rewrite H1.
  apply sds_held_bound; [|apply bytes_ok_skipn', Hb|apply (padded_skipn _ 3), Hp].
  intros b' m Hb' Hp'. apply rds_held_bound; assumption.
Qed.

Lemma sds_held_cap b n : bytes_ok b = true -> padded n b -> sds_held b <= cap n.
Proof.
  intros Hb Hp. apply sds_held_bound; [|exact Hb|exact Hp].
  intros b' m Hb' Hp'. apply rds_held_bound; [|exact Hb'|exact Hp']. intros. apply sub_held_bound; assumption.
Qed.

Lemma ptr_held_cap b n : bytes_ok b = true -> padded n b -> ptr_held b <= cap n.
Proof.
  intros Hb Hp. unfold ptr_held.
  match goal with |- context [match ?h with Ok _ => _ | _ => _ end] => destruct h as [r'| | |] eqn:Hh end; try apply N.le_0_l.
  apply bind_ok in Hh. destruct Hh as ([lb r2] & H2 & Hh). apply buffer_skip in H2. destruct H2 as [H2 _].
  apply bind_ok in Hh. destruct Hh as ([t1 r1] & H1 & Hh). apply byte_skip in H1.
  apply Ok_inj in Hh. subst r'. rewrite length_zeros in H2. rewrite H2, skipn_skipn' in H1. rewrite H1.
  apply sds_held_cap; [apply bytes_ok_skipn', Hb|]. apply padded_mono with (n - 3)%nat; [lia|]. apply (padded_skipn _ 3), Hp.
Qed.

End AllocFacts.
