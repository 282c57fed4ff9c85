(** * BaseFacts: lemmas about GoBase. *)
From Coq Require Import Lia ZifyBool ZifyNat ZifyN.
From Verif Require Import GoBase Spec_Bits.
Ltac Zify.zify_post_hook ::= Z.div_mod_to_equations.
Arguments N.mul : simpl never.
Arguments N.add : simpl never.
Arguments N.div : simpl never.
Arguments N.modulo : simpl never.
Arguments N.pow : simpl never.

Lemma bytes_ok_app a b : bytes_ok (a ++ b) = bytes_ok a && bytes_ok b.
Proof. apply forallb_app. Qed.

Lemma bytes_ok_cons x b : bytes_ok (x :: b) = byte_ok x && bytes_ok b.
Proof. reflexivity. Qed.

Lemma bytes_ok_zeros n : bytes_ok (zeros n) = true.
Proof. induction n; simpl; auto. Qed.

Lemma bytes_ok_firstn n b : bytes_ok b = true -> bytes_ok (firstn n b) = true.
Proof.
  revert b; induction n as [|n IH]; intros [|x b]; simpl; auto.
  rewrite !andb_true_iff; intros [Hx Hb]; auto.
Qed.

Lemma bytes_ok_skipn n b : bytes_ok b = true -> bytes_ok (skipn n b) = true.
Proof.
  revert b; induction n as [|n IH]; intros [|x b]; simpl; auto.
  rewrite !andb_true_iff; intros [Hx Hb]; auto.
Qed.

Lemma length_zeros n : length (zeros n) = n.
Proof. apply repeat_length. Qed.

(** ** Little endian *)

Lemma length_le_enc k v : length (le_enc k v) = k.
Proof. revert v; induction k; intros; simpl; auto. Qed.

Lemma le_enc_ok k v : bytes_ok (le_enc k v) = true.
Proof.
  revert v; induction k as [|k IH]; intros v; simpl; auto.
  rewrite IH, andb_true_r. unfold byte_ok. lia.
Qed.

Lemma le_dec_bound b : bytes_ok b = true -> le_dec b < 256 ^ N.of_nat (length b).
Proof.
  induction b as [|x b IH]; cbn [le_dec]; intros H.
  - cbn; lia.
  - rewrite bytes_ok_cons, andb_true_iff in H. destruct H as [Hx Hb].
    specialize (IH Hb). unfold byte_ok in Hx.
    cbn [length]. rewrite Nat2N.inj_succ, N.pow_succ_r'.
    generalize dependent (256 ^ N.of_nat (length b)). intros P IH. lia.
Qed.

Lemma le_dec_enc k v : le_dec (le_enc k v) = v mod 256 ^ N.of_nat k.
Proof.
  revert v; induction k as [|k IH]; intros v.
  - simpl. rewrite N.mod_1_r; reflexivity.
  - cbn [le_enc le_dec]. rewrite IH.
    rewrite Nat2N.inj_succ, N.pow_succ_r'.
    rewrite (N.mod_mul_r v 256 (256 ^ N.of_nat k)); try lia;
      apply N.pow_nonzero; lia.
Qed.

Lemma le_dec_enc_id k v : v < 256 ^ N.of_nat k -> le_dec (le_enc k v) = v.
Proof. intros H. rewrite le_dec_enc. apply N.mod_small; exact H. Qed.

Lemma le_enc_dec b : bytes_ok b = true -> le_enc (length b) (le_dec b) = b.
Proof.
  induction b as [|x b IH]; intros H; auto.
  rewrite bytes_ok_cons, andb_true_iff in H. destruct H as [Hx Hb].
  unfold byte_ok in Hx. cbn [length le_enc le_dec].
  f_equal.
  - rewrite N.mul_comm, N.mod_add by lia. apply N.mod_small; lia.
  - rewrite N.mul_comm, N.div_add by lia. rewrite N.div_small by lia.
    rewrite N.add_0_l. auto.
Qed.

Lemma le_enc_inj k v w :
  v < 256 ^ N.of_nat k -> w < 256 ^ N.of_nat k -> le_enc k v = le_enc k w -> v = w.
Proof.
  intros Hv Hw H. rewrite <- (le_dec_enc_id k v Hv), <- (le_dec_enc_id k w Hw), H.
  reflexivity.
Qed.

Lemma le_dec_zeros n : le_dec (zeros n) = 0.
Proof. induction n as [|n IH]; simpl; auto. unfold zeros in IH. rewrite IH. reflexivity. Qed.

Lemma le_dec_app a b : le_dec (a ++ b) = le_dec a + 256 ^ N.of_nat (length a) * le_dec b.
Proof.
  induction a as [|x a IH].
  - simpl. lia.
  - cbn [app le_dec length]. rewrite IH, Nat2N.inj_succ, N.pow_succ_r'.
    generalize (256 ^ N.of_nat (length a)). intros P. rewrite <- N.mul_assoc. lia.
Qed.

(** ** Readers *)

Lemma copy_into_full buf x r : length x = length buf -> copy_into buf (x ++ r) = x.
Proof.
  intros H. unfold copy_into. rewrite <- H.
  rewrite firstn_app, firstn_all, Nat.sub_diag. cbn [firstn]. rewrite app_nil_r.
  rewrite app_length. rewrite skipn_all2 by lia. apply app_nil_r.
Qed.

Lemma skipn_exact {A} (x r : list A) n : length x = n -> skipn n (x ++ r) = r.
Proof. intros H; subst. rewrite skipn_app, skipn_all, Nat.sub_diag. reflexivity. Qed.
Lemma firstn_exact {A} (x r : list A) n : length x = n -> firstn n (x ++ r) = x.
Proof. intros H; subst. rewrite firstn_app, firstn_all, Nat.sub_diag. cbn. apply app_nil_r. Qed.

Lemma reader_read_full buf x r :
  length x = length buf -> x ++ r <> [] -> reader_read buf (x ++ r) = Ok (x, r).
Proof.
  intros H Hne. unfold reader_read. destruct (x ++ r) as [|y l] eqn:Hl; [congruence|].
  rewrite <- Hl. rewrite copy_into_full by exact H.
  rewrite skipn_exact by (rewrite H; reflexivity). reflexivity.
Qed.

Lemma buffer_read_full buf x r :
  length x = length buf -> buf <> [] -> buffer_read buf (x ++ r) = Ok (x, r).
Proof.
  intros H Hne. unfold buffer_read. destruct (x ++ r) as [|y l] eqn:Hl.
  - destruct x; destruct buf; simpl in *; congruence.
  - rewrite <- Hl. rewrite copy_into_full by exact H.
    rewrite skipn_exact by (rewrite H; reflexivity). reflexivity.
Qed.

Lemma length_copy_into buf r : length (copy_into buf r) = length buf.
Proof.
  unfold copy_into. rewrite app_length, firstn_length, skipn_length. lia.
Qed.

Lemma copy_into_ok buf r :
  bytes_ok buf = true -> bytes_ok r = true -> bytes_ok (copy_into buf r) = true.
Proof.
  intros Hb Hr. unfold copy_into. rewrite bytes_ok_app.
  rewrite bytes_ok_firstn, bytes_ok_skipn; auto.
Qed.

(** ** Strings *)

Lemma str_eqb_spec a b : str_eqb a b = true <-> a = b.
Proof.
  revert b; induction a as [|x a IH]; intros [|y b]; simpl; split; intros H;
    try congruence; auto.
  - apply andb_true_iff in H. destruct H as [H1 H2].
    apply N.eqb_eq in H1. apply IH in H2. congruence.
  - injection H as -> ->. rewrite N.eqb_refl. simpl. apply IH. reflexivity.
Qed.

Lemma is1_spec s : is1 s = true <-> s = s1.
Proof. apply str_eqb_spec. Qed.


Lemma bits_ok_1 s : bits_ok 1 s = true -> s = s0 \/ s = s1.
Proof.
  unfold bits_ok. destruct s as [|c [|]]; cbn [length forallb]; try discriminate.
  rewrite !andb_true_r. unfold bit_char, s0, s1, ch0, ch1. simpl. intros H.
  apply orb_true_iff in H. destruct H as [H|H]; apply N.eqb_eq in H; subst; auto.
Qed.

Lemma bits_ok_length n s : bits_ok n s = true -> length s = n.
Proof. unfold bits_ok. rewrite andb_true_iff. intros [H _]. apply Nat.eqb_eq; exact H. Qed.

Lemma bits_ok_forall n s : bits_ok n s = true -> forallb bit_char s = true.
Proof. unfold bits_ok. rewrite andb_true_iff. tauto. Qed.

Lemma bits_ok_app n m a b : bits_ok n a = true -> bits_ok m b = true -> bits_ok (n + m) (a ++ b) = true.
Proof.
  unfold bits_ok. rewrite !andb_true_iff. intros [Ha1 Ha2] [Hb1 Hb2].
  rewrite app_length, forallb_app, Ha2, Hb2. split; auto.
  apply Nat.eqb_eq in Ha1; apply Nat.eqb_eq in Hb1. apply Nat.eqb_eq. lia.
Qed.

Lemma bit_char_cases c : bit_char c = true -> c = ch0 \/ c = ch1.
Proof. unfold bit_char. rewrite orb_true_iff, !N.eqb_eq. tauto. Qed.

(** Any eight binary digits parse to a byte that prints as the same digits. *)
Lemma parse8_bits s :
  bits_ok 8 s = true -> exists v, parse8 s = Ok v /\ v < 256 /\ fmt_b 8 v = s.
Proof.
  intros H. pose proof (bits_ok_length _ _ H) as HL. apply bits_ok_forall in H.
  do 8 (destruct s as [|? s]; [discriminate HL|]). destruct s; [|discriminate HL].
  cbn [forallb] in H. rewrite !andb_true_iff in H.
  repeat match goal with H : _ /\ _ |- _ => destruct H end.
  repeat match goal with H : bit_char _ = true |- _ => apply bit_char_cases in H end.
  repeat match goal with H : _ \/ _ |- _ => destruct H; subst end;
  (eexists; split; [vm_compute; reflexivity | split; [reflexivity | vm_compute; reflexivity]]).
Qed.

(** All bytes, by exhaustive check. *)
Definition all_bytes : list N := map N.of_nat (seq 0 256).
Lemma all_bytes_spec v : v < 256 -> In v all_bytes.
Proof.
  intros H. apply in_map_iff. exists (N.to_nat v). split; [lia|].
  apply in_seq. lia.
Qed.
Lemma byte_sweep (P : N -> bool) : forallb P all_bytes = true -> forall v, v < 256 -> P v = true.
Proof.
  intros H v Hv. rewrite forallb_forall in H. apply H. apply all_bytes_spec; exact Hv.
Qed.

Lemma fmt8_bits v : v < 256 -> bits_ok 8 (fmt_b 8 v) = true.
Proof. revert v. apply byte_sweep. vm_compute. reflexivity. Qed.

Lemma fmt8_length v : v < 256 -> length (fmt_b 8 v) = 8%nat.
Proof. intros H. apply bits_ok_length, fmt8_bits; exact H. Qed.

Definition res_N_eqb (r : res N) (v : N) : bool := match r with Ok w => w =? v | _ => false end.
Lemma parse8_fmt8 v : v < 256 -> parse8 (fmt_b 8 v) = Ok v.
Proof.
  intros H. assert (res_N_eqb (parse8 (fmt_b 8 v)) v = true) as Hb.
  { revert v H. apply byte_sweep. vm_compute. reflexivity. }
  destruct (parse8 (fmt_b 8 v)); simpl in Hb; try discriminate.
  apply N.eqb_eq in Hb. congruence.
Qed.

Lemma fmt8_inj v w : v < 256 -> w < 256 -> fmt_b 8 v = fmt_b 8 w -> v = w.
Proof.
  intros Hv Hw H. pose proof (parse8_fmt8 v Hv) as H1. rewrite H, parse8_fmt8 in H1 by exact Hw.
  congruence.
Qed.

Lemma blen_app a b : blen (a ++ b) = blen a + blen b.
Proof. unfold blen. rewrite app_length. lia. Qed.

Lemma byte_ok_lt b : byte_ok b = true <-> b < 256.
Proof. unfold byte_ok. apply N.ltb_lt. Qed.

Lemma u8_ok x : byte_ok (u8 x) = true.
Proof. unfold u8, byte_ok. lia. Qed.

Lemma bytes_ok_nth b i : bytes_ok b = true -> nth i b 0 < 256.
Proof.
  revert i; induction b as [|x b IH]; intros [|i] H; simpl; try lia.
  - apply andb_true_iff in H. destruct H as [H _]. apply byte_ok_lt; exact H.
  - apply andb_true_iff in H. destruct H as [_ H]. auto.
Qed.

Lemma bits1_char s : bits_ok 1 s = true -> exists c, s = [c] /\ bit_char c = true.
Proof.
  intros H. pose proof (bits_ok_length _ _ H) as HL. apply bits_ok_forall in H.
  destruct s as [|c [|]]; try discriminate. cbn in H. rewrite andb_true_r in H. eauto.
Qed.
Lemma bits2_char s : bits_ok 2 s = true -> exists c d, s = [c; d] /\ bit_char c = true /\ bit_char d = true.
Proof.
  intros H. pose proof (bits_ok_length _ _ H) as HL. apply bits_ok_forall in H.
  destruct s as [|c [|d [|]]]; try discriminate. cbn in H. rewrite andb_true_r, andb_true_iff in H.
  exists c, d. tauto.
Qed.

(** A read that gets fewer bytes than asked for keeps the tail of the buffer. *)
Lemma reader_read_short buf x :
  (length x <= length buf)%nat -> x <> [] ->
  reader_read buf x = Ok (x ++ skipn (length x) buf, []).
Proof.
  intros Hl Hn. unfold reader_read. destruct x as [|y x]; [congruence|].
  unfold copy_into. rewrite firstn_all2, (skipn_all2 (n := length buf)) by exact Hl. reflexivity.
Qed.

(** Consecutive numbers, enumerated in binary. *)
Fixpoint upto (n : nat) (v : N) : list N :=
  match n with O => [] | S n' => v :: upto n' (v + 1) end.
Lemma upto_spec n v w : v <= w < v + N.of_nat n -> In w (upto n v).
Proof.
  revert v; induction n as [|n IH]; intros v H; [lia|]. cbn [upto].
  destruct (N.eq_dec v w) as [->|Hn]; [left; reflexivity|]. right. apply IH. lia.
Qed.
Lemma upto_sweep (P : N -> bool) n : forallb P (upto (N.to_nat n) 0) = true -> forall v, v < n -> P v = true.
Proof.
  intros H v Hv. rewrite forallb_forall in H. apply H. apply upto_spec. lia.
Qed.
