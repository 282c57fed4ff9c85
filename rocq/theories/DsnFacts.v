(** * DsnFacts: the lemmas behind Prop_Dsn. *)
From Coq Require Import String List.
From Verif Require Import GoBase Float64 Storage Connectors Dsn Spec_Storage Spec_Yaml Spec_Dsn BaseFacts StorageFacts YamlFacts.
From Coq Require Import Lia Bool ZifyBool ZifyN ZifyNat.

Lemma pq_space_white c : pq_space c = true <-> white c.
Proof. unfold pq_space, white. lia. Qed.
Lemma pq_space_no c : pq_space c = false <-> ~ white c.
Proof. rewrite <- pq_space_white. destruct (pq_space c); split; congruence. Qed.

Lemma pq_skip_split s : exists a, s = a ++ pq_skip s /\ Forall (fun c => pq_space c = true) a.
Proof.
  induction s as [|c s IH]; cbn [pq_skip]; [exists []; split; [reflexivity|constructor]|].
  destruct (pq_space c) eqn:H; [|exists []; split; [reflexivity|constructor]].
  destruct IH as (a & H1 & H2). exists (c :: a). split; [cbn; rewrite <- H1; reflexivity|constructor; assumption].
Qed.
Lemma pq_skip_head s c r : pq_skip s = c :: r -> pq_space c = false.
Proof.
  induction s as [|x s IH]; cbn [pq_skip]; [discriminate|]. destruct (pq_space x) eqn:H; [exact IH|]. intros [= <- _]. exact H.
Qed.
Lemma pq_skip_id c s : pq_space c = false -> pq_skip (c :: s) = c :: s.
Proof. intros H. cbn [pq_skip]. rewrite H. reflexivity. Qed.

Definition key_char (c : N) : Prop := pq_space c = false /\ c <> 61.
Lemma pq_key_split s : forall k r, pq_key s = (k, r) -> s = k ++ r /\ Forall key_char k.
Proof.
  induction s as [|c s IH]; intros k r; cbn [pq_key]; [intros [= <- <-]; split; [reflexivity|constructor]|].
  destruct (pq_space c || (c =? 61)) eqn:H; [intros [= <- <-]; split; [reflexivity|constructor]|].
  destruct (pq_key s) as [k0 r0]. intros [= <- <-]. destruct (IH _ _ eq_refl) as [-> Hk].
  split; [reflexivity|]. constructor; [|exact Hk]. apply orb_false_elim in H as [H1 H2]. split; [exact H1|]. lia.
Qed.
Lemma pq_key_forward k s : Forall key_char k -> pq_key (k ++ 61 :: s) = (k, 61 :: s).
Proof.
  induction 1 as [|c k [H1 H2] _ IH]; cbn [app pq_key]; [reflexivity|]. rewrite H1.
  destruct (N.eqb_spec c 61); [congruence|]. cbn [orb]. rewrite IH. reflexivity.
Qed.

Definition val_char (c : N) : Prop := pq_space c = false /\ c <> 92.
(** how much text a value takes *)
Lemma pq_plain_cost s : forall v r, pq_plain s = Some (v, r) -> exists e t,
  length s = (length v + length r + e + t)%nat /\ ((t = 0%nat /\ r = []) \/ t = 1%nat) /\
  (e = 0%nat -> Forall val_char v /\ (s = v \/ exists w, pq_space w = true /\ s = v ++ w :: r)) /\
  (e = 0%nat -> t = 0%nat -> s = v).
Proof.
  assert (Hn : forall n s, (length s <= n)%nat -> forall v r, pq_plain s = Some (v, r) -> exists e t,
  length s = (length v + length r + e + t)%nat /\ ((t = 0%nat /\ r = []) \/ t = 1%nat) /\
  (e = 0%nat -> Forall val_char v /\ (s = v \/ exists w, pq_space w = true /\ s = v ++ w :: r)) /\
  (e = 0%nat -> t = 0%nat -> s = v)); [|exact (Hn (length s) s (le_n _))].
  clear s. induction n as [|n IHn]; intros s Hs v r.
  { destruct s; [|cbn in Hs; lia]. cbn. intros [= <- <-]. exists 0%nat, 0%nat. cbn. intuition. }
  destruct s as [|c s]; cbn [pq_plain].
  { intros [= <- <-]. exists 0%nat, 0%nat. cbn. intuition. }
  cbn [length] in Hs. destruct (pq_space c) eqn:Hc.
  { intros [= <- <-]. exists 0%nat, 1%nat. cbn [length app]. split; [lia|]. split; [right; reflexivity|].
    split; [intros _; split; [constructor|right; exists c; split; [exact Hc|reflexivity]]|lia]. }
  destruct (N.eqb_spec c 92) as [->|Hne].
  - destruct s as [|d s]; [discriminate|]. cbn [length] in Hs. destruct (pq_plain s) as [[v0 r0]|] eqn:He; [|discriminate].
    cbn [on_fst]. intros [= <- <-]. destruct (IHn s ltac:(lia) _ _ He) as (e & t & H1 & H2 & _). exists (S e), t. cbn [length].
    split; [lia|]. split; [exact H2|]. split; [discriminate|discriminate].
  - destruct (pq_plain s) as [[v0 r0]|] eqn:He; [|discriminate].
    cbn [on_fst]. intros [= <- <-]. destruct (IHn s ltac:(lia) _ _ He) as (e & t & H1 & H2 & H3 & H4). exists e, t. cbn [length app].
    split; [lia|]. split; [exact H2|]. split.
    + intros E0. destruct (H3 E0) as [Hv Hs3]. split; [constructor; [split; assumption|exact Hv]|].
      destruct Hs3 as [->|(w & Hw & ->)]; [left; reflexivity|right; exists w; split; [exact Hw|reflexivity]].
    + intros E0 T0. rewrite <- (H4 E0 T0). reflexivity.
Qed.
Lemma pq_quoted_cost s : forall v r, pq_quoted s = Some (v, r) -> (length v + length r + 1 <= length s)%nat.
Proof.
  assert (Hn : forall n s, (length s <= n)%nat -> forall v r, pq_quoted s = Some (v, r) -> (length v + length r + 1 <= length s)%nat);
    [|exact (Hn (length s) s (le_n _))].
  clear s. induction n as [|n IHn]; intros s Hs v r; (destruct s as [|c s]; [discriminate|]); cbn [length] in Hs; [lia|].
  cbn [pq_quoted length]. destruct (c =? 39); [intros [= <- <-]; cbn; lia|]. destruct (c =? 92).
  - destruct s as [|d s]; [discriminate|]. cbn [length] in *. destruct (pq_quoted s) as [[v0 r0]|] eqn:He; [|discriminate].
    cbn [on_fst]. intros [= <- <-]. specialize (IHn s ltac:(lia) _ _ He). cbn [length]. lia.
  - destruct (pq_quoted s) as [[v0 r0]|] eqn:He; [|discriminate].
    cbn [on_fst]. intros [= <- <-]. specialize (IHn s ltac:(lia) _ _ He). cbn [length]. lia.
Qed.
Lemma pq_plain_forward v w s : Forall val_char v -> pq_space w = true -> pq_plain (v ++ w :: s) = Some (v, s).
Proof.
  induction 1 as [|c v [H1 H2] _ IH]; intros Hw; cbn [app pq_plain]; [rewrite Hw; reflexivity|].
  rewrite H1. destruct (N.eqb_spec c 92); [congruence|]. rewrite IH by exact Hw. reflexivity.
Qed.
Lemma pq_plain_end v : Forall val_char v -> pq_plain v = Some (v, []).
Proof.
  induction 1 as [|c v [H1 H2] _ IH]; cbn [pq_plain]; [reflexivity|].
  rewrite H1. destruct (N.eqb_spec c 92); [congruence|]. rewrite IH. reflexivity.
Qed.

(** ** the whole text *)
Definition seg (e : gostr * gostr) : gostr := fst e ++ 61 :: snd e.
Fixpoint join (l : list gostr) : gostr :=
  match l with [] => [] | [x] => x | x :: l' => x ++ 32 :: join l' end.
Definition weight (o : list (gostr * gostr)) : nat := fold_right (fun (e : gostr * gostr) n => (length (fst e) + length (snd e) + 2 + n)%nat) 0%nat o.

Definition plain_val (v : gostr) : Prop := Forall val_char v /\ forall v', v <> 39 :: v'.
Fixpoint tight (o : list (gostr * gostr)) : Prop :=
  match o with
  | [] => True
  | [(k, v)] => Forall key_char k /\ plain_val v
  | (k, v) :: o' => Forall key_char k /\ plain_val v /\ v <> [] /\ tight o'
  end.

(** [s] with any white space between segments *)
Inductive laid : gostr -> list (gostr * gostr) -> Prop :=
| laid_one e : laid (seg e) [e]
| laid_more e w s o : pq_space w = true -> laid s o -> laid (seg e ++ w :: s) (e :: o).

Lemma tight_cons k v e o : tight ((k, v) :: e :: o) = (Forall key_char k /\ plain_val v /\ v <> [] /\ tight (e :: o)).
Proof. reflexivity. Qed.

Lemma pq_loop_cost n : forall s o, pq_loop n s = Some o -> o <> [] ->
  (weight o <= length s + 1)%nat /\ (weight o = length s + 1 -> tight o /\ laid s o)%nat.
Proof.
  induction n as [|n IH]; intros s o; cbn [pq_loop].
  { destruct (pq_skip s); [intros [= <-]; congruence|discriminate]. }
  destruct (pq_skip_split s) as (a & Hs & _). destruct (pq_skip s) as [|x s1] eqn:Hsk; [intros [= <-]; congruence|].
  destruct (pq_key (x :: s1)) as [k s2] eqn:Hk. apply pq_key_split in Hk as [Hk1 Hk2].
  destruct (pq_skip_split s2) as (b & Hs2 & _). destruct (pq_skip s2) as [|e s3]; [discriminate|].
  destruct (N.eqb_spec e 61) as [->|]; [|discriminate].
  destruct (pq_skip_split s3) as (c & Hs3 & _). destruct (pq_skip s3) as [|y s4] eqn:Hy.
  { intros [= <-] _. cbn [weight fold_right fst snd length]. rewrite Hs, Hk1, Hs2, Hs3, !app_length. cbn [length]. rewrite !app_length. cbn [length].
    split; [lia|]. intros Hl. destruct a; [|cbn in Hl; lia]. destruct b; [|cbn in Hl; lia]. destruct c; [|cbn in Hl; lia].
    split; [split; [exact Hk2|split; [constructor|discriminate]]|]. rewrite !app_nil_l. exact (laid_one (k, [])). }
  assert (Hyw : pq_space y = false) by (exact (pq_skip_head _ _ _ Hy)).
  assert (Hlen : length s = (length a + length k + length b + 1 + length c + (1 + length s4))%nat).
  { rewrite Hs, Hk1, Hs2, Hs3, !app_length. cbn [length]. rewrite !app_length. cbn [length]. lia. }
  destruct (N.eqb_spec y 39) as [->|Hq].
  - destruct (pq_quoted s4) as [[v s5]|] eqn:Hv; [|discriminate]. apply pq_quoted_cost in Hv.
    destruct (pq_loop n s5) as [o'|] eqn:Ho; [|discriminate]. intros [= <-] _. cbn [weight fold_right fst snd].
    destruct o' as [|e' o']; [cbn [fold_right]; split; lia|].
    destruct (IH _ _ Ho ltac:(discriminate)) as [Hw _]. unfold weight in Hw. split; lia.
  - destruct (pq_plain (y :: s4)) as [[v s5]|] eqn:Hv; [|discriminate].
    assert (Hv0 : v <> []).
    { cbn [pq_plain] in Hv. rewrite Hyw in Hv. destruct (y =? 92); [destruct s4; [discriminate|]|];
        (destruct (pq_plain _) as [[? ?]|] in Hv; [|discriminate]); cbn [on_fst] in Hv; injection Hv as <- _; discriminate. }
    apply pq_plain_cost in Hv as (es & t & Hc & Ht & Hp & Hp0). cbn [length] in Hc.
    destruct (pq_loop n s5) as [o'|] eqn:Ho; [|discriminate]. intros [= <-] _. cbn [weight fold_right fst snd].
    assert (Hpv : es = 0%nat -> plain_val v).
    { intros E0. destruct (Hp E0) as [Hf Hsv]. split; [exact Hf|]. intros v' ->. destruct Hsv as [Hsv|(w & _ & Hsv)]; injection Hsv as Hsv _; congruence. }
    destruct o' as [|e' o'].
    + cbn [fold_right]. split; [lia|]. intros Hl.
      assert (es = 0 /\ t = 0 /\ length a = 0 /\ length b = 0 /\ length c = 0)%nat as (E0 & T0 & A0 & B0 & C0) by lia.
      split; [split; [exact Hk2|exact (Hpv E0)]|].
      destruct a; [|discriminate]. destruct b; [|discriminate]. destruct c; [|discriminate]. cbn [app] in *.
      rewrite Hs, Hk1, Hs2, Hs3, (Hp0 E0 T0). exact (laid_one (k, v)).
    + destruct (IH _ _ Ho ltac:(discriminate)) as [Hw1 Hw2]. unfold weight in Hw1, Hw2.
      assert (s5 <> []). { intros ->. destruct n; cbn in Ho; discriminate. }
      assert (T1 : t = 1%nat) by (destruct Ht as [[_ ->]|]; [congruence|assumption]).
      split; [lia|]. intros Hl.
      assert (es = 0 /\ length a = 0 /\ length b = 0 /\ length c = 0)%nat as (E0 & A0 & B0 & C0) by lia.
      destruct Hw2 as [Ht1 Ht2]; [lia|]. split.
      * rewrite tight_cons. split; [exact Hk2|]. split; [exact (Hpv E0)|]. split; [exact Hv0|exact Ht1].
      * destruct a; [|discriminate]. destruct b; [|discriminate]. destruct c; [|discriminate]. cbn [app] in *.
        destruct (Hp E0) as [_ [Hsv|(w & Hw & Hsv)]].
        { exfalso. rewrite Hsv in *. apply (f_equal (@length N)) in Hsv. cbn [length] in Hsv. destruct s5; [congruence|]. cbn [length] in Hc. lia. }
        rewrite Hs, Hk1, Hs2, Hs3, Hsv. replace (k ++ 61 :: v ++ w :: s5) with (seg (k, v) ++ w :: s5) by (unfold seg; cbn [fst snd]; rewrite <- app_assoc; reflexivity).
        constructor; assumption.
Qed.

(** segments without white space are determined by the text *)
Definition seg_ok (e : gostr * gostr) : Prop := Forall key_char (fst e) /\ Forall (fun c => pq_space c = false) (snd e).
Lemma seg_nospace e : seg_ok e -> Forall (fun c => pq_space c = false) (seg e).
Proof.
  intros [H1 H2]. unfold seg. apply Forall_app. split; [eapply Forall_impl; [|exact H1]; intros c [H _]; exact H|].
  constructor; [reflexivity|exact H2].
Qed.
Lemma key_split k v k' v' : Forall key_char k -> Forall key_char k' -> k ++ 61 :: v = k' ++ 61 :: v' -> k = k' /\ v = v'.
Proof.
  intros Hk. revert k'. induction Hk as [|c k [_ Hc] _ IH]; intros [|c' k'] Hk' H; cbn [app] in H.
  - injection H as ->. split; reflexivity.
  - injection H as <- _. inversion Hk' as [|? ? [_ Hx] _]. congruence.
  - injection H as -> _. congruence.
  - injection H as -> H. inversion Hk' as [|? ? _ Hk'']. destruct (IH k' Hk'' H) as [-> ->]. split; reflexivity.
Qed.
Lemma space_split a b w w' x y : Forall (fun c => pq_space c = false) a -> Forall (fun c => pq_space c = false) b ->
  pq_space w = true -> pq_space w' = true -> a ++ w :: x = b ++ w' :: y -> a = b /\ x = y.
Proof.
  intros Ha. revert b. induction Ha as [|c a Hc _ IH]; intros [|c' b] Hb Hw Hw' H; cbn [app] in H.
  - injection H as _ ->. split; reflexivity.
  - injection H as <- _. inversion Hb. congruence.
  - injection H as -> _. congruence.
  - injection H as -> H. inversion Hb as [|? ? _ Hb']. destruct (IH b Hb' Hw Hw' H) as [-> ->]. split; reflexivity.
Qed.
Lemma no_space_in a b w x : Forall (fun c => pq_space c = false) a -> pq_space w = true -> a <> b ++ w :: x.
Proof. intros Ha Hw ->. apply Forall_app in Ha as [_ Ha]. inversion Ha. congruence. Qed.
Lemma seg_inj e e' : Forall key_char (fst e) -> Forall key_char (fst e') -> seg e = seg e' -> e = e'.
Proof. destruct e as [k v], e' as [k' v']. cbn [fst]. intros H1 H2 H. unfold seg in H. cbn [fst snd] in H. destruct (key_split _ _ _ _ H1 H2 H) as [-> ->]. reflexivity. Qed.
Lemma laid_unique s o : laid s o -> forall o', laid s o' -> Forall seg_ok o -> Forall seg_ok o' -> o = o'.
Proof.
  induction 1 as [e|e w s o Hw Hl IH]; intros o' Hl' Ho Ho'.
  - inversion Ho as [|? ? He _]; subst. inversion Hl' as [e' Heq|e' w' s' o1 Hw' Hl1 Heq].
    + subst. inversion Ho' as [|? ? He' _]; subst. f_equal. apply seg_inj; [apply He|apply He'|congruence].
    + exfalso. symmetry in Heq. exact (no_space_in _ _ _ _ (seg_nospace _ He) Hw' Heq).
  - inversion Ho as [|? ? He Hos]; subst. inversion Hl' as [e' Heq|e' w' s' o1 Hw' Hl1 Heq]; subst.
    + inversion Ho' as [|? ? He' _]; subst. exfalso. exact (no_space_in _ _ _ _ (seg_nospace _ He') Hw Heq).
    + inversion Ho' as [|? ? He' Hos']; subst. apply space_split in Heq as [H1 H2]; try assumption; try (apply seg_nospace; assumption).
      subst. f_equal; [symmetry; apply seg_inj; [apply He'|apply He|exact H1]|]. apply IH; assumption.
Qed.
Lemma tight_seg_ok o : tight o -> Forall seg_ok o.
Proof.
  assert (Hp : forall k v, Forall key_char k -> plain_val v -> seg_ok (k, v)).
  { intros k v Hk [Hv _]. split; [exact Hk|]. eapply Forall_impl; [|exact Hv]. intros c [H _]. exact H. }
  induction o as [|[k v] [|e o] IH]; [constructor| |].
  - intros [Hk Hv]. constructor; [apply Hp; assumption|constructor].
  - rewrite tight_cons. intros (Hk & Hv & _ & Ht). constructor; [apply Hp; assumption|apply IH; exact Ht].
Qed.

(** reading a tight list back *)
Lemma pq_loop_tight o : forall n s, o <> [] -> tight o -> laid s o -> (length o <= n)%nat -> pq_loop n s = Some o.
Proof.
  induction o as [|[k v] o IH]; intros n s Hne Ht Hl Hn; [congruence|].
  cbn [length] in Hn. destruct n as [|n]; [lia|].
  assert (Hkv : Forall key_char k /\ plain_val v). { destruct o; [exact Ht|rewrite tight_cons in Ht; tauto]. }
  destruct Hkv as [Hk [Hv Hq]].
  assert (Hstep : forall tl, pq_loop (S n) (seg (k, v) ++ tl) =
     match pq_skip (v ++ tl) with [] => Some [(k, [])] | c :: s4 =>
       match (if c =? 39 then pq_quoted s4 else pq_plain (c :: s4)) with None => None
       | Some (v, s5) => match pq_loop n s5 with Some o => Some ((k, v) :: o) | None => None end end end).
  { intros tl. unfold seg. cbn [fst snd]. rewrite <- app_assoc. cbn [app]. cbn [pq_loop].
    assert (Hskip : pq_skip (k ++ 61 :: v ++ tl) = k ++ 61 :: v ++ tl).
    { destruct Hk as [|c k [Hc _] _]; [reflexivity|]. cbn [app]. apply pq_skip_id. exact Hc. }
    rewrite Hskip. assert (Hkk := pq_key_forward k (v ++ tl) Hk).
    destruct (k ++ 61 :: v ++ tl) as [|x s1] eqn:Hx; [destruct k; discriminate|]. rewrite Hkk. reflexivity. }
  inversion Hl as [e Heq|e w s' o1 Hw Hl1 Heq]; subst.
  - specialize (Hstep []). rewrite app_nil_r in Hstep. rewrite Hstep, app_nil_r. destruct v as [|c v]; [reflexivity|].
    inversion Hv as [|? ? Hc _]; subst. rewrite pq_skip_id by apply Hc.
    destruct (N.eqb_spec c 39) as [->|]; [exfalso; apply (Hq v); reflexivity|].
    rewrite pq_plain_end by exact Hv. destruct n; reflexivity.
  - rewrite Hstep. destruct o as [|e' o]; [inversion Hl1|]. rewrite tight_cons in Ht. destruct Ht as (_ & _ & Hv0 & Ht).
    destruct v as [|c v]; [congruence|]. inversion Hv as [|? ? Hc _]; subst. cbn [app]. rewrite pq_skip_id by apply Hc.
    destruct (N.eqb_spec c 39) as [->|]; [exfalso; apply (Hq v); reflexivity|].
    change (c :: v ++ w :: s') with ((c :: v) ++ w :: s'). rewrite pq_plain_forward by assumption.
    rewrite (IH n s' ltac:(discriminate) Ht Hl1 ltac:(lia)). reflexivity.
Qed.

(** ** last values and weight *)
Definition weigh (o : list (gostr * gostr)) (k : gostr) : nat :=
  match given o k with Some v => (length k + length v + 2)%nat | None => 0%nat end.
Lemma weigh_le o : forall ks, NoDup ks -> (fold_right (fun k n => (weigh o k + n)%nat) 0%nat ks <= weight o)%nat.
Proof.
  induction o as [|[k0 v0] o IH]; intros ks Hn.
  - cbn [weight fold_right]. induction ks as [|k ks IHk]; cbn [fold_right]; [lia|]. inversion Hn; subst. unfold weigh. cbn [given]. auto.
  - assert (Hstep : (fold_right (fun k n => (weigh ((k0, v0) :: o) k + n)%nat) 0%nat ks
        <= (if in_dec (list_eq_dec N.eq_dec) k0 ks then length k0 + length v0 + 2 else 0) + fold_right (fun k n => (weigh o k + n)%nat) 0%nat ks)%nat).
    { clear IH. induction ks as [|k ks IHk]; [cbn; lia|]. inversion Hn as [|? ? Hk Hn']; subst. specialize (IHk Hn').
      cbn [fold_right].
      assert (W : weigh ((k0, v0) :: o) k = match given o k with Some v => (length k + length v + 2)%nat
        | None => if list_eq_dec N.eq_dec k0 k then (length k + length v0 + 2)%nat else 0%nat end).
      { unfold weigh. cbn [given]. destruct (given o k); [reflexivity|]. destruct (list_eq_dec N.eq_dec k0 k); reflexivity. }
      assert (W0 : weigh o k = match given o k with Some v => (length k + length v + 2)%nat | None => 0%nat end) by reflexivity.
      rewrite W, W0. clear W W0.
      destruct (in_dec (list_eq_dec N.eq_dec) k0 (k :: ks)) as [Hi|Hi]; destruct (in_dec (list_eq_dec N.eq_dec) k0 ks) as [Hi'|Hi'];
        destruct (list_eq_dec N.eq_dec k0 k) as [->|Hkk]; destruct (given o k); cbn [In] in *; try tauto; try lia;
        exfalso; destruct Hi as [He|He]; try congruence; tauto. }
    specialize (IH ks Hn). cbn [weight fold_right fst snd]. unfold weight in IH. destruct (in_dec (list_eq_dec N.eq_dec) k0 ks); lia.
Qed.

(** ** the connection string *)
Definition six (m : list (gostr * gostr)) : list (gostr * gostr) := map (fun ks => (text (fst ks), setting m (snd ks))) pg_parameters.
Lemma pg_dsn_laid m : laid (pg_dsn m) (six m).
Proof.
  assert (Heq : pg_dsn m = seg (text "dbname", setting m "database") ++ 32 :: seg (text "host", setting m "host") ++ 32 ::
    seg (text "port", setting m "port") ++ 32 :: seg (text "user", setting m "user") ++ 32 ::
    seg (text "password", setting m "password") ++ 32 :: seg (text "sslmode", setting m "sslmode")).
  { unfold pg_dsn, seg, setting. cbn [fst snd]. change (text "database") with k_database. change (text "host") with k_host.
    change (text "port") with k_port. change (text "user") with k_user. change (text "password") with k_password.
    change (text "sslmode") with k_sslmode. rewrite <- !app_assoc. reflexivity. }
  rewrite Heq. unfold six, pg_parameters. cbn [map fst snd]. repeat (apply laid_more; [reflexivity|]). apply laid_one.
Qed.
Lemma pg_dsn_length m : (length (pg_dsn m) + 1 = weight (six m))%nat.
Proof.
  assert (H : forall s o, laid s o -> (length s + 1 = weight o)%nat); [|apply H, pg_dsn_laid].
  assert (Hseg : forall e, length (seg e) = (length (fst e) + length (snd e) + 1)%nat) by (intros e; unfold seg; rewrite app_length; cbn [length]; lia).
  intros s o H. induction H as [e|e w s o Hw _ IH]; unfold weight in *; cbn [fold_right].
  - rewrite Hseg. lia.
  - rewrite app_length, Hseg, <- IH. cbn [length]. lia.
Qed.
Lemma six_keys m : NoDup (map fst (six m)).
Proof. unfold six, pg_parameters. cbn [map fst snd]. repeat (constructor; [cbn [In]; intuition discriminate|]). constructor. Qed.
Lemma given_nodup (o : list (gostr * gostr)) k v : NoDup (map fst o) -> In (k, v) o -> given o k = Some v.
Proof.
  induction o as [|[k0 v0] o IH]; [intros _ []|]. cbn [map fst]. intros Hn [[= -> ->]|Hi]; inversion Hn; subst; cbn [given].
  - rewrite given_notin by assumption. destruct (list_eq_dec N.eq_dec k k); congruence.
  - rewrite (IH ltac:(assumption) Hi). reflexivity.
Qed.
Lemma receives_six m o : receives m o -> fold_right (fun k n => (weigh o k + n)%nat) 0%nat (map fst (six m)) = weight (six m).
Proof.
  unfold receives, six. induction 1 as [|ks l Hg _ IH]; [reflexivity|]. cbn [map fold_right fst]. unfold weight. cbn [fold_right map fst snd].
  fold (weight (map (fun ks => (text (fst ks), setting m (snd ks))) l)). rewrite <- IH. unfold weigh. rewrite Hg. lia.
Qed.
Lemma dsn_iff m : (exists o, pq_read (pg_dsn m) = Some o /\ receives m o) <-> tight (six m).
Proof.
  split.
  - intros (o & Hr & Ho). pose proof (weigh_le o _ (six_keys m)) as Hw. rewrite (receives_six _ _ Ho), <- pg_dsn_length in Hw.
    assert (Hne : o <> []). { intros ->. cbn in Hw. unfold pg_dsn in Hw. cbn in Hw. lia. }
    destruct (pq_loop_cost _ _ _ Hr Hne) as [H1 H2]. destruct H2 as [Ht Hl]; [lia|].
    assert (Hval : forall k v, In (k, v) o -> plain_val v).
    { clear -Ht. induction o as [|[k0 v0] [|e o] IH]; intros k v; [intros []| |].
      - intros [[= <- <-]|[]]. apply Ht.
      - rewrite tight_cons in Ht. destruct Ht as (_ & Hv & _ & Ht). intros [[= <- <-]|Hi]; [exact Hv|exact (IH Ht k v Hi)]. }
    assert (Hsix : Forall seg_ok (six m)).
    { apply Forall_forall. intros [k v] Hi.
      assert (Hkc : Forall key_char k).
      { unfold six, pg_parameters in Hi. cbn [map fst snd In] in Hi.
        repeat (destruct Hi as [Hi|Hi]; [injection Hi as <- _; repeat (constructor; [split; [reflexivity|discriminate]|]); constructor|]). destruct Hi. }
      split; [exact Hkc|]. cbn [snd]. unfold receives in Ho. rewrite Forall_forall in Ho. unfold six in Hi. apply in_map_iff in Hi as (ks & Hks & Hi).
      injection Hks as Hk1 Hk2. specialize (Ho ks Hi). rewrite Hk1, Hk2 in Ho. apply given_in in Ho. apply Hval in Ho as [Ho _].
      eapply Forall_impl; [|exact Ho]. intros c [Hc _]. exact Hc. }
    rewrite (laid_unique _ _ (pg_dsn_laid m) o Hl Hsix (tight_seg_ok _ Ht)). exact Ht.
  - intros Ht. exists (six m). split.
    + apply pq_loop_tight; [discriminate|exact Ht|apply pg_dsn_laid|]. pose proof (pg_dsn_length m). unfold six, pg_parameters in *. cbn [map length weight fold_right fst snd] in *. lia.
    + unfold receives. apply Forall_forall. intros ks Hi. apply given_nodup; [apply six_keys|]. unfold six. apply in_map_iff. exists ks. split; [reflexivity|exact Hi].
Qed.
Lemma plain_unquoted v : plain_val v <-> unquoted v.
Proof.
  unfold plain_val, unquoted, val_char. split; intros [H1 H2]; (split; [eapply Forall_impl; [|exact H1]|exact H2]);
    intros c; cbn beta; rewrite <- pq_space_no; tauto.
Qed.
