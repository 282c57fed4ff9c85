(** * HangFacts: proofs about storages that do not answer. *)
From Coq Require Import Lia List.
From Verif Require Import GoBase Crc Float64 SubRecords Records Package Storage Server Hang
  Spec_Bits Spec_Wf Spec_Rec Spec_Pkg Spec_Server ServerFacts2 GlueServer.
Import ListNotations.
Local Open Scope nat_scope.

Lemma handed_app k a b : handed k (a ++ b) = handed k a ++ handed k b.
Proof. apply flat_map_app. Qed.
Lemma replies_app a b : replies (a ++ b) = replies a ++ replies b.
Proof. apply flat_map_app. Qed.
(** storages [a], ..., [a + len - 1] are called *)
Definition calls (a len : nat) (n : nav_record) : list hevent := map (fun j => HCalled j n) (seq a len).
Lemma replies_calls n len : forall a, replies (calls a len n) = [].
Proof. induction len as [|len IH]; intros a; [reflexivity|]. cbn. apply IH. Qed.
Lemma handed_calls n len j : forall a, handed j (calls a len n) = if (a <=? j) && (j <? a + len) then [n] else [].
Proof.
  induction len as [|len IH]; intros a.
  - unfold calls. cbn [seq map handed flat_map]. destruct (Nat.leb_spec a j), (Nat.ltb_spec j (a + 0)); cbn [andb]; try reflexivity; lia.
  - unfold calls. cbn [seq map handed flat_map]. fold (calls (S a) len n). fold (handed j (calls (S a) len n)). rewrite IH.
    destruct (Nat.eqb_spec j a), (Nat.leb_spec (S a) j), (Nat.ltb_spec j (S a + len)), (Nat.leb_spec a j), (Nat.ltb_spec j (a + S len)); cbn [andb app]; try reflexivity; lia.
Qed.

Section General.
Context {E : go_env}.
Variable K : nat.

(** ** A hang is a failure after which nothing happens *)
Definition as_failure (ans : nat -> list nav_record -> h_out) (j : nat) (h : list nav_record) : h_out :=
  match ans j h with HHang => HErr | o => o end.
Lemma hsave_cut ans n : forall left k tr, hsave (as_failure ans) left k n tr = (fst (hsave ans left k n tr), false).
Proof.
  induction left as [|left IH]; intros k tr; [reflexivity|]. cbn [hsave]. unfold as_failure at 1.
  destruct (ans k (handed k (tr ++ [HCalled k n]))); [apply IH|reflexivity|reflexivity].
Qed.
Lemma hsave_held ans n : forall left k tr, snd (hsave ans left k n tr) = true -> exists j,
  ans j (handed j (fst (hsave ans left k n tr))) = HHang /\ (k <= j < k + left)%nat /\ fst (hsave ans left k n tr) = tr ++ calls k (S j - k) n.
Proof.
  induction left as [|left IH]; intros k tr; cbn [hsave]; [discriminate|].
  destruct (ans k (handed k (tr ++ [HCalled k n]))) eqn:A.
  - intros H. destruct (IH _ _ H) as (j & Hj & Hk & Hc). exists j. split; [exact Hj|]. split; [lia|].
    rewrite Hc. rewrite <- app_assoc. f_equal. replace (S j - k)%nat with (S (S j - S k))%nat by lia. reflexivity.
  - discriminate.
  - intros _. exists k. cbn [fst]. split; [exact A|]. split; [lia|]. replace (S k - k)%nat with 1%nat by lia. reflexivity.
Qed.
Lemma hsave_extends ans n : forall left k tr, exists rest, fst (hsave ans left k n tr) = tr ++ rest.
Proof.
  induction left as [|left IH]; intros k tr; cbn [hsave]; [exists []; rewrite app_nil_r; reflexivity|].
  destruct (ans k (handed k (tr ++ [HCalled k n]))); [|eexists; reflexivity|eexists; reflexivity].
  destruct (IH (S k) (tr ++ [HCalled k n])) as [r H]. rewrite H, <- app_assoc. eexists. reflexivity.
Qed.
Lemma hperform_extends ans : forall acts tr, exists rest, fst (hperform K ans tr acts) = tr ++ rest.
Proof.
  induction acts as [|[b|n] l IH]; intros tr; cbn [hperform].
  - exists []. rewrite app_nil_r. reflexivity.
  - destruct (IH (tr ++ [HSent b])) as [r H]. rewrite H, <- app_assoc. eexists. reflexivity.
  - destruct (hsave_extends ans n K 0 tr) as [r H]. destruct (hsave ans K 0 n tr) as [tr' [|]]; cbn [fst] in *; subst tr'; [eexists; reflexivity|].
    destruct (IH (tr ++ r)) as [r' H']. rewrite H', <- app_assoc. eexists. reflexivity.
Qed.
Lemma hperform_cut ans : forall acts tr,
  (snd (hperform K ans tr acts) = false -> hperform K ans tr acts = hperform K (as_failure ans) tr acts) /\
  snd (hperform K (as_failure ans) tr acts) = false /\
  exists rest, fst (hperform K (as_failure ans) tr acts) = fst (hperform K ans tr acts) ++ rest.
Proof.
  induction acts as [|[b|n] l IH]; intros tr; cbn [hperform].
  - split; [reflexivity|]. split; [reflexivity|]. exists []. rewrite app_nil_r. reflexivity.
  - apply IH.
  - rewrite hsave_cut. destruct (hsave ans K 0 n tr) as [tr' [|]]; cbn [fst].
    + split; [discriminate|]. split; [apply IH|]. apply hperform_extends.
    + apply IH.
Qed.

(** ** Storage [k] hangs at its [m]-th record *)
Variable k m : nat.

Lemma hsave_all ans n left : forall a tr, (forall j, (a <= j < a + left)%nat -> ans j (handed j tr ++ [n]) = HOk) ->
  hsave ans left a n tr = (tr ++ calls a left n, false).
Proof using Type.
  induction left as [|left IH]; intros a tr H; cbn [hsave].
  - cbn. rewrite app_nil_r. reflexivity.
  - rewrite handed_app. replace (handed a [HCalled a n]) with [n] by (cbn; rewrite Nat.eqb_refl; reflexivity).
    rewrite H by lia. rewrite IH; [rewrite <- app_assoc; reflexivity|].
    intros j Hj. rewrite handed_app. replace (handed j [HCalled a n]) with (@nil nav_record); [rewrite app_nil_r; apply H; lia|].
    cbn. destruct (Nat.eqb_spec j a); [lia|reflexivity].
Qed.
Lemma hsave_hang ans n left h : forall a tr, (a <= h < a + left)%nat ->
  (forall j, (a <= j < h)%nat -> ans j (handed j tr ++ [n]) = HOk) -> ans h (handed h tr ++ [n]) = HHang ->
  hsave ans left a n tr = (tr ++ calls a (S h - a) n, true).
Proof using Type.
  induction left as [|left IH]; intros a tr Hh H HH; [lia|]. cbn [hsave].
  rewrite handed_app. replace (handed a [HCalled a n]) with [n] by (cbn; rewrite Nat.eqb_refl; reflexivity).
  destruct (Nat.eq_dec a h) as [->|Hne].
  - rewrite HH. replace (S h - h)%nat with 1%nat by lia. reflexivity.
  - rewrite H by lia. assert (Ho : forall j, (a < j)%nat -> handed j (tr ++ [HCalled a n]) = handed j tr).
    { intros j Hj. rewrite handed_app. replace (handed j [HCalled a n]) with (@nil nav_record); [rewrite app_nil_r; reflexivity|].
      cbn. destruct (Nat.eqb_spec j a); [lia|reflexivity]. }
    rewrite IH; [|lia|intros j Hj; rewrite Ho by lia; apply H; lia|rewrite Ho by lia; exact HH].
    rewrite <- app_assoc. replace (S h - a)%nat with (S (S h - S a))%nat by lia. reflexivity.
Qed.

Definition level (tr : list hevent) (R : list nav_record) : Prop := forall j, (j < K)%nat -> handed j tr = R.
Lemma level_calls tr R n : level tr R -> level (tr ++ calls 0 K n) (R ++ [n]).
Proof using Type.
  intros H j Hj. rewrite handed_app, (H j Hj), handed_calls.
  replace ((0 <=? j) && (j <? 0 + K)) with true; [reflexivity|]. symmetry. apply andb_true_intro. split; [apply Nat.leb_le; lia|apply Nat.ltb_lt; lia].
Qed.
Lemma quiet_run acts : forall tr R, level tr R -> (length R + length (saves acts) < m)%nat -> exists tr',
  hperform K (hangs_at k m) tr acts = (tr', false) /\ level tr' (R ++ saves acts) /\ replies tr' = replies tr ++ writes acts.
Proof using Type.
  induction acts as [|[b|n] l IH]; intros tr R HR Hm; cbn [hperform saves writes flat_map] in *.
  - exists tr. rewrite !app_nil_r. split; [reflexivity|]. split; [exact HR|reflexivity].
  - destruct (IH (tr ++ [HSent b]) R) as (tr' & H1 & H2 & H3).
    { intros j Hj. rewrite handed_app, (HR j Hj). cbn. apply app_nil_r. }
    { exact Hm. }
    exists tr'. split; [exact H1|]. split; [exact H2|]. rewrite H3, replies_app, <- app_assoc. reflexivity.
  - fold (saves l) in *. rewrite app_length in Hm. cbn [length] in Hm. rewrite (hsave_all (hangs_at k m) n K 0 tr).
    + destruct (IH (tr ++ calls 0 K n) (R ++ [n]) (level_calls tr R n HR)) as (tr' & H1 & H2 & H3).
      { rewrite app_length. cbn [length]. lia. }
      exists tr'. split; [exact H1|]. split; [rewrite <- app_assoc in H2; exact H2|].
      rewrite H3, replies_app, replies_calls, app_nil_r. reflexivity.
    + intros j Hj. rewrite (HR j) by lia. unfold hangs_at. rewrite app_length. cbn [length].
      destruct (Nat.eqb_spec (length R + 1) m); [lia|]. rewrite andb_false_r. reflexivity.
Qed.
Hypothesis Hk : (k < K)%nat.
Lemma held_at n tr R l : level tr R -> length R = (m - 1)%nat -> (1 <= m)%nat -> exists tr',
  hperform K (hangs_at k m) tr (ASave n :: l) = (tr', true) /\ replies tr' = replies tr /\
  forall j, (j < K)%nat -> handed j tr' = if j <=? k then R ++ [n] else R.
Proof using Hk.
  intros HR Hl Hm. cbn [hperform]. rewrite (hsave_hang (hangs_at k m) n K k 0 tr).
  - exists (tr ++ calls 0 (S k - 0) n). split; [reflexivity|]. split; [rewrite replies_app, replies_calls; apply app_nil_r|].
    intros j Hj. rewrite handed_app, (HR j Hj), handed_calls.
    destruct (Nat.leb_spec j k), (Nat.leb_spec 0 j), (Nat.ltb_spec j (0 + (S k - 0))); cbn [andb]; try reflexivity; try lia; try apply app_nil_r.
  - lia.
  - intros j Hj. unfold hangs_at. destruct (Nat.eqb_spec j k); [lia|]. reflexivity.
  - rewrite (HR k Hk). unfold hangs_at. rewrite Nat.eqb_refl, app_length. cbn [length].
    destruct (Nat.eqb_spec (length R + 1) m); [reflexivity|lia].
Qed.
Lemma hperform_app ans a : forall tr b,
  hperform K ans tr (a ++ b) = let '(tr', held) := hperform K ans tr a in if held then (tr', true) else hperform K ans tr' b.
Proof using Type.
  induction a as [|[x|n] a IH]; intros tr b; cbn [app hperform]; [reflexivity|apply IH|].
  destruct (hsave ans K 0 n tr) as [tr' [|]]; [reflexivity|apply IH].
Qed.
(** the record that is handed over [m]-th *)
Lemma split_at acts : (1 <= m <= length (saves acts))%nat -> exists a n b,
  acts = a ++ ASave n :: b /\ length (saves a) = (m - 1)%nat.
Proof using Type.
  clear Hk. revert m. induction acts as [|[x|n] l IH]; intros q H; cbn [saves flat_map app length] in H.
  - lia.
  - destruct (IH q H) as (a & n & b & -> & Hl). exists (AWrite x :: a), n, b. split; [reflexivity|exact Hl].
  - fold (saves l) in H. destruct (Nat.eq_dec q 1) as [->|Hq].
    + exists [], n, l. split; reflexivity.
    + destruct (IH (q - 1)%nat) as (a & n' & b & -> & Hl); [lia|]. exists (ASave n :: a), n', b. split; [reflexivity|].
      cbn [saves flat_map app length]. fold (saves a). lia.
Qed.
Lemma saves_app2 a b : saves (a ++ b) = saves a ++ saves b.
Proof using Type. apply flat_map_app. Qed.
Lemma held_run acts : (1 <= m <= length (saves acts))%nat -> exists a n b tr,
  acts = a ++ ASave n :: b /\ length (saves a) = (m - 1)%nat /\
  hperform K (hangs_at k m) [] acts = (tr, true) /\ replies tr = writes a /\
  forall j, (j < K)%nat -> handed j tr = firstn (if j <=? k then m else m - 1) (saves acts).
Proof using Hk.
  intros Hm. destruct (split_at acts Hm) as (a & n & b & -> & Hl). exists a, n, b.
  destruct (quiet_run a [] []) as (tr1 & H1 & H2 & H3); [intros j _; reflexivity|cbn [length]; lia|].
  cbn [app] in H2. destruct (held_at n tr1 (saves a) b H2 Hl ltac:(lia)) as (tr & H4 & H5 & H6).
  exists tr. split; [reflexivity|]. split; [exact Hl|]. split.
  { rewrite hperform_app, H1. exact H4. }
  split; [rewrite H5, H3; reflexivity|]. intros j Hj. rewrite (H6 j Hj), saves_app2. cbn [saves flat_map app].
  destruct (j <=? k).
  - rewrite firstn_app, firstn_all2 by lia. f_equal. replace (m - length (saves a))%nat with 1%nat by lia. reflexivity.
  - rewrite firstn_app, firstn_all2 by lia. replace (m - 1 - length (saves a))%nat with 0%nat by lia. rewrite firstn_O, app_nil_r. reflexivity.
Qed.
End General.
