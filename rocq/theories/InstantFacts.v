(** * InstantFacts: the text of an instant that is not a whole second. *)
From Coq Require Import String List ZArith Lia Bool ZifyBool ZifyN ZifyNat.
From Verif Require Import GoBase Storage Json PkgJson Spec_Calendar Spec_Json Spec_PkgJson CalendarFacts PkgJsonFacts.
From Verif Require Import Float64 SubRecords.
Import ListNotations.
Local Open Scope Z_scope.

Lemma drop_rev s : exists k, s = rev (drop_zeros (rev s)) ++ repeat 48%N k /\ (forall l, rev (drop_zeros (rev s)) <> l ++ [48%N]).
Proof.
  enough (G : forall l, exists k, rev l = rev (drop_zeros l) ++ repeat 48%N k /\ (forall x, rev (drop_zeros l) <> x ++ [48%N])).
  { destruct (G (rev s)) as (k & H1 & H2). rewrite rev_involutive in H1. eauto. }
  clear s. induction l as [|c l (k & H & Hn)].
  - exists 0%nat. split; [reflexivity|]. intros l. destruct l; discriminate.
  - cbn [drop_zeros]. destruct (c =? 48)%N eqn:Hc.
    + apply N.eqb_eq in Hc. subst c. exists (S k). cbn [rev]. split; [|exact Hn].
      rewrite H at 1. rewrite <- app_assoc. f_equal. clear. induction k as [|k IH]; [reflexivity|]. cbn [repeat app] in *. now rewrite IH.
    + exists 0%nat. split; [symmetry; apply app_nil_r|]. intros x Hx. cbn [rev] in Hx. apply app_inj_tail in Hx as [_ ->]. discriminate.
Qed.
Lemma fold_zeros k : fold_left (fun a c => a * 10 + (Z.of_N c - 48)) (repeat 48%N k) 0 = 0.
Proof. induction k as [|k IH]; [reflexivity|]. cbn [repeat fold_left]. exact IH. Qed.

Lemma fraction_text t : fraction_of_second (time_fraction t) (t mod 1000000000).
Proof.
  pose proof (Z.mod_pos_bound t 1000000000 ltac:(lia)) as Hb. set (n := t mod 1000000000) in *. unfold time_fraction. fold n.
  destruct (dec_digits_spec 9 n) as (Hl & Hd & Hv); [exact Hb|].
  destruct (drop_rev (dec_digits 9 n)) as (k & Hk & Hn). revert Hk Hn. generalize (rev (drop_zeros (rev (dec_digits 9 n)))). intros d Hk Hn.
  rewrite Hk in Hl, Hd, Hv. rewrite app_length, repeat_length in Hl. apply Forall_app in Hd as [Hd _].
  rewrite fold_left_app in Hv. rewrite fold_dec, fold_zeros, repeat_length, Z.add_0_r in Hv.
  unfold fraction_of_second. destruct d as [|c d].
  - left. split; [cbn in Hv; lia|reflexivity].
  - right. exists (c :: d). eexists. split; [reflexivity|]. split; [split; [reflexivity|split; [exact Hd|reflexivity]]|].
    split; [|split; [|exact Hn]].
    + cbn [length] in *. lia.
    + replace (9 - Z.of_nat (length (c :: d))) with (Z.of_nat k) by lia. exact Hv.
Qed.
Lemma fraction_safe t : forallb html_safe (time_fraction t) = true.
Proof.
  unfold time_fraction. pose proof (dec_digits_safe 9 (t mod 1000000000)) as H. destruct (drop_rev (dec_digits 9 (t mod 1000000000))) as (k & Hk & _).
  rewrite Hk in H. rewrite forallb_app in H. apply andb_true_iff in H as [H _].
  destruct (rev (drop_zeros (rev (dec_digits 9 (t mod 1000000000))))) as [|c d]; [reflexivity|]. cbn [forallb] in *. exact H.
Qed.
Lemma frac_split (v : N) ns : 0 <= ns < 1000000000 ->
  (Z.of_N v * 1000000000 + ns) / 1000000000 = Z.of_N v /\ (Z.of_N v * 1000000000 + ns) mod 1000000000 = ns.
Proof.
  intros H. split.
  - rewrite Z.div_add_l by lia. rewrite Z.div_small by lia. lia.
  - rewrite Z.add_comm, Z.mod_add by lia. apply Z.mod_small. lia.
Qed.
Lemma json_time_any (v : N) ns : (v < 2 ^ 32)%N -> 0 <= ns < 1000000000 ->
  exists s, json_time (Z.of_N v * 1000000000 + ns) = Some ([34%N] ++ s ++ [34%N]) /\ precise_text s v ns /\ forallb html_safe s = true.
Proof.
  intros Hv Hns. destruct (frac_split v ns Hns) as (H1 & H2). set (t := Z.of_N v * 1000000000 + ns) in *.
  assert (Hu : unix_of t = unix_of (time_decode v)).
  { unfold unix_of, time_decode. rewrite H1, Z.div_mul by lia. reflexivity. }
  assert (Hr : rfc3339 t = rfc3339 (time_decode v)) by (unfold rfc3339; rewrite Hu; reflexivity).
  destruct (unix_split v) as (Hd & _). unfold json_time. rewrite Hu, Hd, civil_2010, Hr.
  assert (Hq : (v / 86400 < 49711)%N).
  { change (2 ^ 32)%N with 4294967296%N in Hv. apply N.div_lt_upper_bound; lia. }
  pose proof (year_range (v / 86400) Hq) as Y. destruct (days_after_2010 (v / 86400)) as [[y m] d].
  assert ((0 <=? y)%Z && (y <=? 9999)%Z = true) as -> by (apply andb_true_iff; rewrite !Z.leb_le; lia).
  pose proof (rfc_instant v Hv) as Hi. destruct (rfc_tail (time_decode v)) as (s & Hs & Hsafe). rewrite Hs in *. rewrite removelast_last.
  exists (s ++ time_fraction t ++ [90%N]). split; [rewrite <- !app_assoc; reflexivity|].
  split; [|rewrite !forallb_app, Hsafe, fraction_safe; reflexivity].
  exists s, (time_fraction t). split; [reflexivity|]. split; [exact Hi|]. pose proof (fraction_text t) as Hf. rewrite H2 in Hf. exact Hf.
Qed.
