(** * ProtoFacts: reading and writing the protobuf wire format. *)
From Coq Require Import Lia ZifyBool ZifyN ZifyNat.
From Verif Require Import GoBase Proto Spec_Proto BaseFacts.

(** ** Varints *)
Lemma seven_nonempty v b : seven_bits v b -> b <> [].
Proof. intros []; discriminate. Qed.
Lemma seven_ok v b : seven_bits v b -> bytes_ok b = true.
Proof.
  induction 1 as [x Hx|x v b Hx _ IH]; cbn [bytes_ok forallb].
  - rewrite andb_true_r. apply byte_ok_lt. lia.
  - fold (bytes_ok b). rewrite IH, andb_true_r. apply byte_ok_lt. lia.
Qed.
Lemma pow_step k : (1 <= k)%nat -> 2 ^ (7 * N.of_nat (S k) - 6) = 128 * 2 ^ (7 * N.of_nat k - 6).
Proof.
  intros Hk. replace (7 * N.of_nat (S k) - 6) with (7 + (7 * N.of_nat k - 6)) by lia. rewrite N.pow_add_r. reflexivity.
Qed.
Lemma read_varint_sound k : forall b v r, bytes_ok b = true -> read_varint k b = Some (v, r) ->
  exists p, b = p ++ r /\ seven_bits v p /\ (length p <= k)%nat /\ v < 2 ^ (7 * N.of_nat k - 6).
Proof.
  induction k as [|k IH]; intros b v r Hb H; [destruct b; discriminate|].
  destruct b as [|x b]; [discriminate|]. cbn [bytes_ok forallb] in Hb. apply andb_prop in Hb. destruct Hb as [Hx Hb].
  apply byte_ok_lt in Hx. cbn [read_varint] in H. destruct (x <? 128) eqn:Hlt.
  - destruct ((k =? 0)%nat && negb (x <? 2)) eqn:Hov; [discriminate|]. injection H as <- <-. exists [x].
    split; [reflexivity|]. split; [apply sb_last; lia|]. split; [cbn; lia|].
    destruct k as [|k].
    + change (2 ^ (7 * N.of_nat 1 - 6)) with 2. lia.
    + rewrite pow_step by lia. assert (0 < 2 ^ (7 * N.of_nat (S k) - 6)) by (apply N.neq_0_lt_0, N.pow_nonzero; lia). nia.
  - destruct (read_varint k b) as [[v' r']|] eqn:Hr; [|discriminate]. injection H as <- <-.
    destruct (IH b v' r' Hb Hr) as (p & -> & Hs & Hl & Hv). exists (x :: p). split; [reflexivity|].
    split. { replace x with (128 + (x - 128)) at 2 by lia. apply sb_more; [lia|exact Hs]. }
    split; [cbn [length]; lia|]. destruct k as [|k]; [destruct p; [exfalso; exact (seven_nonempty _ _ Hs eq_refl)|cbn in Hl; lia]|].
    rewrite pow_step by lia. nia.
Qed.
Lemma read_varint_complete v p : seven_bits v p -> forall k r, (length p <= k)%nat -> v < 2 ^ (7 * N.of_nat k - 6) ->
  read_varint k (p ++ r) = Some (v, r).
Proof.
  induction 1 as [x Hx|x v p Hx Hs IH]; intros k r Hl Hv; (destruct k as [|k]; [cbn in Hl; lia|]); cbn [app read_varint].
  - assert (x <? 128 = true) as -> by lia. destruct k as [|k]; cbn [Nat.eqb andb]; [|reflexivity].
    change (2 ^ (7 * N.of_nat 1 - 6)) with 2 in Hv. assert (x <? 2 = true) as -> by lia. reflexivity.
  - assert (128 + x <? 128 = false) as -> by lia. cbn [length] in Hl.
    rewrite IH; [|lia|].
    + f_equal. f_equal. lia.
    + destruct k as [|k]; [destruct p; [exfalso; exact (seven_nonempty _ _ Hs eq_refl)|cbn in Hl; lia]|].
      rewrite pow_step in Hv by lia. nia.
Qed.
Lemma read10_sound b v r : bytes_ok b = true -> read_varint 10 b = Some (v, r) -> exists p, b = p ++ r /\ varint v p.
Proof.
  intros Hb H. destruct (read_varint_sound 10 b v r Hb H) as (p & -> & H1 & H2 & H3). exists p. split; [reflexivity|].
  change (2 ^ (7 * N.of_nat 10 - 6)) with (2 ^ 64) in H3. repeat split; assumption.
Qed.
Lemma read10_complete v p r : varint v p -> read_varint 10 (p ++ r) = Some (v, r).
Proof.
  intros (H1 & H2 & H3). apply read_varint_complete; [exact H1|exact H2|]. change (2 ^ (7 * N.of_nat 10 - 6)) with (2 ^ 64). exact H3.
Qed.
Lemma varint_ok v p : varint v p -> bytes_ok p = true.
Proof. intros (H & _). exact (seven_ok _ _ H). Qed.
Lemma varint_nonempty v p : varint v p -> (0 < length p)%nat.
Proof. intros (H & _). destruct H; cbn; lia. Qed.

Lemma put_seven k : forall v, v < 2 ^ (7 * N.of_nat k) -> (1 <= k)%nat ->
  seven_bits v (put_varint k v) /\ (length (put_varint k v) <= k)%nat.
Proof.
  induction k as [|k IH]; intros v Hv Hk; [lia|]. cbn [put_varint]. destruct (v <? 128) eqn:Hlt.
  - split; [apply sb_last; lia|cbn; lia].
  - assert (v / 128 < 2 ^ (7 * N.of_nat k)).
    { apply N.div_lt_upper_bound; [lia|]. replace (7 * N.of_nat (S k)) with (7 + 7 * N.of_nat k) in Hv by lia.
      rewrite N.pow_add_r in Hv. exact Hv. }
    destruct k as [|k]; [change (2 ^ (7 * N.of_nat 1)) with 128 in Hv; lia|].
    destruct (IH (v / 128)) as (H1 & H2); [assumption|lia|]. split; [|cbn [length] in *; lia].
    pose proof (N.div_mod v 128 ltac:(lia)) as Hdm. rewrite Hdm at 1. rewrite N.add_comm. apply sb_more; [|exact H1].
    apply N.mod_lt. lia.
Qed.
Lemma put_shortest v p : seven_bits v p -> forall k, (1 <= k)%nat -> v < 2 ^ (7 * N.of_nat k) ->
  (length (put_varint k v) <= length p)%nat.
Proof.
  induction 1 as [x Hx|x v p Hx Hs IH]; intros k Hk Hv; (destruct k as [|k]; [lia|]); cbn [put_varint].
  - assert (x <? 128 = true) as -> by lia. cbn; lia.
  - destruct (x + 128 * v <? 128) eqn:Hlt; [cbn [length]; lia|]. cbn [length].
    replace ((x + 128 * v) / 128) with v. 2:{ apply (N.div_unique (x + 128 * v) 128 v x); lia. }
    apply le_n_S. destruct k as [|k]; [cbn [put_varint length]; lia|]. apply IH; [lia|].
    replace (7 * N.of_nat (S (S k))) with (7 + 7 * N.of_nat (S k)) in Hv by lia. rewrite N.pow_add_r in Hv.
    change (2 ^ 7) with 128 in Hv. lia.
Qed.
Lemma put_varint_varint v : v < 2 ^ 64 -> varint v (put_varint 10 v).
Proof.
  intros Hv. destruct (put_seven 10 v) as (H1 & H2); [|lia|].
  - eapply N.lt_trans; [exact Hv|]. reflexivity.
  - repeat split; assumption.
Qed.
Lemma put_varint_shortest v p : varint v p -> (length (put_varint 10 v) <= length p)%nat.
Proof.
  intros (H1 & _ & H3). apply put_shortest; [exact H1|lia|]. eapply N.lt_trans; [exact H3|]. reflexivity.
Qed.
Lemma seven_inj v p : seven_bits v p -> forall v', seven_bits v' p -> v = v'.
Proof.
  induction 1 as [x Hx|x v p Hx Hs IH]; intros v' H'; inversion H'; subst.
  - reflexivity.
  - match goal with H : seven_bits _ [] |- _ => exfalso; exact (seven_nonempty _ _ H eq_refl) end.
  - exfalso. exact (seven_nonempty _ _ Hs eq_refl).
  - f_equal; [lia|]. f_equal. apply IH. assumption.
Qed.
(** the shortest form is unique *)
Lemma shortest_unique v p : seven_bits v p -> forall k, (1 <= k)%nat -> v < 2 ^ (7 * N.of_nat k) ->
  length p = length (put_varint k v) -> p = put_varint k v.
Proof.
  induction 1 as [x Hx|x v p Hx Hs IH]; intros k Hk Hv Hl; (destruct k as [|k]; [lia|]); cbn [put_varint] in *.
  - assert (x <? 128 = true) as Hb by lia. rewrite Hb. reflexivity.
  - assert (Hp : (1 <= length p)%nat) by (destruct p; [exfalso; exact (seven_nonempty _ _ Hs eq_refl)|cbn; lia]).
    destruct (x + 128 * v <? 128) eqn:Hlt; [cbn [length] in Hl; lia|].
    replace ((x + 128 * v) / 128) with v in * by (apply (N.div_unique (x + 128 * v) 128 v x); lia).
    replace ((x + 128 * v) mod 128) with x by (apply (N.mod_unique (x + 128 * v) 128 v x); lia).
    f_equal. cbn [length] in Hl. destruct k as [|k]; [cbn [put_varint length] in Hl; lia|].
    apply IH; [lia| |lia]. replace (7 * N.of_nat (S (S k))) with (7 + 7 * N.of_nat (S k)) in Hv by lia.
    rewrite N.pow_add_r in Hv. change (2 ^ 7) with 128 in Hv. lia.
Qed.

(** ** Values *)
Lemma take_sound n b s r : take_bytes n b = Some (s, r) -> b = s ++ r /\ blen s = n.
Proof.
  unfold take_bytes, blen. destruct (N.of_nat (length b) <? n) eqn:Hl; [discriminate|]. intros H. injection H as <- <-.
  split; [symmetry; apply firstn_skipn|]. rewrite firstn_length. lia.
Qed.
Lemma take_complete s r : take_bytes (blen s) (s ++ r) = Some (s, r).
Proof.
  unfold take_bytes, blen. rewrite app_length.
  assert (N.of_nat (length s + length r) <? N.of_nat (length s) = false) as -> by lia.
  rewrite Nat2N.id, firstn_app, skipn_app, Nat.sub_diag, firstn_all, skipn_all. cbn [firstn skipn]. rewrite app_nil_r. reflexivity.
Qed.
Lemma take_complete' n s r : blen s = n -> take_bytes n (s ++ r) = Some (s, r).
Proof. intros <-. apply take_complete. Qed.
Lemma ok_app a b : bytes_ok (a ++ b) = true -> bytes_ok a = true /\ bytes_ok b = true.
Proof. rewrite bytes_ok_app. intros H. apply andb_prop in H. exact H. Qed.
Lemma read_plain_sound wt b w r : bytes_ok b = true -> read_plain wt b = Some (w, r) ->
  exists p, b = p ++ r /\ plain w p /\ wire_type w = wt.
Proof.
  intros Hb H. unfold read_plain in H.
  destruct wt as [|[[[|[]|]|[]|]|[]|]]; try discriminate H.
  - destruct (read_varint 10 b) as [[v r']|] eqn:Hr; [|discriminate]. injection H as <- <-.
    destruct (read10_sound b v r' Hb Hr) as (p & -> & Hp). exists p. split; [reflexivity|]. split; [apply pl_varint, Hp|reflexivity].
  - destruct (take_bytes 4 b) as [[v r']|] eqn:Hr; [|discriminate]. injection H as <- <-.
    apply take_sound in Hr. destruct Hr as [-> Hl]. exists v. split; [reflexivity|]. split; [apply pl_fix32; unfold blen in Hl; lia|reflexivity].
  - destruct (read_varint 10 b) as [[n r1]|] eqn:Hr; [|discriminate].
    destruct (read10_sound b n r1 Hb Hr) as (p & -> & Hp).
    destruct (take_bytes n r1) as [[s r']|] eqn:Ht; [|discriminate]. injection H as <- <-.
    apply take_sound in Ht. destruct Ht as [-> <-]. exists (p ++ s). split; [apply app_assoc|]. split; [apply pl_bytes, Hp|reflexivity].
  - destruct (take_bytes 8 b) as [[v r']|] eqn:Hr; [|discriminate]. injection H as <- <-.
    apply take_sound in Hr. destruct Hr as [-> Hl]. exists v. split; [reflexivity|]. split; [apply pl_fix64; unfold blen in Hl; lia|reflexivity].
Qed.
Lemma read_plain_complete w p r : plain w p -> read_plain (wire_type w) (p ++ r) = Some (w, r).
Proof.
  intros H. destruct H as [v b H|b H|s n H|b H]; cbn [wire_type read_plain].
  - rewrite (read10_complete v b r H). reflexivity.
  - rewrite (take_complete' 8 b r); [reflexivity|unfold blen; lia].
  - rewrite <- app_assoc, (read10_complete _ n (s ++ r) H), take_complete. reflexivity.
  - rewrite (take_complete' 4 b r); [reflexivity|unfold blen; lia].
Qed.
Lemma plain_not_group w p : plain w p -> wire_type w <> 3 /\ wire_type w <> 4.
Proof. intros []; cbn; lia. Qed.
Lemma plain_wt w p : plain w p -> wire_type w < 8.
Proof. intros []; cbn; lia. Qed.

(** ** Tags *)
Lemma tag_split num wt : wt < 8 -> (8 * num + wt) / 8 = num /\ (8 * num + wt) mod 8 = wt.
Proof.
  intros H. split; [symmetry; apply (N.div_unique (8 * num + wt) 8 num wt)|symmetry; apply (N.mod_unique (8 * num + wt) 8 num wt)]; lia.
Qed.
Lemma tag_join t : t = 8 * (t / 8) + t mod 8.
Proof. apply N.div_mod. lia. Qed.

(** ** Groups *)
Inductive closes : list N -> bytes -> Prop :=
| cl_nil : closes [] []
| cl_cons n st g b : group n g -> closes st b -> closes (n :: st) (g ++ b).
Lemma group_plain n num w t v g : 1 <= num < 2 ^ 31 -> tag num (wire_type w) t -> plain w v -> group n g -> group n (t ++ v ++ g).
Proof.
  intros H1 H2 H3 (body & e & -> & Hi & He). exists (t ++ v ++ body), e. rewrite <- !app_assoc. split; [reflexivity|].
  split; [eapply it_plain; eassumption|exact He].
Qed.
Lemma group_group n num t g' g : 1 <= num < 2 ^ 31 -> tag num 3 t -> group num g' -> group n g -> group n (t ++ g' ++ g).
Proof.
  intros H1 H2 (body' & e' & -> & Hi' & He') (body & e & -> & Hi & He). exists (t ++ (body' ++ e') ++ body), e.
  rewrite <- !app_assoc. split; [reflexivity|]. split; [|exact He]. rewrite (app_assoc body' e' body). eapply it_group; eassumption.
Qed.
Lemma tag_of t p wt : varint t p -> t mod 8 = wt -> tag (t / 8) wt p.
Proof. intros H <-. unfold tag. rewrite <- tag_join. exact H. Qed.
Lemma num_range num : 1 <= num < 2 ^ 31 -> (num <? 1) || (2147483647 <? num) = false.
Proof. change (2 ^ 31) with 2147483648. lia. Qed.
Lemma skip_tag fuel st num wt t b : 1 <= num < 2 ^ 31 -> tag num wt t -> wt < 8 -> wt <> 3 -> wt <> 4 ->
  skip_group (S fuel) st (t ++ b) =
  match read_plain wt b with Some (_, r') => skip_group fuel st r' | None => None end.
Proof.
  intros Hn Ht Hw H3 H4. cbn [skip_group]. rewrite (read10_complete _ t b Ht). destruct (tag_split num wt Hw) as [-> ->].
  rewrite (num_range num Hn). destruct wt as [|q]; [reflexivity|]. do 3 (destruct q as [q|q|]; try reflexivity; try congruence).
Qed.
Lemma skip_group_sound fuel : forall n st b r, bytes_ok b = true -> skip_group fuel (n :: st) b = Some r ->
  exists p, b = p ++ r /\ closes (n :: st) p.
Proof.
  induction fuel as [|fuel IH]; intros n st b r Hb H; [discriminate|]. pose proof H as H0. cbn [skip_group] in H.
  destruct (read_varint 10 b) as [[t r1]|] eqn:Hr; [|discriminate].
  destruct (read10_sound b t r1 Hb Hr) as (p & -> & Hp). apply ok_app in Hb. destruct Hb as [_ Hb].
  destruct ((t / 8 <? 1) || (2147483647 <? t / 8)) eqn:Hrange; [discriminate|].
  assert (1 <= t / 8 < 2 ^ 31) as Hnum by (change (2 ^ 31) with 2147483648; lia).
  assert (Hm : t mod 8 < 8) by (apply N.mod_lt; lia).
  destruct (t mod 8 =? 3) eqn:H3; [|destruct (t mod 8 =? 4) eqn:H4].
  - apply N.eqb_eq in H3. rewrite H3 in H.
    destruct (IH _ _ _ _ Hb H) as (p' & -> & Hc). inversion Hc as [|n1 st1 g1 b1 Hg1 Hc1]; subst.
    inversion Hc1 as [|n2 st2 g2 b2 Hg2 Hc2]; subst.
    exists ((p ++ g1 ++ g2) ++ b2). split; [rewrite <- !app_assoc; reflexivity|].
    apply cl_cons; [|exact Hc2]. apply (group_group n (t / 8) p g1 g2); try assumption. apply tag_of; assumption.
  - apply N.eqb_eq in H4. rewrite H4 in H. destruct (t / 8 =? n) eqn:Hn; cbn [negb] in H; [|discriminate].
    apply N.eqb_eq in Hn. subst n.
    assert (Hg : group (t / 8) p). { exists [], p. split; [reflexivity|]. split; [apply it_nil|]. apply tag_of; assumption. }
    destruct st as [|n2 st].
    + injection H as <-. exists (p ++ []). split; [rewrite app_nil_r; reflexivity|]. apply cl_cons; [exact Hg|apply cl_nil].
    + destruct (IH _ _ _ _ Hb H) as (p' & -> & Hc). exists (p ++ p'). split; [rewrite <- app_assoc; reflexivity|].
      apply cl_cons; assumption.
  - assert (exists w r', read_plain (t mod 8) r1 = Some (w, r') /\ skip_group fuel (n :: st) r' = Some r) as (w & r' & Hw & H').
    { apply N.eqb_neq in H3, H4.
      rewrite (skip_tag fuel (n :: st) (t / 8) (t mod 8) p r1 Hnum (tag_of t p _ Hp eq_refl) Hm H3 H4) in H0.
      destruct (read_plain (t mod 8) r1) as [[w r']|]; [|discriminate]. exists w, r'. split; [reflexivity|exact H0]. }
    destruct (read_plain_sound _ _ _ _ Hb Hw) as (pv & -> & Hpl & Hwt). apply ok_app in Hb. destruct Hb as [_ Hb].
    destruct (IH _ _ _ _ Hb H') as (p' & -> & Hc). inversion Hc as [|n1 st1 g1 b1 Hg1 Hc1]; subst.
    exists ((p ++ pv ++ g1) ++ b1). split; [rewrite <- !app_assoc; reflexivity|].
    apply cl_cons; [|exact Hc1]. apply (group_plain n (t / 8) w p pv g1); try assumption. apply tag_of; [assumption|symmetry; assumption].
Qed.
Lemma skip_items body : items body -> forall fuel n st rest, (length (body ++ rest) <= fuel)%nat ->
  exists fuel', (length rest <= fuel')%nat /\ skip_group fuel (n :: st) (body ++ rest) = skip_group fuel' (n :: st) rest.
Proof.
  induction 1 as [|num w t v rst Hn Ht Hp Hi IH|num t body e rst Hn Ht Hb IHb He Hi IH]; intros fuel n st rest Hf.
  - exists fuel. split; [exact Hf|reflexivity].
  - pose proof (varint_nonempty _ _ Ht) as Hl. rewrite <- !app_assoc in Hf |- *. rewrite !app_length in Hf.
    destruct fuel as [|fuel]; [lia|]. destruct (plain_not_group _ _ Hp) as [N3 N4].
    rewrite (skip_tag fuel (n :: st) num (wire_type w) t _ Hn Ht (plain_wt _ _ Hp) N3 N4), (read_plain_complete w v _ Hp).
    apply IH. rewrite app_length. lia.
  - pose proof (varint_nonempty _ _ Ht) as Hl. pose proof (varint_nonempty _ _ He) as Hle. rewrite <- !app_assoc in Hf |- *. rewrite !app_length in Hf.
    destruct fuel as [|fuel]; [lia|].
    assert (Hstep : skip_group (S fuel) (n :: st) (t ++ body ++ e ++ rst ++ rest) = skip_group fuel (num :: n :: st) (body ++ e ++ rst ++ rest)).
    { cbn [skip_group]. rewrite (read10_complete _ t _ Ht). destruct (tag_split num 3 ltac:(lia)) as [-> ->].
      rewrite (num_range num Hn). reflexivity. }
    rewrite Hstep. destruct (IHb fuel num (n :: st) (e ++ rst ++ rest)) as (f1 & Hf1 & ->); [rewrite !app_length; lia|].
    rewrite !app_length in Hf1. destruct f1 as [|f1]; [lia|].
    assert (Hend : skip_group (S f1) (num :: n :: st) (e ++ rst ++ rest) = skip_group f1 (n :: st) (rst ++ rest)).
    { cbn [skip_group]. rewrite (read10_complete _ e _ He). destruct (tag_split num 4 ltac:(lia)) as [-> ->].
      rewrite (num_range num Hn), N.eqb_refl. reflexivity. }
    rewrite Hend. apply IH. rewrite app_length. lia.
Qed.
Lemma skip_group_complete num g r : 1 <= num < 2 ^ 31 -> group num g -> skip_group (length (g ++ r)) [num] (g ++ r) = Some r.
Proof.
  intros Hn (body & e & -> & Hi & He). rewrite <- app_assoc.
  destruct (skip_items body Hi (length (body ++ e ++ r)) num [] (e ++ r) ltac:(lia)) as (f & Hf & ->).
  pose proof (varint_nonempty _ _ He). rewrite app_length in Hf. destruct f as [|f]; [lia|].
  cbn [skip_group]. rewrite (read10_complete _ e _ He). destruct (tag_split num 4 ltac:(lia)) as [-> ->].
  rewrite (num_range num Hn), N.eqb_refl. reflexivity.
Qed.
Lemma firstn_prefix {A} (p r : list A) : firstn (length (p ++ r) - length r) (p ++ r) = p.
Proof. rewrite app_length, Nat.add_sub, firstn_app, Nat.sub_diag, firstn_all. cbn [firstn]. apply app_nil_r. Qed.
Lemma read_value_sound num wt b w r : bytes_ok b = true -> read_value num wt b = Some (w, r) ->
  exists p, b = p ++ r /\ value num w p /\ wire_type w = wt.
Proof.
  intros Hb H. unfold read_value in H. destruct (wt =? 3) eqn:H3.
  - apply N.eqb_eq in H3. subst wt. destruct (skip_group (length b) [num] b) as [r'|] eqn:Hs; [|discriminate]. injection H as <- <-.
    destruct (skip_group_sound _ _ _ _ _ Hb Hs) as (p & -> & Hc). inversion Hc as [|n1 st1 g1 b1 Hg1 Hc1]; subst.
    inversion Hc1; subst. rewrite app_nil_r in *. exists g1. split; [reflexivity|]. rewrite firstn_prefix.
    split; [right; split; [reflexivity|exact Hg1]|reflexivity].
  - destruct (read_plain_sound _ _ _ _ Hb H) as (p & -> & Hp & Hw). exists p. split; [reflexivity|]. split; [left; exact Hp|exact Hw].
Qed.
Lemma read_value_complete num w p r : 1 <= num < 2 ^ 29 -> value num w p -> read_value num (wire_type w) (p ++ r) = Some (w, r).
Proof.
  intros Hn [H|[-> H]]; unfold read_value.
  - destruct (plain_not_group _ _ H) as [N3 _]. apply N.eqb_neq in N3. rewrite N3. apply read_plain_complete, H.
  - cbn [wire_type N.eqb Pos.eqb]. rewrite (skip_group_complete num p r); [|change (2 ^ 29) with 536870912 in Hn; change (2 ^ 31) with 2147483648; lia|exact H].
    rewrite firstn_prefix. reflexivity.
Qed.
Lemma value_wt num w p : value num w p -> wire_type w < 8.
Proof. intros [H|[-> _]]; [exact (plain_wt _ _ H)|cbn; lia]. Qed.

(** ** Messages *)
Lemma read_fields_sound fuel : forall b l, bytes_ok b = true -> read_fields fuel b = Some l -> stream l b.
Proof.
  induction fuel as [|fuel IH]; intros b l Hb H; destruct b as [|x b]; cbn [read_fields] in H; try discriminate;
    try (injection H as <-; apply st_nil).
  destruct (read_varint 10 (x :: b)) as [[t r]|] eqn:Hr; [|discriminate].
  destruct (read10_sound _ t r Hb Hr) as (p & E & Hp). rewrite E in Hb |- *. apply ok_app in Hb. destruct Hb as [_ Hb].
  destruct ((t / 8 <? 1) || (536870911 <? t / 8)) eqn:Hrange; [discriminate|].
  destruct (read_value (t / 8) (t mod 8) r) as [[w r']|] eqn:Hv; [|discriminate].
  destruct (read_fields fuel r') as [l'|] eqn:Hf; [|discriminate]. injection H as <-.
  destruct (read_value_sound _ _ _ _ _ Hb Hv) as (v & -> & Hval & Hw). apply ok_app in Hb. destruct Hb as [_ Hb].
  rewrite firstn_prefix. apply st_field; [change (2 ^ 29) with 536870912; lia| |exact Hval|exact (IH _ _ Hb Hf)].
  apply tag_of; [exact Hp|symmetry; exact Hw].
Qed.
Lemma read_fields_complete l b : stream l b -> forall fuel, (length b <= fuel)%nat -> read_fields fuel b = Some l.
Proof.
  induction 1 as [|num w t v l b Hn Ht Hv Hs IH]; intros fuel Hf; [destruct fuel; reflexivity|].
  pose proof (varint_nonempty _ _ Ht) as Hl. rewrite !app_length in Hf. destruct fuel as [|fuel]; [lia|].
  assert (exists x y, t ++ v ++ b = x :: y) as (x & y & E) by (destruct t; [cbn in Hl; lia|eexists _, _; reflexivity]).
  rewrite E. cbn [read_fields]. rewrite <- E. rewrite (read10_complete _ t _ Ht).
  destruct (tag_split num (wire_type w) (value_wt _ _ _ Hv)) as [-> ->].
  assert ((num <? 1) || (536870911 <? num) = false) as -> by (change (2 ^ 29) with 536870912 in Hn; lia).
  rewrite (read_value_complete num w v b Hn Hv), (IH fuel) by lia. rewrite firstn_prefix. reflexivity.
Qed.
(** Reading the fields is exactly the grammar. *)
Theorem read_fields_iff b l : bytes_ok b = true -> (read_fields (length b) b = Some l <-> stream l b).
Proof. intros Hb. split; [apply read_fields_sound, Hb|intros H; apply (read_fields_complete l b H); lia]. Qed.
Lemma stream_app l1 b1 l2 b2 : stream l1 b1 -> stream l2 b2 -> stream (l1 ++ l2) (b1 ++ b2).
Proof.
  intros H H2. induction H as [|num w t v l b Hn Ht Hv Hs IH]; [exact H2|]. cbn [app]. rewrite <- !app_assoc. apply st_field; assumption.
Qed.
Lemma stream_one num w v : 1 <= num < 2 ^ 29 -> value num w v -> stream [mkWf num w v] (put_tag num (wire_type w) ++ v).
Proof.
  intros Hn Hv. rewrite <- (app_nil_r v) at 2. apply st_field; [exact Hn| |exact Hv|apply st_nil].
  apply put_varint_varint. pose proof (value_wt _ _ _ Hv). change (2 ^ 29) with 536870912 in Hn. change (2 ^ 64) with 18446744073709551616. lia.
Qed.
