(** * ServerFacts3: byte streams, segmentation, whole connections. *)
From Verif Require Import GoBase Crc Float64 SubRecords Records Package Storage Server
  Spec_Bits Spec_Wf Spec_Rec Spec_Pkg Spec_Server BaseFacts SubFacts RecFacts DecFacts DecWf DecWf2 EncOk
  PkgFacts PkgFacts2 PkgFacts3 ServerFacts ServerFacts2.
From Coq Require Import Lia ZifyBool ZifyN ZifyNat.

Section ServerFacts3.
Context {E : go_env}.

Definition short_read (e : conn_end) (got : bytes) : read_out :=
  match e with
  | CEof => match got with [] => REof | _ :: _ => RUnexpected end
  | CErr => RError
  | COpen => RBlocked
  end.

Lemma read_full_from_spec e chunks : forall n acc,
  if (n <=? length (concat chunks))%nat
  then exists rest, read_full_from e n acc chunks = RFull (acc ++ firstn n (concat chunks)) rest /\
                    concat rest = skipn n (concat chunks)
  else read_full_from e n acc chunks = short_read e (acc ++ concat chunks).
Proof.
  induction chunks as [|c cs IH]; intros n acc; cbn [concat read_full_from length].
  - destruct n; cbn [Nat.leb].
    + exists []. rewrite app_nil_r. split; reflexivity.
    + rewrite app_nil_r. reflexivity.
  - destruct n as [|n].
    + cbn [Nat.leb]. exists (c :: cs). cbn [firstn skipn]. rewrite app_nil_r. split; reflexivity.
    + destruct (Nat.ltb_spec (length c) (S n)) as [Hc|Hc].
      * specialize (IH (S n - length c)%nat (acc ++ c)). rewrite app_length.
        replace (S n <=? length c + length (concat cs))%nat with (S n - length c <=? length (concat cs))%nat by lia.
        destruct (S n - length c <=? length (concat cs))%nat.
        -- destruct IH as (rest & H1 & H2). exists rest. rewrite H1.
           rewrite firstn_app, skipn_app, (firstn_all2 c), (skipn_all2 c) by lia.
           rewrite app_assoc. split; [reflexivity|exact H2].
        -- rewrite IH. rewrite app_assoc. reflexivity.
      * rewrite app_length. replace (S n <=? length c + length (concat cs))%nat with true by lia.
        exists (skipn (S n) c :: cs). rewrite firstn_app, skipn_app.
        replace (S n - length c)%nat with O by lia. rewrite firstn_O, skipn_O, app_nil_r. split; reflexivity.
Qed.

Lemma read_full_spec n c :
  if (n <=? length (concat (ci_chunks c)))%nat
  then exists rest, read_full n c = RFull (firstn n (concat (ci_chunks c))) rest /\
                    concat rest = skipn n (concat (ci_chunks c))
  else read_full n c = short_read (ci_end c) (concat (ci_chunks c)).
Proof. exact (read_full_from_spec (ci_end c) (ci_chunks c) n []). Qed.

(** one step, as a function of the bytes *)
Definition step_eq (a b : step_out) : Prop :=
  match a, b with
  | SPacket l r, SPacket l' r' => l = l' /\ concat r = concat r'
  | SClosed, SClosed | SBlockedRead, SBlockedRead | SCrashed, SCrashed | SFuel, SFuel => True
  | _, _ => False
  end.

Lemma step_eq_refl a : step_eq a a.
Proof. destruct a; cbn; auto. Qed.

Lemma conn_step_stream c1 c2 : concat (ci_chunks c1) = concat (ci_chunks c2) -> ci_end c1 = ci_end c2 ->
  step_eq (conn_step c1) (conn_step c2).
Proof.
  intros Hc He. unfold conn_step.
  pose proof (read_full_spec header_len c1) as H1. pose proof (read_full_spec header_len c2) as H2.
  rewrite <- Hc, <- He in H2.
  destruct (header_len <=? length (concat (ci_chunks c1)))%nat.
  - destruct H1 as (r1 & -> & R1), H2 as (r2 & -> & R2).
    destruct (negb _); [exact I|]. set (hdr := firstn _ _).
    pose proof (read_full_spec (N.to_nat (tail_len hdr)) (mkIn r1 (ci_end c1))) as H1.
    pose proof (read_full_spec (N.to_nat (tail_len hdr)) (mkIn r2 (ci_end c2))) as H2.
    cbn [ci_chunks ci_end] in H1, H2. rewrite <- He, R2 in H2. rewrite R1 in H1. rewrite <- He.
    destruct (N.to_nat (tail_len hdr) <=? _)%nat.
    + destruct H1 as (q1 & -> & Q1), H2 as (q2 & -> & Q2). destruct (process _); cbn; auto.
      split; [reflexivity|]. congruence.
    + rewrite H1, H2. apply step_eq_refl.
  - rewrite H1, H2, <- He. apply step_eq_refl.
Qed.

Lemma conn_run_stream fuel : forall c1 c2, concat (ci_chunks c1) = concat (ci_chunks c2) -> ci_end c1 = ci_end c2 ->
  conn_run fuel c1 = conn_run fuel c2.
Proof.
  induction fuel as [|fuel IH]; intros c1 c2 Hc He; [reflexivity|].
  cbn [conn_run]. pose proof (conn_step_stream c1 c2 Hc He) as Hs.
  destruct (conn_step c1), (conn_step c2); cbn in Hs; try contradiction; try reflexivity.
  destruct Hs as [-> Hr]. rewrite (IH (mkIn rest (ci_end c1)) (mkIn rest0 (ci_end c2))); [reflexivity|exact Hr|exact He].
Qed.

Lemma conn_exec_stream c1 c2 : concat (ci_chunks c1) = concat (ci_chunks c2) -> ci_end c1 = ci_end c2 ->
  conn_exec c1 = conn_exec c2.
Proof. intros Hc He. unfold conn_exec. rewrite Hc. apply conn_run_stream; assumption. Qed.

(** every packet consumes input *)
Lemma conn_step_packet c acts rest : conn_step c = SPacket acts rest ->
  exists n, (10 <= n <= length (concat (ci_chunks c)))%nat /\ concat rest = skipn n (concat (ci_chunks c)).
Proof.
  unfold conn_step. pose proof (read_full_spec header_len c) as H1.
  destruct (header_len <=? length (concat (ci_chunks c)))%nat eqn:Hh.
  2: { rewrite H1. unfold short_read. destruct (ci_end c); try discriminate. destruct (concat _); discriminate. }
  destruct H1 as (r1 & -> & R1). destruct (negb _); [discriminate|]. set (hdr := firstn _ _).
  pose proof (read_full_spec (N.to_nat (tail_len hdr)) (mkIn r1 (ci_end c))) as H2. cbn [ci_chunks ci_end] in H2.
  rewrite R1 in H2. destruct (N.to_nat (tail_len hdr) <=? _)%nat eqn:Ht.
  - destruct H2 as (q1 & -> & Q1). destruct (process _); try discriminate. intros H. injection H as <- <-.
    exists (header_len + N.to_nat (tail_len hdr))%nat. rewrite skipn_length in Ht. unfold header_len in *.
    split; [lia|]. rewrite Q1, skipn_skipn_. reflexivity.
  - rewrite H2. unfold short_read. destruct (ci_end c); try discriminate. destruct (skipn _ _); discriminate.
Qed.

Lemma conn_step_no_fuel c : bytes_ok (concat (ci_chunks c)) = true -> conn_step c <> SFuel.
Proof.
  intros Hb. unfold conn_step. pose proof (read_full_spec header_len c) as H1.
  destruct (header_len <=? length (concat (ci_chunks c)))%nat eqn:Hh.
  2: { rewrite H1. unfold short_read. destruct (ci_end c); try discriminate. destruct (concat _); discriminate. }
  destruct H1 as (r1 & -> & R1). destruct (negb _); [discriminate|].
  set (hdr := firstn header_len (concat (ci_chunks c))) in *.
  pose proof (read_full_spec (N.to_nat (tail_len hdr)) (mkIn r1 (ci_end c))) as H2. cbn [ci_chunks ci_end] in H2.
  rewrite R1 in H2. destruct (N.to_nat (tail_len hdr) <=? _)%nat eqn:Ht.
  - destruct H2 as (q1 & -> & Q1). unfold recv_slice.
    match goal with |- context [process {| sl_data := ?d; sl_spare := ?s |}] => pose proof (process_crash d s) as [_ Hp] end.
    + rewrite bytes_ok_app. apply andb_true_intro. split; [apply bytes_ok_firstn, Hb|apply bytes_ok_firstn, bytes_ok_skipn, Hb].
    + rewrite app_length. assert (length hdr = Nat.min header_len (length (concat (ci_chunks c)))) as Hx by apply firstn_length.
      unfold header_len in *. lia.
    + destruct (process _); try discriminate. congruence.
  - rewrite H2. unfold short_read. destruct (ci_end c); try discriminate. destruct (skipn _ _); discriminate.
Qed.

Lemma conn_run_fuel f1 : forall f2 c, bytes_ok (concat (ci_chunks c)) = true ->
  (length (concat (ci_chunks c)) < f1)%nat -> (length (concat (ci_chunks c)) < f2)%nat ->
  conn_run f1 c = conn_run f2 c.
Proof.
  induction f1 as [|f1 IH]; intros f2 c Hb H1 H2; [lia|]. destruct f2 as [|f2]; [lia|].
  cbn [conn_run]. destruct (conn_step c) eqn:Hs; try reflexivity.
  apply conn_step_packet in Hs. destruct Hs as (n & Hn & Hr).
  rewrite (IH f2 (mkIn rest (ci_end c))); [reflexivity| | |]; cbn [ci_chunks]; rewrite Hr.
  - apply bytes_ok_skipn, Hb.
  - rewrite skipn_length. lia.
  - rewrite skipn_length. lia.
Qed.

Lemma conn_exec_step c : bytes_ok (concat (ci_chunks c)) = true ->
  conn_exec c = match conn_step c with
                | SPacket acts rest => let '(l, f) := conn_exec (mkIn rest (ci_end c)) in (acts ++ l, f)
                | SClosed => ([], FinClosed)
                | SBlockedRead => ([], FinBlocked)
                | SCrashed => ([], FinCrashed)
                | SFuel => ([], FinFuel)
                end.
Proof.
  intros Hb. unfold conn_exec at 1. cbn [conn_run]. destruct (conn_step c) eqn:Hs; try reflexivity.
  apply conn_step_packet in Hs. destruct Hs as (n & Hn & Hr).
  unfold conn_exec. cbn [ci_chunks].
  rewrite (conn_run_fuel (length (concat (ci_chunks c))) (S (length (concat rest))) (mkIn rest (ci_end c))); [reflexivity| | |];
    cbn [ci_chunks]; rewrite ?Hr, ?skipn_length; try lia. apply bytes_ok_skipn, Hb.
Qed.

Lemma conn_exec_no_fuel n : forall c, (length (concat (ci_chunks c)) <= n)%nat ->
  bytes_ok (concat (ci_chunks c)) = true -> snd (conn_exec c) <> FinFuel.
Proof.
  induction n as [|n IH]; intros c Hn Hb; rewrite conn_exec_step by exact Hb;
    pose proof (conn_step_no_fuel c Hb) as Hf; destruct (conn_step c) eqn:Hs; try discriminate; try congruence.
  - apply conn_step_packet in Hs. destruct Hs as (m & Hm & _). lia.
  - apply conn_step_packet in Hs. destruct Hs as (m & Hm & Hr).
    specialize (IH (mkIn rest (ci_end c))). cbn [ci_chunks] in IH. rewrite Hr, skipn_length in IH.
    destruct (conn_exec (mkIn rest (ci_end c))) as [l f]. cbn [snd] in *. apply IH; [lia|]. apply bytes_ok_skipn, Hb.
Qed.

(** ** Framing *)
Lemma tail_len_spec hdr rest : length hdr = 10%nat -> bytes_ok (hdr ++ rest) = true ->
  10 <= wire_len (hdr ++ rest) < 65546 -> tail_len hdr = wire_len (hdr ++ rest) - 10.
Proof.
  intros Hl Hb Hw. unfold wire_len in *. rewrite decl_hl_app, decl_fdl_app in * by lia.
  destruct hdr as [|b0 [|b1 [|b2 [|b3 [|b4 [|b5 [|b6 [|b7 [|b8 [|b9 [|]]]]]]]]]]]; cbn [length] in Hl; try lia.
  assert (b3 < 256) as H3.
  { apply (bytes_ok_nth _ 3) in Hb. exact Hb. }
  assert (b5 + 256 * b6 < 65536) as H5.
  { apply (bytes_ok_nth _ 5) in Hb as G1. apply (bytes_ok_nth _ 6) in Hb as G2. cbn in G1, G2. lia. }
  unfold tail_len. cbn [skipn firstn nth]. rewrite le_dec2. unfold decl_hl, decl_fdl, byte_at, word_at in *. cbn [nth] in *.
  set (f := b5 + 256 * b6) in *. clearbody f.
  destruct (0 <? f) eqn:Hf; unfold u16.
  - rewrite N.add_mod_idemp_r by lia. rewrite N.add_mod_idemp_l by lia.
    replace (b3 + (f + 2) + 65526) with (b3 + (f + 2) - 10 + 1 * 65536) by lia. rewrite N.mod_add by lia.
    apply N.mod_small. lia.
  - replace (b3 + 65526) with (b3 - 10 + 1 * 65536) by lia. rewrite N.mod_add by lia. rewrite N.mod_small; lia.
Qed.

Lemma conn_step_framed c b s : framed b -> concat (ci_chunks c) = b ++ s ->
  exists rest spare, concat rest = s /\
    conn_step c = match process (mkSlice b spare) with
                  | PActs acts => SPacket acts rest | PCrash => SCrashed | PFuel => SFuel end.
Proof.
  intros Hf Hc. pose proof (framed_ten b Hf) as Hten. destruct Hf as (Hb & H0 & Hlen & Hw).
  unfold conn_step. pose proof (read_full_spec header_len c) as H1. rewrite Hc in H1.
  rewrite app_length in H1. replace (header_len <=? _)%nat with true in H1 by (unfold header_len; lia).
  destruct H1 as (r1 & -> & R1).
  assert (firstn header_len (b ++ s) = firstn 10 b) as Hfi.
  { rewrite firstn_app. unfold header_len. replace (10 - length b)%nat with O by lia. rewrite firstn_O, app_nil_r. reflexivity. }
  rewrite Hfi. set (hdr := firstn 10 b). set (tl := skipn 10 b).
  assert (length hdr = 10%nat) as Hhl by (unfold hdr; rewrite firstn_length; lia).
  assert (b = hdr ++ tl) as Hsplit by (symmetry; apply firstn_skipn).
  assert (nth 0 hdr 0 = 1) as Hn0.
  { unfold byte_at in H0. rewrite Hsplit in H0. rewrite nth_app_l in H0 by lia. exact H0. }
  rewrite Hn0. cbn [N.eqb Pos.eqb negb].
  assert (N.to_nat (tail_len hdr) = length tl) as Htl.
  { rewrite (tail_len_spec hdr tl Hhl); rewrite <- Hsplit; [|exact Hb|exact Hw].
    rewrite <- Hlen. unfold tl. rewrite skipn_length. unfold blen. lia. }
  pose proof (read_full_spec (N.to_nat (tail_len hdr)) (mkIn r1 (ci_end c))) as H2. cbn [ci_chunks ci_end] in H2.
  rewrite R1 in H2. unfold header_len in H2. rewrite skipn_app in H2.
  replace (10 - length b)%nat with O in H2 by lia. rewrite skipn_O in H2. fold tl in H2. rewrite app_length, Htl in H2.
  replace (length tl <=? length tl + length s)%nat with true in H2 by lia. rewrite <- Htl in H2.
  destruct H2 as (q1 & H2 & Q1). rewrite H2. rewrite Htl in *.
  rewrite firstn_app, Nat.sub_diag, firstn_O, app_nil_r, firstn_all.
  rewrite skipn_app, Nat.sub_diag, skipn_O, skipn_all in Q1. cbn [app] in Q1.
  exists q1. unfold recv_slice. rewrite <- Hsplit. eexists. split; [exact Q1|]. reflexivity.
Qed.


Lemma conn_step_good c b s : good b -> concat (ci_chunks c) = b ++ s ->
  exists rest acts, concat rest = s /\ conn_step c = SPacket acts rest /\ packet_actions b acts.
Proof.
  intros [Hf Hs] Hc. destruct (conn_step_framed c b s Hf Hc) as (rest & spare & Hr & ->).
  destruct (process_spec b spare Hf Hs) as (acts & -> & Hp). exists rest, acts. auto.
Qed.

Lemma stream_packets pkts : forall c s, Forall good pkts -> bytes_ok s = true ->
  concat (ci_chunks c) = concat pkts ++ s ->
  exists actss, Forall2 packet_actions pkts actss /\
    conn_exec c = (concat actss ++ fst (conn_exec (mkIn [s] (ci_end c))), snd (conn_exec (mkIn [s] (ci_end c)))).
Proof.
  induction pkts as [|b pkts IH]; intros c s Hg Hs Hc.
  - exists []. split; [constructor|]. cbn [concat app] in *.
    rewrite (conn_exec_stream c (mkIn [s] (ci_end c))); [destruct (conn_exec _); reflexivity| |reflexivity].
    cbn [ci_chunks concat]. rewrite app_nil_r. exact Hc.
  - inversion Hg as [|? ? Hb Hg']; subst. cbn [concat] in Hc. rewrite <- app_assoc in Hc.
    destruct (conn_step_good c b _ Hb Hc) as (rest & acts & Hr & Hst & Hp).
    destruct (IH (mkIn rest (ci_end c)) s Hg' Hs Hr) as (actss & Ha & He).
    exists (acts :: actss). split; [constructor; assumption|].
    rewrite conn_exec_step.
    + rewrite Hst, He. cbn [ci_end concat]. rewrite app_assoc. reflexivity.
    + rewrite Hc. rewrite bytes_ok_app. rewrite bytes_ok_app.
      destruct Hb as [(Hb & _) _]. rewrite Hb, Hs.
      assert (bytes_ok (concat pkts) = true) as ->; [|reflexivity].
      clear - Hg'. induction Hg' as [|x l [[Hx _] _] _ IH]; [reflexivity|]. cbn [concat]. rewrite bytes_ok_app, Hx, IH. reflexivity.
Qed.

(** the tails that produce nothing *)
Lemma tail_empty e : conn_exec (mkIn [[]] e) = ([], match e with CEof | CErr => FinClosed | COpen => FinBlocked end).
Proof. destruct e; reflexivity. Qed.

Lemma tail_alien s e : bytes_ok s = true -> (10 <= length s)%nat -> nth 0 s 0 <> 1 ->
  conn_exec (mkIn [s] e) = ([], FinClosed).
Proof.
  intros Hb Hl H0. rewrite conn_exec_step by (cbn [ci_chunks concat]; rewrite app_nil_r; exact Hb).
  unfold conn_step. pose proof (read_full_spec header_len (mkIn [s] e)) as H1.
  cbn [ci_chunks concat] in H1. rewrite app_nil_r in H1. replace (header_len <=? length s)%nat with true in H1 by (unfold header_len; lia).
  destruct H1 as (r1 & -> & R1).
  assert (nth 0 (firstn header_len s) 0 = nth 0 s 0) as -> by (destruct s; [cbn in Hl; lia|reflexivity]).
  apply N.eqb_neq in H0. rewrite H0. reflexivity.
Qed.

(** an incomplete packet at the end *)
Lemma tail_partial s e : bytes_ok s = true ->
  ((length s < 10)%nat \/
   exists more, framed (s ++ more) /\ more <> []) ->
  fst (conn_exec (mkIn [s] e)) = [] /\ snd (conn_exec (mkIn [s] e)) <> FinCrashed.
Proof.
  intros Hb Hor. rewrite conn_exec_step by (cbn [ci_chunks concat]; rewrite app_nil_r; exact Hb).
  unfold conn_step. pose proof (read_full_spec header_len (mkIn [s] e)) as H1.
  cbn [ci_chunks ci_end concat] in *. rewrite app_nil_r in H1.
  destruct (header_len <=? length s)%nat eqn:Hl.
  2: { rewrite H1. destruct e; cbn; try (split; [reflexivity|discriminate]). destruct s; split; (reflexivity || discriminate). }
  destruct H1 as (r1 & -> & R1). unfold header_len in *.
  destruct Hor as [Hlt|(more & Hf & Hm)]; [lia|].
  pose proof (framed_ten _ Hf) as Hten. destruct Hf as (Hb' & H0 & Hlen & Hw).
  set (hdr := firstn 10 s) in *.
  assert (length hdr = 10%nat) as Hhl by (unfold hdr; rewrite firstn_length; lia).
  destruct (negb _); [split; [reflexivity|discriminate]|].
  assert (N.to_nat (tail_len hdr) = length (s ++ more) - 10)%nat as Htl.
  { assert (s ++ more = hdr ++ (skipn 10 s ++ more)) as Hsp by (rewrite app_assoc; unfold hdr; rewrite firstn_skipn; reflexivity).
    rewrite (tail_len_spec hdr (skipn 10 s ++ more) Hhl); rewrite <- Hsp; [|exact Hb'|exact Hw].
    rewrite <- Hlen. unfold blen. lia. }
  pose proof (read_full_spec (N.to_nat (tail_len hdr)) (mkIn r1 e)) as H2. cbn [ci_chunks ci_end] in H2.
  rewrite R1, skipn_length, Htl, app_length in H2.
  assert (0 < length more)%nat by (destruct more; [congruence|cbn; lia]).
  replace (length s + length more - 10 <=? length s - 10)%nat with false in H2 by lia.
  rewrite Htl, app_length, H2. unfold short_read. destruct e; try (split; [reflexivity|discriminate]).
  destruct (skipn _ _); split; (reflexivity || discriminate).
Qed.
End ServerFacts3.
