(** * GlueServer: the lemmas behind Prop_Server. *)
From Verif Require Import GoBase Crc Float64 SubRecords Records Package Storage Server
  Spec_Bits Spec_Wf Spec_Rec Spec_Pkg Spec_Server BaseFacts SubFacts RecFacts DecFacts
  PkgFacts PkgFacts2 PkgFacts3 ServerFacts ServerFacts2 ServerFacts3 ServerFacts4 ServerFacts5.
From Coq Require Import Lia ZifyBool ZifyN ZifyNat.

Section GlueServer.
Context {E : go_env}.

Lemma good_b_ok b : good b -> bytes_ok b = true.
Proof. intros [(H & _) _]. exact H. Qed.
Lemma goods_ok pkts : Forall good pkts -> bytes_ok (concat pkts) = true.
Proof. induction 1 as [|b l H _ IH]; [reflexivity|]. cbn. rewrite bytes_ok_app, (good_b_ok b H), IH. reflexivity. Qed.

Lemma tail_quiet s e : incomplete s \/ alien s ->
  fst (conn_exec (mkIn [s] e)) = [] /\ snd (conn_exec (mkIn [s] e)) <> FinCrashed.
Proof.
  intros [[H1 H2]|(H1 & H2 & H3)].
  - apply tail_partial; [exact H1|]. destruct H2 as [H2|(more & Ha & Hb)]; [left; exact H2|right; exists more; auto].
  - rewrite tail_alien by assumption. split; [reflexivity|discriminate].
Qed.
Lemma quiet_ok s : incomplete s \/ alien s -> bytes_ok s = true.
Proof. intros [[H _]|(H & _)]; exact H. Qed.

(** ** C39, C44, C45 *)
Lemma carries_exec c pkts s : carries c pkts s ->
  exists actss, Forall2 packet_actions pkts actss /\ fst (conn_exec c) = concat actss /\
    snd (conn_exec c) <> FinCrashed /\ (alien s -> snd (conn_exec c) = FinClosed).
Proof.
  intros (Hc & Hg & Hs). destruct (stream_packets pkts c s Hg (quiet_ok s Hs) Hc) as (actss & Ha & He).
  exists actss. split; [exact Ha|]. destruct (tail_quiet s (ci_end c) Hs) as [H1 H2].
  rewrite He. cbn [fst snd]. rewrite H1, app_nil_r. split; [reflexivity|]. split; [exact H2|].
  intros (Hb & Hl & H0). rewrite tail_alien by assumption. reflexivity.
Qed.
Lemma carries_ok c pkts s : carries c pkts s -> in_ok c.
Proof. intros (Hc & Hg & Hs). unfold in_ok. rewrite Hc, bytes_ok_app, (goods_ok _ Hg), (quiet_ok _ Hs). reflexivity. Qed.

(** the actions for an accepted application-data packet *)
Lemma accepted_actions b acts p l : good b -> packet_actions b acts ->
  pkg_decode pkg0 (mkSlice b []) = (p, DRet 0 false) -> pSFRD p = Some (FSds l) ->
  decodes_to b p /\ pPID p = word_at b 7 /\ app_actions (pPID p) l acts.
Proof.
  intros [Hf Hs] (p' & code & err & Hd & Hpid & Herr & Hok) Hp Hl.
  pose proof (Hd []) as H. rewrite Hp in H. injection H as <- <- <-.
  split; [exact Hd|]. split; [exact Hpid|].
  destruct (Hok eq_refl) as (_ & [(_ & _ & r & Hr)|(_ & l' & Hl' & Ha)]); [congruence|].
  rewrite Hl in Hl'. injection Hl' as <-. exact Ha.
Qed.

(** C39: replies, one group per packet, in order *)
Definition replies_to (b : bytes) (ws : list bytes) : Prop :=
  forall p l, decodes_to b p -> pSFRD p = Some (FSds l) -> confirms l = false ->
  exists ack svc, is_ack ack (pPID p) 0 svc (map RN l) /\ pPID p = word_at b 7 /\
    ws = ack :: (if credentials l then [result_packet (pPID p)] else []).
Lemma writes_app a b : writes (a ++ b) = writes a ++ writes b.
Proof. apply flat_map_app. Qed.
Lemma packet_replies b acts : good b -> packet_actions b acts -> replies_to b (writes acts).
Proof.
  intros Hg Ha p l Hd Hl Hc.
  destruct (accepted_actions b acts p l Hg Ha (Hd []) Hl) as (_ & Hpid & Happ).
  unfold app_actions in Happ. rewrite Hc in Happ.
  destruct Happ as (rec & ack & -> & _ & _ & _ & _ & _ & _ & _ & _ & _ & svc & Hi & _).
  exists ack, svc. split; [exact Hi|]. split; [exact Hpid|].
  rewrite !writes_app. generalize (result_packet (pPID p)). intros rp.
  destruct (positions l), (credentials l); reflexivity.
Qed.
Lemma stream_replies c pkts s : carries c pkts s ->
  exists wss, Forall2 replies_to pkts wss /\ writes (fst (conn_exec c)) = concat wss.
Proof.
  intros H. destruct (carries_exec c pkts s H) as (actss & Ha & He & _). destruct H as (_ & Hg & _).
  exists (map writes actss). rewrite He. split.
  - clear He. induction Ha as [|b acts bs actss H1 H2 IH]; [constructor|]. inversion Hg; subst. cbn [map].
    constructor; [apply packet_replies; assumption|apply IH; assumption].
  - clear. induction actss as [|a l IH]; [reflexivity|]. cbn [concat map]. rewrite writes_app, IH. reflexivity.
Qed.

(** ** C42 *)
Lemma performs_app_inv m a b evs : performs m (a ++ b) evs ->
  exists e1 e2, evs = e1 ++ e2 /\ performs m a e1 /\ performs m b e2.
Proof.
  revert evs. induction b as [|x b IH] using rev_ind; intros evs H.
  - rewrite app_nil_r in H. exists evs, []. rewrite app_nil_r. split; [reflexivity|]. split; [exact H|constructor].
  - rewrite app_assoc in H. inversion H as [Hx|acts evs' w H1 Hx|acts evs' n s o H1 H2 Hx]; subst.
    + symmetry in Hx. apply app_eq_nil in Hx. destruct Hx. discriminate.
    + apply app_inj_tail in Hx. destruct Hx as [-> <-]. destruct (IH _ H1) as (e1 & e2 & -> & P1 & P2).
      exists e1, (e2 ++ [EWrite w]). rewrite app_assoc. split; [reflexivity|]. split; [exact P1|constructor; exact P2].
    + apply app_inj_tail in Hx. destruct Hx as [-> <-]. destruct (IH _ H1) as (e1 & e2 & -> & P1 & P2).
      exists e1, (e2 ++ s). rewrite app_assoc. split; [reflexivity|]. split; [exact P1|econstructor; eassumption].
Qed.
Lemma one_save_reached m n s o : one_save m n s o -> exists reached, (reached <= m)%nat /\
  (forall k, In (ECall k n SvOk) s <-> (k < reached)%nat) /\
  (forall k, In (ECall k n SvErr) s <-> k = reached /\ (k < m)%nat) /\
  (forall k r o', In (ECall k r o') s -> r = n /\ (k <= reached)%nat).
Proof.
  intros [|j Hj].
  - exists m. split; [lia|]. repeat match goal with |- _ /\ _ => split end.
    + intros k. rewrite in_app_iff, in_map_iff. split.
      * intros [(x & Ex & Hx)|[Ex|[]]]; [|discriminate]. injection Ex as <-. apply in_seq in Hx. lia.
      * intros Hk. left. exists k. split; [reflexivity|]. apply in_seq. lia.
    + intros k. rewrite in_app_iff, in_map_iff. split.
      * intros [(x & Ex & Hx)|[Ex|[]]]; discriminate.
      * lia.
    + intros k r o'. rewrite in_app_iff, in_map_iff. intros [(x & Ex & Hx)|[Ex|[]]]; [|discriminate].
      injection Ex as <- <- <-. apply in_seq in Hx. split; [reflexivity|lia].
  - exists j. split; [lia|]. repeat match goal with |- _ /\ _ => split end.
    + intros k. rewrite in_app_iff, in_map_iff. split.
      * intros [(x & Ex & Hx)|[Ex|[Ex|[]]]]; try discriminate. injection Ex as <-. apply in_seq in Hx. lia.
      * intros Hk. left. exists k. split; [reflexivity|]. apply in_seq. lia.
    + intros k. rewrite in_app_iff, in_map_iff. split.
      * intros [(x & Ex & Hx)|[Ex|[Ex|[]]]]; try discriminate. injection Ex as <-. split; [reflexivity|exact Hj].
      * intros [-> _]. right. left. reflexivity.
    + intros k r o'. rewrite in_app_iff, in_map_iff. intros [(x & Ex & Hx)|[Ex|[Ex|[]]]]; try discriminate.
      * injection Ex as <- <- <-. apply in_seq in Hx. split; [reflexivity|lia].
      * injection Ex as <- <- <-. split; [reflexivity|lia].
Qed.
Lemma one_save_no_write m n s o b : one_save m n s o -> ~ In (EWrite b) s.
Proof.
  intros H Hin. destruct H as [|k Hk]; apply in_app_or in Hin; destruct Hin as [Hin|Hin].
  - apply in_map_iff in Hin. destruct Hin as (k & ? & _). discriminate.
  - destruct Hin as [?|[]]. discriminate.
  - apply in_map_iff in Hin. destruct Hin as (j & ? & _). discriminate.
  - destruct Hin as [?|[?|[]]]; discriminate.
Qed.
(** a write among the events comes from a write among the actions *)
Lemma performs_write_split m acts evs : performs m acts evs -> forall pre b post,
  evs = pre ++ EWrite b :: post ->
  exists a1 a2, acts = a1 ++ AWrite b :: a2 /\ performs m a1 pre.
Proof.
  induction 1 as [|acts evs w H IH|acts evs n s o H IH Hs]; intros pre b post He.
  - destruct pre; discriminate.
  - destruct post as [|x post _] using rev_ind.
    + apply app_inj_tail in He. destruct He as [-> Hw]. injection Hw as ->. exists acts, []. auto.
    + rewrite app_comm_cons, app_assoc in He. apply app_inj_tail in He. destruct He as [He _].
      destruct (IH _ _ _ He) as (a1 & a2 & -> & P). exists a1, (a2 ++ [AWrite w]). rewrite <- app_assoc. auto.
  - symmetry in He. apply app_eq_app in He. destruct He as (l & [[H1 H2]|[H1 H2]]).
    + (* the write would lie in s *)
      exfalso. apply (one_save_no_write _ _ _ _ b Hs). rewrite H2. apply in_or_app. right. left. reflexivity.
    + destruct l as [|x l].
      * exfalso. cbn in H2. apply (one_save_no_write _ _ _ _ b Hs). rewrite <- H2. left. reflexivity.
      * cbn in H2. injection H2 as <- H2. destruct (IH _ _ _ H1) as (a1 & a2 & -> & P).
        exists a1, (a2 ++ [ASave n]). rewrite <- app_assoc. auto.
Qed.
(** which packet an action belongs to *)
Lemma concat_split {A B} (R : A -> list B -> Prop) xs yss : Forall2 R xs yss -> forall a1 y a2,
  concat yss = a1 ++ y :: a2 ->
  exists xs1 x xs2 yss1 ys1 ys2, xs = xs1 ++ x :: xs2 /\ Forall2 R xs1 yss1 /\
    R x (ys1 ++ y :: ys2) /\ a1 = concat yss1 ++ ys1.
Proof.
  induction 1 as [|x ys xs yss Hx H IH]; intros a1 y a2 He.
  - destruct a1; discriminate.
  - cbn [concat] in He. apply app_eq_app in He. destruct He as (l & [[H1 H2]|[H1 H2]]).
    + destruct l as [|z l].
      * rewrite app_nil_r in H1. subst ys. cbn [app] in H2. symmetry in H2.
        destruct (IH [] y a2 H2) as (xs1 & x' & xs2 & yss1 & ys1 & ys2 & -> & F1 & F2 & F3).
        exists (x :: xs1), x', xs2, (a1 :: yss1), ys1, ys2. split; [reflexivity|]. split; [constructor; assumption|].
        split; [exact F2|]. cbn [concat]. rewrite <- app_assoc, <- F3, app_nil_r. reflexivity.
      * cbn [app] in H2. injection H2 as <- H2. subst ys.
        exists [], x, xs, [], a1, l. split; [reflexivity|]. split; [constructor|]. split; [exact Hx|reflexivity].
    + destruct (IH l y a2 H2) as (xs1 & x' & xs2 & yss1 & ys1 & ys2 & -> & F1 & F2 & F3).
      exists (x :: xs1), x', xs2, (ys :: yss1), ys1, ys2. split; [reflexivity|]. split; [constructor; assumption|].
      split; [exact F2|]. cbn [concat]. rewrite <- app_assoc, <- F3. exact H1.
Qed.

Lemma save_before_ack stores conns sched i c pkts s : Forall in_ok conns -> nth_error conns i = Some c ->
  carries c pkts s ->
  forall pre w post, events_of i (g_trace (grun stores sched (ginit conns))) = pre ++ EWrite w :: post ->
  exists before b after, pkts = before ++ b :: after /\
    exists acts, packet_actions b acts /\ In (AWrite w) acts /\
    forall p l, decodes_to b p -> pSFRD p = Some (FSds l) -> positions l <> [] ->
      exists early saving late rec o,
        pre = early ++ saving ++ late /\ one_save (length stores) rec saving o /\
        Forall2 loc_stored (positions l) (nrLocs rec).
Proof.
  intros Hb Hi Hc pre w post Hev.
  destruct (conn_events stores conns sched i c Hb Hi) as (done & later & e0 & cur & H1 & H2 & H3 & H4).
  rewrite H3 in Hev.
  assert (~ In (EWrite w) cur) as Hcur.
  { destruct H4 as [->|(n & l' & _ & k & _ & [->|(_ & _ & ->)])]; [intros []| |]; intros Hin.
    - apply in_map_iff in Hin. destruct Hin as (j & ? & _). discriminate.
    - apply in_app_or in Hin. destruct Hin as [Hin|[?|[]]]; [|discriminate].
      apply in_map_iff in Hin. destruct Hin as (j & ? & _). discriminate. }
  assert (exists post', e0 = pre ++ EWrite w :: post') as [post' He0].
  { apply app_eq_app in Hev. destruct Hev as (l & [[Ha Hb']|[Ha Hb']]).
    - destruct l as [|x l].
      + exfalso. apply Hcur. cbn in Hb'. rewrite <- Hb'. left. reflexivity.
      + cbn in Hb'. injection Hb' as <- Hb'. exists l. exact Ha.
    - exfalso. apply Hcur. rewrite Hb'. apply in_or_app. right. left. reflexivity. }
  destruct (performs_write_split _ _ _ H2 _ _ _ He0) as (a1 & a2 & Hd & P1).
  destruct (carries_exec c pkts s Hc) as (actss & Ha & He & _). destruct Hc as (_ & Hg & _).
  rewrite He, Hd, <- app_assoc in H1. cbn [app] in H1.
  destruct (concat_split _ _ _ Ha _ _ _ H1) as (before & b & after & yss1 & ys1 & ys2 & -> & F1 & F2 & F3).
  exists before, b, after. split; [reflexivity|]. exists (ys1 ++ AWrite w :: ys2). split; [exact F2|].
  split; [apply in_or_app; right; left; reflexivity|].
  intros p l Hdec Hl Hne. assert (good b) as Hgb by (apply Forall_app in Hg; destruct Hg as [_ Hg]; inversion Hg; assumption).
  destruct (accepted_actions b _ p l Hgb F2 (Hdec []) Hl) as (_ & _ & Happ). unfold app_actions in Happ.
  destruct (confirms l). { destruct ys1; discriminate. }
  destruct Happ as (rec & ack & Hacts & Hlocs & _).
  destruct (positions l) as [|e0' es] eqn:Hpos; [congruence|].
  assert (exists ys1', ys1 = ASave rec :: ys1') as [ys1' ->].
  { destruct ys1 as [|y ys1']; cbn [app] in Hacts; injection Hacts as Hx Hy; [discriminate|]. exists ys1'. rewrite Hx. reflexivity. }
  rewrite F3 in P1. apply performs_app_inv in P1. destruct P1 as (ev1 & ev2 & -> & _ & P2).
  change (ASave rec :: ys1') with ([ASave rec] ++ ys1') in P2.
  apply performs_app_inv in P2. destruct P2 as (sv & rest & -> & P3 & _).
  change [ASave rec] with ([] ++ [ASave rec]) in P3.
  inversion P3 as [Hx|acts0 evs0 w0 Q1 Hx|acts0 evs0 n0 s0 o0 Q1 Q2 Hx]; subst.
  - apply (app_inj_tail acts0 []) in Hx. destruct Hx as [_ Hx]. discriminate.
  - apply (app_inj_tail acts0 []) in Hx. destruct Hx as [-> Hx]. injection Hx as ->.
    assert (evs0 = []) as ->. { inversion Q1 as [|? ? ? ? Hy|? ? ? ? ? ? ? Hy]; [reflexivity| |]; destruct acts; discriminate. }
    exists ev1, s0, rest, rec, o0. split; [reflexivity|]. split; [exact Q2|exact Hlocs].
Qed.

(** ** process does not depend on the spare capacity *)
Lemma process_spare b spare : good b -> process (mkSlice b spare) = process (mkSlice b []).
Proof. intros [Hf Hs]. unfold process. rewrite (framed_spare b spare [] Hf Hs). reflexivity. Qed.
(** a single packet then end of input *)
Lemma exec_one b e acts : good b -> process (mkSlice b []) = PActs acts ->
  conn_exec (mkIn [b] e) = (acts, match e with CEof | CErr => FinClosed | COpen => FinBlocked end).
Proof.
  intros Hg Hp. assert (bytes_ok (concat (ci_chunks (mkIn [b] e))) = true) as Hb.
  { cbn. rewrite app_nil_r. apply good_b_ok, Hg. }
  rewrite conn_exec_step by exact Hb.
  destruct (conn_step_framed (mkIn [b] e) b [] (proj1 Hg)) as (rest & spare & Hr & ->).
  { cbn. reflexivity. }
  rewrite process_spare, Hp by exact Hg. cbn [ci_end].
  rewrite (conn_exec_stream (mkIn rest e) (mkIn [[]] e)) by (cbn; rewrite ?Hr; reflexivity).
  rewrite tail_empty. rewrite app_nil_r. reflexivity.
Qed.
End GlueServer.
