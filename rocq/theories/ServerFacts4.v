(** * ServerFacts4: many connections under every schedule. *)
From Verif Require Import GoBase Crc Float64 SubRecords Records Package Storage Server
  Spec_Bits Spec_Wf Spec_Rec Spec_Pkg Spec_Server BaseFacts SubFacts RecFacts DecFacts
  PkgFacts PkgFacts2 PkgFacts3 ServerFacts ServerFacts2 ServerFacts3.
From Coq Require Import Lia ZifyBool ZifyN ZifyNat.

Section ServerFacts4.
Context {E : go_env}.
Variable stores : list saver.

Lemma upd_same {A} i (x y : A) l : nth_error l i = Some y -> nth_error (upd i x l) i = Some x.
Proof. revert l; induction i as [|i IH]; intros [|z l] H; try discriminate; cbn in *; [reflexivity|]. apply IH, H. Qed.
Lemma upd_other {A} i j (x : A) l : i <> j -> nth_error (upd i x l) j = nth_error l j.
Proof.
  revert j l; induction i as [|i IH]; intros [|j] [|z l] H; try reflexivity; try congruence.
  cbn. apply IH. congruence.
Qed.

Lemma events_app i a b : events_of i (a ++ b) = events_of i a ++ events_of i b.
Proof. unfold events_of. rewrite filter_app, map_app. reflexivity. Qed.
Lemma events_own i (l : list event) : events_of i (map (pair i) l) = l.
Proof.
  unfold events_of. induction l as [|e l IH]; [reflexivity|]. cbn [map filter fst]. rewrite Nat.eqb_refl. cbn [map snd].
  rewrite IH. reflexivity.
Qed.
Lemma events_foreign i j (l : list event) : i <> j -> events_of j (map (pair i) l) = [].
Proof.
  intros H. apply Nat.eqb_neq in H. unfold events_of. induction l as [|e l IH]; [reflexivity|].
  cbn [map filter fst]. rewrite H. exact IH.
Qed.
Definition acts_of_events (l : list event) : list action :=
  flat_map (fun e => match e with EWrite b => [AWrite b] | ESaved n _ => [ASave n] | ECall _ _ _ => [] end) l.
Lemma actions_events i tr : actions_of i tr = acts_of_events (events_of i tr).
Proof. reflexivity. Qed.
Lemma acts_calls n l : acts_of_events (map (fun k => ECall k n SvOk) l) = [].
Proof. induction l as [|k l IH]; [reflexivity|exact IH]. Qed.
Lemma acts_app a b : acts_of_events (a ++ b) = acts_of_events a ++ acts_of_events b.
Proof. apply flat_map_app. Qed.
Lemma acts_save m n s o : one_save m n s o -> acts_of_events s = [ASave n].
Proof. intros H. destruct H; rewrite acts_app, acts_calls; reflexivity. Qed.
Lemma acts_performs m acts evs : performs m acts evs -> acts_of_events evs = acts.
Proof.
  induction 1 as [|acts evs b H IH|acts evs n s o H IH Hs]; [reflexivity| |]; rewrite acts_app, IH; [reflexivity|].
  rewrite (acts_save _ _ _ _ Hs). reflexivity.
Qed.

(** the calls already made by the Save in progress *)
Definition partial (cs : conn_state) : list event :=
  match cs_pend cs with
  | ASave n :: _ => map (fun k => ECall k n SvOk) (seq 0 (cs_at cs))
  | _ => []
  end.
(** the last event of a connection whose storage panicked *)
Definition dying (cs : conn_state) (l : list event) : Prop :=
  l = [] \/ exists n pend, cs_pend cs = ASave n :: pend /\ l = [ECall (cs_at cs) n SvPanic].

(** what connection [i], started as [c0], has done and still has to do *)
Definition conn_inv (c0 : conn_in) (crashed : bool) (evs : list event) (cs : conn_state) : Prop :=
  in_ok (cs_in cs) /\ (cs_at cs <= length stores)%nat /\
  exists done evs0 last, performs (length stores) done evs0 /\
  evs = evs0 ++ partial cs ++ last /\ dying cs last /\ (crashed = false -> last = []) /\
  (last <> [] -> (cs_at cs < length stores)%nat) /\
  if cs_done cs
  then cs_pend cs = [] /\ done = fst (conn_exec c0) /\ snd (conn_exec c0) = FinClosed
  else fst (conn_exec c0) = done ++ cs_pend cs ++ fst (conn_exec (cs_in cs)) /\
       snd (conn_exec c0) = snd (conn_exec (cs_in cs)).

Definition ginv (conns : list conn_in) (g : global) : Prop :=
  forall i c0, nth_error conns i = Some c0 ->
  exists cs, nth_error (g_conns g) i = Some cs /\ conn_inv c0 (g_crashed g) (events_of i (g_trace g)) cs.

Lemma ginv_init conns : Forall in_ok conns -> ginv conns (ginit conns).
Proof.
  intros Hb i c0 Hi. unfold ginit. cbn [g_conns g_trace g_crashed].
  exists (mkCs c0 [] 0 false). rewrite nth_error_map, Hi. split; [reflexivity|].
  unfold conn_inv. cbn [cs_in cs_done cs_pend cs_at]. split; [|split; [lia|]].
  - rewrite Forall_forall in Hb. apply Hb. eapply nth_error_In, Hi.
  - exists [], [], []. split; [constructor|]. split; [reflexivity|]. split; [left; reflexivity|].
    split; [reflexivity|]. split; [congruence|]. split; reflexivity.
Qed.

Lemma conn_inv_crash c0 c evs cs : conn_inv c0 c evs cs -> conn_inv c0 true evs cs.
Proof.
  intros (H1 & H2 & d & e0 & l & H3 & H4 & H5 & _ & H6). split; [exact H1|]. split; [exact H2|].
  exists d, e0, l. split; [exact H3|]. split; [exact H4|]. split; [exact H5|]. split; [discriminate|exact H6].
Qed.

(** a step that only adds events of [i] and changes only connection [i] *)
Lemma ginv_other conns g g' i evs : ginv conns g -> g_crashed g = false ->
  (forall j, j <> i -> nth_error (g_conns g') j = nth_error (g_conns g) j) ->
  g_trace g' = g_trace g ++ map (pair i) evs ->
  (forall c0, nth_error conns i = Some c0 ->
     exists cs, nth_error (g_conns g') i = Some cs /\
       conn_inv c0 (g_crashed g') (events_of i (g_trace g) ++ evs) cs) ->
  ginv conns g'.
Proof.
  intros Hg Hcr Hc Ht Hi j c0 Hj. destruct (Nat.eq_dec j i) as [->|Hn].
  - destruct (Hi c0 Hj) as (cs & H1 & H2). exists cs. split; [exact H1|].
    rewrite Ht, events_app, events_own. exact H2.
  - destruct (Hg j c0 Hj) as (cs & H1 & H2). exists cs. rewrite Hc by exact Hn. split; [exact H1|].
    rewrite Ht, events_app, events_foreign, app_nil_r by congruence.
    destruct (g_crashed g'); [eapply conn_inv_crash, H2|]. rewrite Hcr in H2. exact H2.
Qed.

Lemma gstep_inv conns i g : ginv conns g -> ginv conns (gstep stores i g).
Proof.
  intros Hg. unfold gstep. destruct (g_crashed g) eqn:Hcr; [exact Hg|].
  destruct (nth_error (g_conns g) i) as [cs|] eqn:Hi; [|exact Hg].
  destruct (cs_done cs) eqn:Hd; [exact Hg|].
  assert (forall c0, nth_error conns i = Some c0 ->
    in_ok (cs_in cs) /\ (cs_at cs <= length stores)%nat /\
    exists done evs0, performs (length stores) done evs0 /\
      events_of i (g_trace g) = evs0 ++ partial cs /\
      fst (conn_exec c0) = done ++ cs_pend cs ++ fst (conn_exec (cs_in cs)) /\
      snd (conn_exec c0) = snd (conn_exec (cs_in cs))) as Hcs.
  { intros c0 H. destruct (Hg i c0 H) as (cs' & H1 & H2). rewrite Hi in H1. injection H1 as <-.
    destruct H2 as (Hb & Ha & d & e0 & l & H3 & H4 & H5 & H6 & H7 & H8). rewrite Hd in H8.
    split; [exact Hb|]. split; [exact Ha|]. exists d, e0. split; [exact H3|].
    rewrite (H6 Hcr), app_nil_r in H4. split; [exact H4|exact H8]. }
  destruct (cs_pend cs) as [|[b|n] pend] eqn:Hp.
  - destruct (conn_step (cs_in cs)) as [acts rest| | | |] eqn:Hs; try exact Hg.
    + eapply (ginv_other conns g _ i [] Hg Hcr); cbn [g_conns g_trace g_crashed map].
      * intros j Hj. apply upd_other. congruence.
      * symmetry. apply app_nil_r.
      * intros c0 H. eexists. split; [eapply upd_same, Hi|].
        destruct (Hcs c0 H) as (Hb & Ha & d & e0 & H1 & H2 & H3 & H4).
        pose proof (conn_step_packet _ _ _ Hs) as (n & Hn & Hr).
        rewrite (conn_exec_step (cs_in cs) Hb), Hs in H3, H4. cbn [app] in H3, H4.
        unfold conn_inv. cbn [cs_in cs_done cs_pend cs_at].
        split; [|split; [lia|]].
        { unfold in_ok. cbn [ci_chunks]. rewrite Hr. apply bytes_ok_skipn, Hb. }
        exists d, e0, []. split; [exact H1|].
        split. { rewrite H2. unfold partial. rewrite Hp. cbn [cs_pend cs_at seq map]. destruct acts as [|[|]]; rewrite ?app_nil_r; reflexivity. }
        split; [left; reflexivity|]. split; [reflexivity|]. split; [congruence|].
        destruct (conn_exec (mkIn rest (ci_end (cs_in cs)))) as [l f]. cbn [fst snd] in *. split; assumption.
    + eapply (ginv_other conns g _ i [] Hg Hcr); cbn [g_conns g_trace g_crashed map].
      * intros j Hj. apply upd_other. congruence.
      * symmetry. apply app_nil_r.
      * intros c0 H. eexists. split; [eapply upd_same, Hi|].
        destruct (Hcs c0 H) as (Hb & Ha & d & e0 & H1 & H2 & H3 & H4).
        rewrite (conn_exec_step (cs_in cs) Hb), Hs in H3, H4. cbn [app fst snd] in H3, H4. rewrite app_nil_r in H3.
        unfold conn_inv. cbn [cs_in cs_done cs_pend cs_at]. split; [exact Hb|]. split; [lia|].
        exists d, e0, []. split; [exact H1|].
        split. { rewrite H2. unfold partial. rewrite Hp. cbn [cs_pend]. rewrite !app_nil_r. reflexivity. }
        split; [left; reflexivity|]. split; [reflexivity|]. split; [congruence|]. auto.
    + eapply (ginv_other conns g _ i [] Hg Hcr); cbn [g_conns g_trace g_crashed map];
        [reflexivity|symmetry; apply app_nil_r|].
      intros c0 H. destruct (Hg i c0 H) as (cs' & H1 & H2). exists cs'. rewrite app_nil_r. split; [exact H1|eapply conn_inv_crash, H2].
    + eapply (ginv_other conns g _ i [] Hg Hcr); cbn [g_conns g_trace g_crashed map];
        [reflexivity|symmetry; apply app_nil_r|].
      intros c0 H. destruct (Hg i c0 H) as (cs' & H1 & H2). exists cs'. rewrite app_nil_r. split; [exact H1|eapply conn_inv_crash, H2].
  - eapply (ginv_other conns g _ i [EWrite b] Hg Hcr); cbn [g_conns g_trace g_crashed map].
    + intros j Hj. apply upd_other. congruence.
    + reflexivity.
    + intros c0 H. eexists. split; [eapply upd_same, Hi|].
      destruct (Hcs c0 H) as (Hb & Ha & d & e0 & H1 & H2 & H3 & H4).
      unfold conn_inv. cbn [cs_in cs_done cs_pend cs_at]. split; [exact Hb|]. split; [lia|].
      exists (d ++ [AWrite b]), (e0 ++ [EWrite b]), []. split; [constructor; exact H1|].
      split. { rewrite H2. unfold partial at 1. rewrite Hp. unfold partial. cbn [cs_pend cs_at].
               rewrite !app_nil_r. destruct pend as [|[|]]; cbn [seq map]; rewrite ?app_nil_r; reflexivity. }
      split; [left; reflexivity|]. split; [reflexivity|]. split; [congruence|].
      rewrite <- !app_assoc. split; [exact H3|exact H4].
  - destruct (nth_error stores (cs_at cs)) as [s|] eqn:Hst.
    + assert ((cs_at cs < length stores)%nat) as Hlt by (apply nth_error_Some; congruence).
      destruct (s (history (cs_at cs) (g_trace g) ++ [n])).
      * eapply (ginv_other conns g _ i [ECall (cs_at cs) n SvOk] Hg Hcr); cbn [g_conns g_trace g_crashed map].
        -- intros j Hj. apply upd_other. congruence.
        -- reflexivity.
        -- intros c0 H. eexists. split; [eapply upd_same, Hi|].
           destruct (Hcs c0 H) as (Hb & Ha & d & e0 & H1 & H2 & H3 & H4).
           unfold conn_inv. cbn [cs_in cs_done cs_pend cs_at]. split; [exact Hb|]. split; [lia|].
           exists d, e0, []. split; [exact H1|].
           split. { rewrite H2. unfold partial. rewrite Hp. cbn [cs_pend cs_at].
                    rewrite seq_S, map_app, app_nil_r, <- app_assoc. reflexivity. }
           split; [left; reflexivity|]. split; [reflexivity|]. split; [congruence|]. split; [exact H3|exact H4].
      * eapply (ginv_other conns g _ i [ECall (cs_at cs) n SvErr; ESaved n SvErr] Hg Hcr); cbn [g_conns g_trace g_crashed map].
        -- intros j Hj. apply upd_other. congruence.
        -- reflexivity.
        -- intros c0 H. eexists. split; [eapply upd_same, Hi|].
           destruct (Hcs c0 H) as (Hb & Ha & d & e0 & H1 & H2 & H3 & H4).
           unfold conn_inv. cbn [cs_in cs_done cs_pend cs_at]. split; [exact Hb|]. split; [lia|].
           exists (d ++ [ASave n]), (e0 ++ partial cs ++ [ECall (cs_at cs) n SvErr; ESaved n SvErr]), [].
           split. { econstructor; [exact H1|]. unfold partial. rewrite Hp. apply save_err, Hlt. }
           split. { rewrite H2. unfold partial at 3. cbn [cs_pend cs_at seq map]. rewrite <- app_assoc.
                    destruct pend as [|[|]]; rewrite !app_nil_r; reflexivity. }
           split; [left; reflexivity|]. split; [reflexivity|]. split; [congruence|].
           rewrite <- !app_assoc. split; [exact H3|exact H4].
      * eapply (ginv_other conns g _ i [ECall (cs_at cs) n SvPanic] Hg Hcr); cbn [g_conns g_trace g_crashed map].
        -- reflexivity.
        -- reflexivity.
        -- intros c0 H. exists cs. split; [exact Hi|].
           destruct (Hcs c0 H) as (Hb & Ha & d & e0 & H1 & H2 & H3 & H4).
           split; [exact Hb|]. split; [exact Ha|].
           exists d, e0, [ECall (cs_at cs) n SvPanic]. split; [exact H1|].
           split; [rewrite H2, <- app_assoc; reflexivity|].
           split; [right; exists n, pend; split; [exact Hp|reflexivity]|]. split; [discriminate|]. split; [auto|].
           rewrite Hd, Hp. split; [exact H3|exact H4].
    + eapply (ginv_other conns g _ i [ESaved n SvOk] Hg Hcr); cbn [g_conns g_trace g_crashed map].
      * intros j Hj. apply upd_other. congruence.
      * reflexivity.
      * intros c0 H. eexists. split; [eapply upd_same, Hi|].
        destruct (Hcs c0 H) as (Hb & Ha & d & e0 & H1 & H2 & H3 & H4).
        apply nth_error_None in Hst.
        unfold conn_inv. cbn [cs_in cs_done cs_pend cs_at]. split; [exact Hb|]. split; [lia|].
        exists (d ++ [ASave n]), (e0 ++ partial cs ++ [ESaved n SvOk]), [].
        split. { econstructor; [exact H1|]. unfold partial. rewrite Hp. replace (cs_at cs) with (length stores) by lia. apply save_all. }
        split. { rewrite H2. unfold partial at 3. cbn [cs_pend cs_at seq map]. rewrite <- app_assoc.
                 destruct pend as [|[|]]; rewrite !app_nil_r; reflexivity. }
        split; [left; reflexivity|]. split; [reflexivity|]. split; [congruence|].
        rewrite <- !app_assoc. split; [exact H3|exact H4].
Qed.

Lemma grun_inv conns sched : forall g, ginv conns g -> ginv conns (grun stores sched g).
Proof.
  induction sched as [|i sched IH]; intros g Hg; [exact Hg|]. cbn [grun fold_left]. apply IH, gstep_inv, Hg.
Qed.

(** what a connection has done at any moment: some of its actions, completely,
    and part of the next Save *)
Lemma conn_events conns sched i c0 : Forall in_ok conns -> nth_error conns i = Some c0 ->
  exists done later evs0 current,
    fst (conn_exec c0) = done ++ later /\ performs (length stores) done evs0 /\
    events_of i (g_trace (grun stores sched (ginit conns))) = evs0 ++ current /\
    (current = [] \/ exists n later', later = ASave n :: later' /\
       exists k, (k <= length stores)%nat /\
       (current = map (fun k => ECall k n SvOk) (seq 0 k) \/
        (k < length stores)%nat /\ g_crashed (grun stores sched (ginit conns)) = true /\
          current = map (fun k => ECall k n SvOk) (seq 0 k) ++ [ECall k n SvPanic])).
Proof.
  intros Hb Hi. destruct (grun_inv conns sched _ (ginv_init conns Hb) i c0 Hi) as (cs & _ & _ & Ha & d & e0 & l & H1 & H2 & H3 & H4 & H5 & H6).
  exists d. destruct (cs_done cs).
  - destruct H6 as (Hp & Hd & _). exists [], e0, []. rewrite app_nil_r. split; [auto|]. split; [exact H1|].
    split; [|left; reflexivity]. rewrite H2. unfold partial. rewrite Hp. cbn [app].
    destruct H3 as [->|(n & pend & H & _)]; [reflexivity|congruence].
  - destruct H6 as (Hx & _). eexists. exists e0, (partial cs ++ l). split; [exact Hx|]. split; [exact H1|]. split; [exact H2|].
    destruct H3 as [->|(n & pend & H & ->)].
    + rewrite app_nil_r. unfold partial. destruct (cs_pend cs) as [|[b|n] pend]; [left; reflexivity|left; reflexivity|].
      right. exists n. eexists. split; [reflexivity|]. exists (cs_at cs). auto.
    + right. exists n. rewrite H. eexists. split; [reflexivity|]. exists (cs_at cs). split; [exact Ha|]. right.
      split; [apply H5; discriminate|].
      split. { destruct (g_crashed _) eqn:Hg; [reflexivity|]. specialize (H4 eq_refl). discriminate. }
      unfold partial. rewrite H. reflexivity.
Qed.

Lemma isolation conns sched i c0 : Forall in_ok conns -> nth_error conns i = Some c0 ->
  exists later, fst (conn_exec c0) = actions_of i (g_trace (grun stores sched (ginit conns))) ++ later.
Proof.
  intros Hb Hi. destruct (conn_events conns sched i c0 Hb Hi) as (d & later & e0 & cur & H1 & H2 & H3 & H4).
  exists later. rewrite H1, actions_events, H3, acts_app, (acts_performs _ _ _ H2).
  destruct H4 as [->|(n & l' & _ & k & _ & [->|(_ & _ & ->)])].
  - rewrite app_nil_r. reflexivity.
  - rewrite acts_calls, app_nil_r. reflexivity.
  - rewrite acts_app, acts_calls, app_nil_r. reflexivity.
Qed.

(** ** Progress: enough turns complete a connection *)
Definition left_of (cs : conn_state) : nat :=
  if cs_done cs then O
  else (S (length stores) * (length (cs_pend cs) + length (fst (conn_exec (cs_in cs)))) - cs_at cs
        + length (concat (ci_chunks (cs_in cs))) + 1)%nat.

(** connection [i] has nothing more to do *)
Definition rests (i : nat) (g : global) : Prop :=
  match nth_error (g_conns g) i with
  | None => True
  | Some cs => cs_done cs = true \/ (cs_pend cs = [] /\ conn_step (cs_in cs) = SBlockedRead)
  end.
Definition budget (i : nat) (g : global) : nat :=
  match nth_error (g_conns g) i with Some cs => left_of cs | None => O end.
Definition cs_ok (cs : conn_state) : Prop :=
  in_ok (cs_in cs) /\
  match cs_pend cs with ASave _ :: _ => (cs_at cs <= length stores)%nat | _ => cs_at cs = 0%nat end.
Definition conns_ok (g : global) : Prop :=
  forall i cs, nth_error (g_conns g) i = Some cs -> cs_ok cs.
Lemma cs_ok0 c pend d : in_ok c -> cs_ok (mkCs c pend 0 d).
Proof. intros H. split; [exact H|]. cbn [cs_pend cs_at]. destruct pend as [|[|]]; lia. Qed.

Lemma crashed_step i g : g_crashed g = true -> gstep stores i g = g.
Proof. intros H. unfold gstep. rewrite H. reflexivity. Qed.
Lemma crashed_run sched g : g_crashed g = true -> grun stores sched g = g.
Proof. induction sched as [|i sched IH]; intros H; [reflexivity|]. cbn [grun fold_left]. rewrite crashed_step by exact H. apply IH, H. Qed.

Lemma upd_conns_ok g i cs cs0 : conns_ok g -> nth_error (g_conns g) i = Some cs0 -> cs_ok cs ->
  forall j c, nth_error (upd i cs (g_conns g)) j = Some c -> cs_ok c.
Proof.
  intros Hg Hi Hc j c H. destruct (Nat.eq_dec i j) as [<-|Hn].
  - rewrite (upd_same i cs cs0 _ Hi) in H. injection H as <-. exact Hc.
  - rewrite upd_other in H by exact Hn. eapply Hg, H.
Qed.

Lemma gstep_conns_ok i g : conns_ok g -> conns_ok (gstep stores i g).
Proof.
  intros Hg. unfold gstep. destruct (g_crashed g); [exact Hg|].
  destruct (nth_error (g_conns g) i) as [cs|] eqn:Hi; [|exact Hg].
  destruct (cs_done cs); [exact Hg|]. pose proof (Hg i cs Hi) as [Hb Ha].
  destruct (cs_pend cs) as [|[b|n] pend] eqn:Hp.
  - destruct (conn_step (cs_in cs)) as [acts rest| | | |] eqn:Hs; try exact Hg.
    + unfold conns_ok. cbn [g_conns]. intros j c. apply (upd_conns_ok g i _ cs Hg Hi). apply cs_ok0.
      pose proof (conn_step_packet _ _ _ Hs) as (n & Hn & Hr). unfold in_ok. cbn [ci_chunks]. rewrite Hr. apply bytes_ok_skipn, Hb.
    + unfold conns_ok. cbn [g_conns]. intros j c. apply (upd_conns_ok g i _ cs Hg Hi). apply cs_ok0, Hb.
  - unfold conns_ok. cbn [g_conns]. intros j c. apply (upd_conns_ok g i _ cs Hg Hi). apply cs_ok0, Hb.
  - destruct (nth_error stores (cs_at cs)) as [s|] eqn:Hst; [destruct (s _)|]; try exact Hg;
      unfold conns_ok; cbn [g_conns]; intros j c; apply (upd_conns_ok g i _ cs Hg Hi); try (apply cs_ok0; exact Hb).
    split; [exact Hb|]. cbn [cs_pend cs_at]. assert ((cs_at cs < length stores)%nat) by (apply nth_error_Some; congruence). lia.
Qed.

Lemma gstep_other_conn i j g : i <> j -> nth_error (g_conns (gstep stores i g)) j = nth_error (g_conns g) j.
Proof.
  intros Hn. unfold gstep. destruct (g_crashed g); [reflexivity|].
  destruct (nth_error (g_conns g) i) as [cs|] eqn:Hi; [|reflexivity].
  destruct (cs_done cs); [reflexivity|].
  destruct (cs_pend cs) as [|[b|n] pend].
  - destruct (conn_step (cs_in cs)); cbn [g_conns]; try reflexivity; apply upd_other, Hn.
  - cbn [g_conns]. apply upd_other, Hn.
  - destruct (nth_error stores (cs_at cs)) as [s|]; [destruct (s _)|]; cbn [g_conns]; try reflexivity; apply upd_other, Hn.
Qed.

Lemma rests_step_other i j g : i <> j -> rests j g -> rests j (gstep stores i g).
Proof. intros Hn. unfold rests. rewrite gstep_other_conn by exact Hn. auto. Qed.

Lemma gstep_own i g : conns_ok g -> rests i (gstep stores i g) \/ g_crashed (gstep stores i g) = true
  \/ (budget i (gstep stores i g) < budget i g)%nat.
Proof.
  intros Hok. unfold gstep. destruct (g_crashed g) eqn:Hc; [auto|].
  destruct (nth_error (g_conns g) i) as [cs|] eqn:Hi; [|left; unfold rests; rewrite Hi; exact I].
  destruct (cs_done cs) eqn:Hd; [left; unfold rests; rewrite Hi; auto|].
  pose proof (Hok i cs Hi) as [Hb Ha].
  unfold budget. rewrite Hi. unfold left_of. rewrite Hd.
  destruct (cs_pend cs) as [|[b|n] pend] eqn:Hp.
  - destruct (conn_step (cs_in cs)) as [acts rest| | | |] eqn:Hs.
    + right. right. cbn [g_conns]. erewrite upd_same by exact Hi. cbn [cs_done cs_pend cs_in ci_chunks].
      rewrite (conn_exec_step (cs_in cs) Hb), Hs.
      pose proof (conn_step_packet _ _ _ Hs) as (n & Hn & Hr).
      destruct (conn_exec (mkIn rest (ci_end (cs_in cs)))) as [l f]. cbn [fst]. rewrite Hr, skipn_length, app_length. cbn [length]. lia.
    + left. unfold rests. cbn [g_conns]. erewrite upd_same by exact Hi. cbn. auto.
    + left. unfold rests. rewrite Hi. auto.
    + auto.
    + auto.
  - right. right. cbn [g_conns]. erewrite upd_same by exact Hi. cbn [cs_done cs_pend cs_in length]. lia.
  - destruct (nth_error stores (cs_at cs)) as [s|] eqn:Hst; [destruct (s _)|]; cbn [g_crashed]; auto; right; right;
      cbn [g_conns]; erewrite upd_same by exact Hi; cbn [cs_done cs_pend cs_in cs_at length].
    + assert ((cs_at cs < length stores)%nat) by (apply nth_error_Some; congruence). nia.
    + assert ((cs_at cs < length stores)%nat) by (apply nth_error_Some; congruence). nia.
    + nia.
Qed.

Lemma rests_step i j g : rests j g -> rests j (gstep stores i g).
Proof.
  intros Hr. destruct (Nat.eq_dec i j) as [<-|Hn]; [|apply rests_step_other; assumption].
  unfold gstep. destruct (g_crashed g); [exact Hr|].
  pose proof Hr as Hr'. unfold rests in Hr'.
  destruct (nth_error (g_conns g) i) as [cs|] eqn:Hi; [|exact Hr].
  destruct (cs_done cs) eqn:Hd; [exact Hr|].
  destruct Hr' as [H|[H1 H2]]; [discriminate|]. rewrite H1, H2. exact Hr.
Qed.
Lemma rests_run sched j : forall g, rests j g -> rests j (grun stores sched g).
Proof. induction sched as [|i sched IH]; intros g H; [exact H|]. cbn [grun fold_left]. apply IH, rests_step, H. Qed.

Lemma progress sched i : forall g, conns_ok g -> (budget i g <= turns i sched)%nat ->
  rests i (grun stores sched g) \/ g_crashed (grun stores sched g) = true.
Proof.
  induction sched as [|j sched IH]; intros g Hok Hb.
  - cbn in Hb. left. unfold rests. unfold budget, left_of in Hb. cbn [grun fold_left].
    destruct (nth_error (g_conns g) i) as [cs|]; [|exact I]. destruct (cs_done cs); [auto|lia].
  - cbn [grun fold_left]. fold (grun stores sched (gstep stores j g)).
    unfold turns in Hb. cbn [count_occ] in Hb. destruct (Nat.eq_dec j i) as [->|Hn].
    + destruct (gstep_own i g Hok) as [H|[H|H]].
      * left. apply rests_run, H.
      * right. rewrite crashed_run by exact H. exact H.
      * apply IH; [apply gstep_conns_ok, Hok|]. unfold turns. lia.
    + apply IH; [apply gstep_conns_ok, Hok|]. unfold budget. rewrite gstep_other_conn by exact Hn. exact Hb.
Qed.


Lemma completion_events conns sched i c0 : Forall in_ok conns -> nth_error conns i = Some c0 ->
  (turns_needed (length stores) c0 <= turns i sched)%nat ->
  g_crashed (grun stores sched (ginit conns)) = false ->
  performs (length stores) (fst (conn_exec c0)) (events_of i (g_trace (grun stores sched (ginit conns)))).
Proof.
  intros Hb Hi Ht Hc.
  assert (conns_ok (ginit conns)) as Hok.
  { intros j cs H. unfold ginit in H. cbn [g_conns] in H. rewrite nth_error_map in H.
    destruct (nth_error conns j) as [c|] eqn:Hj; [|discriminate]. injection H as <-. apply cs_ok0.
    rewrite Forall_forall in Hb. eapply Hb, nth_error_In, Hj. }
  destruct (progress sched i (ginit conns) Hok) as [H|H]; [| |congruence].
  - unfold budget, ginit. cbn [g_conns]. rewrite nth_error_map, Hi. cbn [option_map]. unfold left_of.
    cbn [cs_done cs_pend cs_in length]. unfold turns_needed in Ht. lia.
  - destruct (grun_inv conns sched _ (ginv_init conns Hb) i c0 Hi) as (cs & Hcs & Hbc & Ha & d & e0 & l & H1 & H2 & H3 & H4 & H5 & H6).
    rewrite (H4 Hc), app_nil_r in H2. unfold rests in H. rewrite Hcs in H.
    assert (fst (conn_exec c0) = d /\ partial cs = []) as [-> Hpart].
    { unfold partial. destruct (cs_done cs).
      - destruct H6 as (-> & -> & _). auto.
      - destruct H as [H|[Hp Hs]]; [discriminate|]. destruct H6 as [H6 _]. rewrite H6, Hp, (conn_exec_step _ Hbc), Hs.
        cbn. rewrite app_nil_r. auto. }
    rewrite H2, Hpart, app_nil_r. exact H1.
Qed.

Lemma completion conns sched i c0 : Forall in_ok conns -> nth_error conns i = Some c0 ->
  (turns_needed (length stores) c0 <= turns i sched)%nat ->
  g_crashed (grun stores sched (ginit conns)) = false ->
  actions_of i (g_trace (grun stores sched (ginit conns))) = fst (conn_exec c0).
Proof.
  intros H1 H2 H3 H4. rewrite actions_events. apply (acts_performs _ _ _ (completion_events _ _ _ _ H1 H2 H3 H4)).
Qed.

(** ** The process survives *)
Lemma no_crash conns sched : Forall in_ok conns ->
  (forall c, In c conns -> snd (conn_exec c) <> FinCrashed) ->
  (forall s h, In s stores -> s h <> SvPanic) ->
  g_crashed (grun stores sched (ginit conns)) = false.
Proof.
  intros Hb Hc Hs. revert Hb Hc.
  enough (forall g, ginv conns g -> length (g_conns g) = length conns ->
    (forall c, In c conns -> snd (conn_exec c) <> FinCrashed) -> g_crashed g = false ->
    g_crashed (grun stores sched g) = false) as H.
  { intros Hb Hc. apply H; [apply ginv_init, Hb|cbn; apply map_length|exact Hc|reflexivity]. }
  induction sched as [|i sched' IH]; intros g Hg Hl Hc Hn; [exact Hn|].
  cbn [grun fold_left]. apply IH; [apply gstep_inv, Hg| |exact Hc|].
  - rewrite <- Hl. clear. unfold gstep. destruct (g_crashed g); [reflexivity|].
    destruct (nth_error (g_conns g) i) as [cs|]; [|reflexivity]. destruct (cs_done cs); [reflexivity|].
    assert (forall {A} i (x : A) l, length (upd i x l) = length l) as Hu.
    { clear. intros A i; induction i as [|i IHi]; intros x [|y l]; cbn; auto. }
    destruct (cs_pend cs) as [|[b|n] pend]; [destruct (conn_step (cs_in cs))| |
      destruct (nth_error stores (cs_at cs)) as [s|]; [destruct (s _)|]]; cbn [g_conns]; rewrite ?Hu; reflexivity.
  - unfold gstep. rewrite Hn. destruct (nth_error (g_conns g) i) as [cs|] eqn:Hi; [|exact Hn].
    destruct (cs_done cs) eqn:Hd; [exact Hn|].
    destruct (cs_pend cs) as [|[b|n] pend] eqn:Hp; [|reflexivity|].
    + assert (exists c0, nth_error conns i = Some c0) as [c0 Hc0].
      { destruct (nth_error conns i) eqn:H; [eauto|]. apply nth_error_None in H.
        assert (i < length (g_conns g))%nat by (apply nth_error_Some; congruence). lia. }
      destruct (Hg i c0 Hc0) as (cs' & H1 & Hbc & _ & d & e0 & l & _ & _ & _ & _ & _ & H6).
      rewrite Hi in H1. injection H1 as <-. rewrite Hd in H6. destruct H6 as [_ H6].
      pose proof (conn_step_no_fuel _ Hbc) as Hf. specialize (Hc c0 (nth_error_In _ _ Hc0)).
      rewrite H6, (conn_exec_step _ Hbc) in Hc.
      destruct (conn_step (cs_in cs)); cbn in *; try reflexivity; try congruence.
    + destruct (nth_error stores (cs_at cs)) as [s|] eqn:Hst; [|reflexivity].
      pose proof (Hs s (history (cs_at cs) (g_trace g) ++ [n]) (nth_error_In _ _ Hst)).
      destruct (s _); cbn; congruence.
Qed.

(** ** Storage calls are faithful: each outcome is the storage's answer to
    everything handed to it so far *)
Definition faithful (tr : list (nat * event)) : Prop :=
  forall pre i k n o post, tr = pre ++ (i, ECall k n o) :: post ->
  exists s, nth_error stores k = Some s /\ o = s (history k pre ++ [n]).

Lemma faithful_nil : faithful [].
Proof. intros [|x pre] i k n o post H; discriminate. Qed.
Lemma faithful_snoc tr i e : faithful tr ->
  (forall k n o, e = ECall k n o -> exists s, nth_error stores k = Some s /\ o = s (history k tr ++ [n])) ->
  faithful (tr ++ [(i, e)]).
Proof.
  intros Ht He pre j k n o post H.
  destruct post as [|x post] using rev_ind.
  - apply app_inj_tail in H. destruct H as [<- H]. injection H as <- ->. apply He. reflexivity.
  - clear IHpost. rewrite app_comm_cons, app_assoc in H. apply app_inj_tail in H. destruct H as [-> _]. eapply Ht. reflexivity.
Qed.
Lemma gstep_faithful i g : faithful (g_trace g) -> faithful (g_trace (gstep stores i g)).
Proof.
  intros H. unfold gstep. destruct (g_crashed g); [exact H|].
  destruct (nth_error (g_conns g) i) as [cs|]; [|exact H]. destruct (cs_done cs); [exact H|].
  destruct (cs_pend cs) as [|[b|n] pend]; [destruct (conn_step (cs_in cs)); exact H| |].
  - cbn [g_trace]. apply faithful_snoc; [exact H|]. discriminate.
  - destruct (nth_error stores (cs_at cs)) as [s|] eqn:Hs.
    + destruct (s (history (cs_at cs) (g_trace g) ++ [n])) eqn:Ho; cbn [g_trace].
      * apply faithful_snoc; [exact H|]. intros k n' o He. injection He as <- <- <-. exists s. auto.
      * change [(i, ECall (cs_at cs) n SvErr); (i, ESaved n SvErr)] with ([(i, ECall (cs_at cs) n SvErr)] ++ [(i, ESaved n SvErr)]).
        rewrite app_assoc. apply faithful_snoc; [|discriminate]. apply faithful_snoc; [exact H|].
        intros k n' o He. injection He as <- <- <-. exists s. auto.
      * apply faithful_snoc; [exact H|]. intros k n' o He. injection He as <- <- <-. exists s. auto.
    + cbn [g_trace]. apply faithful_snoc; [exact H|]. discriminate.
Qed.
Lemma grun_faithful conns sched : faithful (g_trace (grun stores sched (ginit conns))).
Proof.
  enough (forall g, faithful (g_trace g) -> faithful (g_trace (grun stores sched g))) as H by (apply H, faithful_nil).
  induction sched as [|i sched' IH]; intros g H; [exact H|]. cbn [grun fold_left]. apply IH, gstep_faithful, H.
Qed.

(** an event of a connection is in the trace *)
Lemma events_in i e tr : In e (events_of i tr) -> In (i, e) tr.
Proof.
  unfold events_of. rewrite in_map_iff. intros ([j e'] & <- & H). apply filter_In in H. destruct H as [H1 H2].
  cbn in H2. apply Nat.eqb_eq in H2. subst. exact H1.
Qed.

(** ** What one storage is handed by one connection *)
Definition calls_ev (k : nat) (l : list event) : list nav_record :=
  flat_map (fun e => match e with ECall k' n _ => if Nat.eqb k k' then [n] else [] | _ => [] end) l.
Lemma calls_ev_app k a b : calls_ev k (a ++ b) = calls_ev k a ++ calls_ev k b.
Proof. apply flat_map_app. Qed.
Lemma calls_ev_seq k n a m : calls_ev k (map (fun j => ECall j n SvOk) (seq a m)) =
  if ((a <=? k) && (k <? a + m))%nat then [n] else [].
Proof.
  revert a. induction m as [|m IH]; intros a; cbn [seq map calls_ev flat_map].
  - assert (((a <=? k) && (k <? a + 0))%nat = false) as -> by lia. reflexivity.
  - fold (calls_ev k (map (fun j => ECall j n SvOk) (seq (S a) m))). rewrite IH.
    destruct (k =? a)%nat eqn:H1.
    + assert (((S a <=? k) && (k <? S a + m))%nat = false) as -> by lia.
      assert (((a <=? k) && (k <? a + S m))%nat = true) as -> by lia. reflexivity.
    + cbn [app]. replace ((a <=? k) && (k <? a + S m))%nat with ((S a <=? k) && (k <? S a + m))%nat by lia. reflexivity.
Qed.
Lemma calls_one_save m n s o k : one_save m n s o -> (k < m)%nat ->
  calls_ev k s = [n] \/ (o = SvErr /\ calls_ev k s = [] /\ exists j, (j < k)%nat /\ In (ECall j n SvErr) s).
Proof.
  intros H Hk. destruct H as [|j Hj]; rewrite calls_ev_app, calls_ev_seq.
  - left. assert (((0 <=? k) && (k <? 0 + m))%nat = true) as -> by lia. reflexivity.
  - cbn [calls_ev flat_map app]. destruct (Nat.lt_trichotomy k j) as [H|[->|H]].
    + left. assert (((0 <=? k) && (k <? 0 + j))%nat = true) as -> by lia.
      assert ((k =? j)%nat = false) as -> by lia. reflexivity.
    + left. assert (((0 <=? j) && (j <? 0 + j))%nat = false) as -> by lia. rewrite Nat.eqb_refl. reflexivity.
    + right. split; [reflexivity|]. assert (((0 <=? k) && (k <? 0 + j))%nat = false) as -> by lia.
      assert ((k =? j)%nat = false) as -> by lia. split; [reflexivity|]. exists j. split; [exact H|].
      apply in_or_app. right. left. reflexivity.
Qed.
Lemma saves_snoc acts a : saves (acts ++ [a]) = saves acts ++ match a with ASave n => [n] | AWrite _ => [] end.
Proof. unfold saves. rewrite flat_map_app. cbn. rewrite app_nil_r. reflexivity. Qed.
Lemma calls_performs m acts evs k : performs m acts evs -> (k < m)%nat ->
  (forall j n, (j < k)%nat -> ~ In (ECall j n SvErr) evs) -> calls_ev k evs = saves acts.
Proof.
  intros H Hk. induction H as [|acts evs b H IH|acts evs n s o H IH Hs]; intros He; [reflexivity| |].
  - rewrite calls_ev_app, saves_snoc, IH; [reflexivity|]. intros j n Hj Hin. apply (He j n Hj), in_or_app. left. exact Hin.
  - rewrite calls_ev_app, saves_snoc, IH.
    + f_equal. destruct (calls_one_save _ _ _ _ k Hs Hk) as [E1|(_ & _ & j & Hj & Hin)]; [exact E1|].
      exfalso. apply (He j n Hj), in_or_app. right. exact Hin.
    + intros j n' Hj Hin. apply (He j n' Hj), in_or_app. left. exact Hin.
Qed.

(** Storage [k], if no storage before it ever fails: it is handed the records of
    each connection once each, in order. *)
Lemma storage_order conns sched i c0 k : Forall in_ok conns -> nth_error conns i = Some c0 ->
  (k < length stores)%nat ->
  (forall j s h, (j < k)%nat -> nth_error stores j = Some s -> s h = SvOk) ->
  exists later, saves (fst (conn_exec c0)) = calls_of i k (g_trace (grun stores sched (ginit conns))) ++ later.
Proof.
  intros Hb Hi Hk Hok.
  destruct (conn_events conns sched i c0 Hb Hi) as (d & later & e0 & cur & H1 & H2 & H3 & H4).
  change (calls_of i k ?t) with (calls_ev k (events_of i t)).
  assert (forall j n o, (j < k)%nat -> In (ECall j n o) (events_of i (g_trace (grun stores sched (ginit conns)))) -> o = SvOk) as Hf.
  { intros j n o Hj Hin. apply events_in, in_split in Hin. destruct Hin as (pre & post & Ht).
    destruct (grun_faithful conns sched _ _ _ _ _ _ Ht) as (s & Hs & ->). apply (Hok j s _ Hj Hs). }
  rewrite H3 in Hf |- *. rewrite calls_ev_app, (calls_performs _ _ _ k H2 Hk).
  2:{ intros j n Hj Hin. specialize (Hf j n SvErr Hj (in_or_app _ _ _ (or_introl Hin))). discriminate. }
  rewrite H1. unfold saves. rewrite flat_map_app. fold (saves d). fold (saves later).
  destruct H4 as [->|(n & l' & -> & k' & Hk' & [->|(Hlt & _ & ->)])].
  - exists (saves later). rewrite <- ?app_assoc; reflexivity.
  - rewrite calls_ev_seq. destruct ((0 <=? k) && (k <? 0 + k'))%nat.
    + exists (saves l'). rewrite <- ?app_assoc; reflexivity.
    + exists (saves (ASave n :: l')). rewrite <- ?app_assoc; reflexivity.
  - rewrite calls_ev_app, calls_ev_seq. cbn [calls_ev flat_map]. rewrite !app_nil_r.
    destruct (k =? k')%nat eqn:Hkk.
    + assert (((0 <=? k) && (k <? 0 + k'))%nat = false) as -> by lia. exists (saves l'). rewrite <- ?app_assoc; reflexivity.
    + rewrite app_nil_r. destruct ((0 <=? k) && (k <? 0 + k'))%nat; [exists (saves l')|exists (saves (ASave n :: l'))]; rewrite <- ?app_assoc; reflexivity.
Qed.
Lemma storage_complete conns sched i c0 k : Forall in_ok conns -> nth_error conns i = Some c0 ->
  (k < length stores)%nat ->
  (forall j s h, (j < k)%nat -> nth_error stores j = Some s -> s h = SvOk) ->
  (turns_needed (length stores) c0 <= turns i sched)%nat ->
  g_crashed (grun stores sched (ginit conns)) = false ->
  calls_of i k (g_trace (grun stores sched (ginit conns))) = saves (fst (conn_exec c0)).
Proof.
  intros Hb Hi Hk Hok Ht Hc. change (calls_of i k ?t) with (calls_ev k (events_of i t)).
  apply (calls_performs (length stores)); [apply completion_events; assumption|exact Hk|].
  intros j n Hj Hin. apply events_in, in_split in Hin. destruct Hin as (pre & post & Htr).
  destruct (grun_faithful conns sched _ _ _ _ _ _ Htr) as (s & Hs & Ho). rewrite (Hok j s _ Hj Hs) in Ho. discriminate.
Qed.

End ServerFacts4.
