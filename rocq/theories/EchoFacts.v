(** * EchoFacts: what the receiver's replies do to a receiver. *)
From Coq Require Import Lia.
From Verif Require Import GoBase Crc Float64 SubRecords Records Package Storage Server
  Spec_Bits Spec_Wf Spec_Rec Spec_Crc Spec_Pkg Spec_Server Spec_Stream BaseFacts CrcFacts SubFacts RecFacts
  DecFacts PkgFacts PkgFacts2 ServerFacts ServerFacts2 ServerFacts3 ServerFacts4 StreamFacts GlueServer GlueServer2 WitnessServer DamageFacts.

Section Echo.
Context {E : go_env}.

Definition reply (b : bytes) : Prop :=
  (exists pid code svc nums, is_ack b pid code svc nums) \/ (exists pid, pid < 2 ^ 16 /\ b = result_packet pid).

Lemma word_bound b i : bytes_ok b = true -> word_at b i < 2 ^ 16.
Proof.
  intros Hb. unfold word_at. pose proof (bytes_ok_nth b i Hb). pose proof (bytes_ok_nth b (S i) Hb).
  change (2 ^ 16) with 65536. lia.
Qed.
Lemma handled_replies u acts b : bytes_ok u = true -> handled u acts -> In (AWrite b) acts -> reply b.
Proof.
  intros Hb (p & code & err & _ & Hpid & He & Hok) Hin. destruct err.
  - destruct (He eq_refl) as (_ & ack & -> & Ha). destruct Hin as [Hin|[]]. injection Hin as <-. left. eauto.
  - destruct (Hok eq_refl) as (_ & [(_ & -> & _)|(_ & l & _ & Ha)]); [contradiction|].
    unfold app_actions in Ha. destruct (confirms l); [subst; contradiction|].
    destruct Ha as (rec & ack & -> & _ & _ & _ & _ & _ & _ & _ & _ & _ & svc & Hack & _).
    apply in_app_or in Hin. destruct Hin as [Hin|Hin].
    + destruct (positions l); [contradiction|]. destruct Hin as [Hin|[]]. discriminate.
    + destruct Hin as [Hin|Hin]; [injection Hin as <-; left; eauto|].
      destruct (credentials l); [|contradiction]. destruct Hin as [Hin|[]]. right. exists (pPID p).
      split; [rewrite Hpid; apply word_bound, Hb|]. injection Hin as <-. reflexivity.
Qed.
Lemma received_replies s e acts f : received s e acts f -> forall b, In (AWrite b) acts -> reply b.
Proof.
  induction 1 as [| | | |u s e acts acts' f Hu Hd Hh _ IH]; intros b Hin; try contradiction.
  apply in_app_or in Hin. destruct Hin as [Hin|Hin]; [|apply IH, Hin]. exact (handled_replies u acts b (proj1 Hu) Hh Hin).
Qed.
Lemma ack_good b pid code svc nums : is_ack b pid code svc nums -> good b.
Proof.
  intros (Hf & _ & p & r & Hd & _). split; [exact Hf|]. intros spare. rewrite Hd. discriminate.
Qed.
Lemma result_good pid : pid < 2 ^ 16 -> good (result_packet pid).
Proof. intros H. apply good_std; [apply result_body, H|reflexivity]. Qed.
Lemma reply_good b : reply b -> good b.
Proof. intros [(pid & code & svc & nums & H)|(pid & H & ->)]; [exact (ack_good _ _ _ _ _ H)|apply result_good, H]. Qed.

(** A positive or negative acknowledgement is not answered; a result packet,
    being sent under the wrong packet type, is answered by one negative
    acknowledgement. *)
Definition mild (acts : list action) : Prop :=
  acts = [] \/ exists nack pid code, acts = [AWrite nack] /\ code <> 0 /\ is_ack nack pid code 0 [].
Lemma ack_silent b spare pid code svc nums : is_ack b pid code svc nums -> process (mkSlice b spare) = PActs [].
Proof.
  intros Ha. pose proof (ack_good _ _ _ _ _ Ha) as Hg. destruct Ha as (_ & _ & p & r & Hd & Hpt & _).
  exact (confirm_silent b spare p Hg Hd (or_introl Hpt)).
Qed.
Lemma result_nacked pid spare : pid < 2 ^ 16 -> exists nack code, code <> 0 /\
  is_ack nack ((pid + 1) mod 2 ^ 16) code 0 [] /\ process (mkSlice (result_packet pid) spare) = PActs [AWrite nack].
Proof.
  intros Hp. pose proof (result_good pid Hp) as Hg. destruct (result_body pid Hp) as (Hf & _ & _ & _ & H7).
  assert (Hb : bytes_ok (result_packet pid) = true) by apply Hf.
  destruct (process_unit (result_packet pid) spare Hb) as (acts & Hpr & p & code & err & Hd & Hpid & He & Hok).
  { exact (proj1 (proj2 (framed_unit _ Hf))). }
  { apply (proj2 Hg). }
  destruct err.
  - destruct (He eq_refl) as (Hc & ack & -> & Ha). exists ack, code. split; [exact Hc|]. rewrite <- H7, <- Hpid. split; [exact Ha|exact Hpr].
  - exfalso. destruct (Hok eq_refl) as (-> & _). apply accept_iff in Hd; [|exact Hb]. destruct Hd as (_ & f & Hacc & _).
    unfold accepted in Hacc. cbv zeta in Hacc. destruct Hacc as (_ & _ & _ & _ & Hfr & _). vm_compute in Hfr. discriminate.
Qed.
Lemma reply_mild b spare : reply b -> exists acts, process (mkSlice b spare) = PActs acts /\ mild acts.
Proof.
  intros [(pid & code & svc & nums & H)|(pid & H & ->)].
  - exists []. split; [exact (ack_silent b spare pid code svc nums H)|left; reflexivity].
  - destruct (result_nacked pid spare H) as (nack & code & H1 & H2 & H3). exists [AWrite nack]. split; [exact H3|]. right. exists nack, ((pid + 1) mod 2 ^ 16), code. auto.
Qed.
Lemma replies_bytes ws : Forall reply ws -> bytes_ok (concat ws) = true.
Proof.
  induction 1 as [|b ws Hb _ IH]; [reflexivity|]. cbn [concat]. rewrite bytes_ok_app, IH.
  rewrite (proj1 (proj1 (reply_good b Hb))). reflexivity.
Qed.
Lemma exec_empty e : conn_exec (mkIn [[]] e) = ([], starved e).
Proof. apply exec_no_header; [reflexivity|cbn; lia]. Qed.
Lemma echo_exec ws e : Forall reply ws -> exists nacks,
  conn_exec (mkIn [concat ws] e) = (map AWrite nacks, starved e) /\ (length nacks <= length ws)%nat /\
  Forall (fun b => exists pid code, code <> 0 /\ is_ack b pid code 0 []) nacks.
Proof.
  induction 1 as [|b ws Hb Hws (nacks & IH & Hl & Hn)]; [exists []; split; [apply exec_empty|]; split; [apply le_n|constructor]|].
  cbn [concat]. destruct (reply_mild b (room b) Hb) as (acts & Hp & Hm).
  pose proof (exec_unit b acts (framed_unit b (proj1 (reply_good b Hb))) Hp e (concat ws) (replies_bytes ws Hws)) as Hx.
  pose proof (eq_trans Hx (f_equal (fun r => (acts ++ fst r, snd r)) IH)) as Hx'. cbn [fst snd] in Hx'. clear Hx. rename Hx' into Hx. destruct Hm as [->|(nack & pid & code & -> & Hc & Ha)].
  - exists nacks. split; [exact Hx|]. split; [cbn [length]; lia|exact Hn].
  - exists (nack :: nacks). split; [exact Hx|]. split; [cbn [length]; lia|]. constructor; eauto.
Qed.
Lemma nacks_exec ws e : Forall (fun b => exists pid code, code <> 0 /\ is_ack b pid code 0 []) ws ->
  conn_exec (mkIn [concat ws] e) = ([], starved e).
Proof.
  induction 1 as [|b ws (pid & code & Hc & Ha) Hws IH]; [apply exec_empty|]. cbn [concat].
  assert (Hr : Forall reply ws). { eapply Forall_impl; [|exact Hws]. intros b' (pid' & code' & _ & Ha'). left. eauto. }
  pose proof (exec_unit b [] (framed_unit b (proj1 (ack_good _ _ _ _ _ Ha))) (ack_silent _ _ _ _ _ _ Ha) e (concat ws) (replies_bytes ws Hr)) as Hx.
  exact (eq_trans Hx (f_equal (fun r => ([] ++ fst r, snd r)) IH)).
Qed.
Lemma trace_replies stores conns sched i c : Forall in_ok conns -> nth_error conns i = Some c ->
  Forall reply (writes (actions_of i (g_trace (grun stores sched (ginit conns))))).
Proof.
  intros Hok Hi.
  destruct (isolation stores conns sched i c Hok Hi) as (later & Heq). apply Forall_forall. intros b Hin.
  unfold writes in Hin. apply in_flat_map in Hin. destruct Hin as (a & Ha & Hb). destruct a as [w|n]; [|contradiction]. destruct Hb as [->|[]].
  assert (in_ok c) as Hc by (rewrite Forall_forall in Hok; exact (Hok c (nth_error_In _ _ Hi))).
  apply (received_replies _ _ _ _ (exec_received _ c (le_n _) Hc)). rewrite Heq. apply in_or_app. left. exact Ha.
Qed.
End Echo.
