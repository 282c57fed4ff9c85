(** * SavedFacts: whatever holds of the records built from any received bytes
    holds of every record handed to a storage, in every execution. *)
From Verif Require Import GoBase Crc Float64 SubRecords Records Package Storage Server
  Spec_Bits Spec_Wf Spec_Rec Spec_Pkg Spec_Server BaseFacts DecFacts DecWf DecWf2
  PkgFacts PkgFacts2 PkgFacts3 ServerFacts ServerFacts2 ServerFacts3 ServerFacts4.
From Coq Require Import Lia.

Section SavedFacts.
Context {E : go_env}.

(** the record built for the decoded records [l] *)
Definition built_from (l : list sdr) (rec : nav_record) : Prop :=
  positions l <> [] /\
  Forall2 loc_stored (positions l) (nrLocs rec) /\
  nrCount rec = N.of_nat (length (positions l)) /\
  map (fun s => (anNumber s, anValue s)) (nrAn rec) = flat_map analogue (subrecords l) /\
  Forall2 liquid_stored (liquids l) (nrLiq rec) /\
  nrClientID rec = last (map OID l) 0 /\ nrIMEI rec = last (imeis l) [] /\
  nrServerID rec = [69;71;84;83;95;71;65;84;69;48] /\
  nrNavTs rec = last (map (fun e => unix_of (NavigationTime e)) (positions l)) 0%Z.

Lemma process_saved data spare acts rec : bytes_ok data = true ->
  process (mkSlice data spare) = PActs acts -> In rec (saves acts) ->
  exists l, Forall dec_sdr l /\ built_from l rec.
Proof.
  intros Hb Hp Hin. unfold process in Hp.
  destruct (pkg_decode pkg0 (mkSlice data spare)) as [p out] eqn:Hd.
  destruct out as [code err| |]; try discriminate. destruct err.
  { destruct (create_pt_response (pPID p) code 0 []); try discriminate; injection Hp as <-; cbn in Hin; contradiction. }
  assert (code = 0) as ->.
  { pose proof (outcome_code data spare code false) as Hc.
    assert (outcome data spare = DRet code false) as Ho.
    { rewrite <- (decode_out pkg0 data spare Hb). rewrite Hd. reflexivity. }
    specialize (Hc Ho). destruct Hc as [_ [_ Hc]]. destruct (N.eq_dec code 0) as [|Hne]; [assumption|]. specialize (Hc Hne). discriminate. }
  destruct (pPT p =? PtAppdataPacket); [|injection Hp as <-; contradiction].
  destruct (pSFRD p) as [[l|r]|] eqn:Hs; try discriminate.
  apply accept_iff in Hd; [|exact Hb]. destruct Hd as (_ & f & Ha & ->).
  destruct Ha as (_ & _ & _ & _ & Hf & _).
  assert (dec_frame f) as Hdf.
  { eapply frame_decode_wf; [|exact Hf]. unfold frame_of. apply bytes_ok_firstn, bytes_ok_skipn. exact Hb. }
  unfold final_of in Hs. cbn in Hs. injection Hs as ->. cbn [dec_frame] in Hdf.
  set (pid := pPID _) in *. clearbody pid.
  pose proof (recs_loop_spec pid l (app_init pid)) as H. destruct (confirms l).
  { rewrite H in Hp. injection Hp as <-. contradiction. }
  destruct H as (st & Hrl & A1 & A2 & A3 & A4 & A5 & A6 & A7 & A8 & A9 & A10).
  destruct (recs_loop_set _ _ _ _ Hrl) as (S1 & S2 & S3). rewrite Hrl in Hp. clear Hrl.
  cbn [app_init ap_exp ap_save ap_resps ap_service ap_rescode nrServerID nrIMEI nrClientID nrPacketID nrNavTs nrAn nrLiq nrLocs nrCount map app orb] in *.
  assert (rec = ap_exp st /\ positions l <> []) as [-> Hne].
  { unfold app_reply in Hp. rewrite A1 in Hp. destruct (create_pt_response _ _ _ _); try discriminate; injection Hp as <-;
      destruct (positions l) as [|e0 l0]; cbn [nonempty] in Hin.
    - exfalso. revert Hin. destruct (ap_rescode st); cbn; tauto.
    - split; [|discriminate]. cbn in Hin. destruct (ap_rescode st); cbn in Hin; destruct Hin as [Hin|[]]; congruence.
    - contradiction.
    - split; [|discriminate]. cbn in Hin. destruct Hin as [Hin|[]]; congruence. }
  exists l. split; [exact Hdf|]. split; [exact Hne|].
  split; [rewrite A5; apply Forall2_map_r, loc_of_stored|]. split; [rewrite A6; lia|].
  split; [exact A7|]. split; [rewrite A8; apply Forall2_map_r, liq_of_stored|].
  split; [exact A9|]. split; [exact S1|]. split; [exact A10|exact S2].
Qed.

Lemma step_saved c acts rest : in_ok c -> conn_step c = SPacket acts rest ->
  in_ok (mkIn rest (ci_end c)) /\ exists data spare, bytes_ok data = true /\ process (mkSlice data spare) = PActs acts.
Proof.
  intros Hb Hs. split.
  { destruct (conn_step_packet c acts rest Hs) as (n & _ & Hr). unfold in_ok. cbn [ci_chunks]. rewrite Hr. apply bytes_ok_skipn, Hb. }
  revert Hs. unfold in_ok in Hb. unfold conn_step. pose proof (read_full_spec header_len c) as H1.
  destruct (header_len <=? length (concat (ci_chunks c)))%nat eqn:Hh.
  2: { rewrite H1. unfold short_read. destruct (ci_end c); try discriminate. destruct (concat _); discriminate. }
  destruct H1 as (r1 & -> & R1). destruct (negb _); [discriminate|].
  set (hdr := firstn header_len (concat (ci_chunks c))) in *.
  pose proof (read_full_spec (N.to_nat (tail_len hdr)) (mkIn r1 (ci_end c))) as H2. cbn [ci_chunks ci_end] in H2.
  rewrite R1 in H2. destruct (N.to_nat (tail_len hdr) <=? _)%nat eqn:Ht.
  - destruct H2 as (q1 & -> & Q1). unfold recv_slice.
    match goal with |- context [process {| sl_data := ?d; sl_spare := ?s |}] => intros Hs; exists d, s end.
    split; [|destruct (process _); try discriminate; congruence].
    rewrite bytes_ok_app. apply andb_true_intro. split; [apply bytes_ok_firstn, Hb|apply bytes_ok_firstn, bytes_ok_skipn, Hb].
  - rewrite H2. unfold short_read. destruct (ci_end c); try discriminate. destruct (skipn _ _); discriminate.
Qed.

Section Inv.
Variable P : nav_record -> Prop.
Hypothesis HP : forall data spare acts rec, bytes_ok data = true ->
  process (mkSlice data spare) = PActs acts -> In rec (saves acts) -> P rec.
Definition act_P (a : action) : Prop := match a with ASave n => P n | AWrite _ => True end.
Definition ev_P (e : event) : Prop := match e with EWrite _ => True | ECall _ n _ => P n | ESaved n _ => P n end.
Definition st_P (cs : conn_state) : Prop := in_ok (cs_in cs) /\ Forall act_P (cs_pend cs).
Definition g_P (g : global) : Prop := Forall st_P (g_conns g) /\ Forall (fun x => ev_P (snd x)) (g_trace g).

Lemma upd_Forall {A} (Q : A -> Prop) i x l : Q x -> Forall Q l -> Forall Q (upd i x l).
Proof. intros Hx H. revert i. induction H; intros [|i]; constructor; auto. Qed.
Lemma saves_in acts : (forall n, In n (saves acts) -> P n) -> Forall act_P acts.
Proof.
  induction acts as [|a acts IH]; intros H; constructor.
  - destruct a as [w|n]; [exact I|]. apply H. cbn. left. reflexivity.
  - apply IH. intros n Hn. apply H. destruct a; cbn; auto.
Qed.
Lemma gstep_P stores i g : g_P g -> g_P (gstep stores i g).
Proof.
  intros [Hc Ht]. unfold gstep. destruct (g_crashed g); [split; assumption|].
  destruct (nth_error (g_conns g) i) as [cs|] eqn:Hi; [|split; assumption].
  assert (Hcs : st_P cs) by (rewrite Forall_forall in Hc; apply Hc; eapply nth_error_In; exact Hi).
  destruct Hcs as [Hin Hpend]. destruct (cs_done cs); [split; assumption|].
  destruct (cs_pend cs) as [|a pend] eqn:Hp.
  - destruct (conn_step (cs_in cs)) eqn:Hs; try (split; cbn [g_conns g_trace]; assumption).
    + destruct (step_saved _ _ _ Hin Hs) as (Hok & data & spare & Hb & Hpr). split; cbn [g_conns g_trace]; [|exact Ht].
      apply upd_Forall; [|exact Hc]. split; [exact Hok|]. cbn [cs_pend]. apply saves_in. intros n Hn. eapply HP; eassumption.
    + split; cbn [g_conns g_trace]; [|exact Ht]. apply upd_Forall; [|exact Hc]. split; [exact Hin|constructor].
  - inversion Hpend as [|? ? Ha Hrest]; subst. destruct a as [b|n].
    + split; cbn [g_conns g_trace]; [apply upd_Forall; [split; [exact Hin|exact Hrest]|exact Hc]|].
      apply Forall_app; split; [assumption|]. constructor; [exact I|constructor].
    + destruct (nth_error stores (cs_at cs)) as [s|].
      * destruct (s _); split; cbn [g_conns g_trace]; try assumption;
          try (apply upd_Forall; [split; [exact Hin|cbn [cs_pend]; assumption]|exact Hc]);
          apply Forall_app; split; try assumption; repeat constructor; exact Ha.
      * split; cbn [g_conns g_trace]; [apply upd_Forall; [split; [exact Hin|exact Hrest]|exact Hc]|].
        apply Forall_app; split; [assumption|]. constructor; [exact Ha|constructor].
Qed.
Lemma grun_P stores sched : forall g, g_P g -> g_P (grun stores sched g).
Proof. unfold grun. induction sched as [|i sched IH]; intros g H; [exact H|]. cbn [fold_left]. apply IH, gstep_P, H. Qed.
Lemma every_record stores conns sched : Forall in_ok conns ->
  forall i k n o, In (i, ECall k n o) (g_trace (grun stores sched (ginit conns))) -> P n.
Proof.
  intros Hok i k n o Hin.
  assert (Hg : g_P (grun stores sched (ginit conns))).
  { apply grun_P. split; [|constructor]. cbn [ginit g_conns]. apply Forall_map. eapply Forall_impl; [|exact Hok].
    intros c Hc. split; [exact Hc|constructor]. }
  destruct Hg as [_ Ht]. rewrite Forall_forall in Ht. exact (Ht _ Hin).
Qed.
End Inv.

(** every record any storage is ever handed was built from decoded records *)
Lemma every_call_built stores conns sched i k n o : Forall in_ok conns ->
  In (i, ECall k n o) (g_trace (grun stores sched (ginit conns))) ->
  exists l, Forall dec_sdr l /\ built_from l n.
Proof. intros Hok. apply (every_record (fun n => exists l, Forall dec_sdr l /\ built_from l n)); [|exact Hok]. intros data spare acts rec. apply process_saved. Qed.

Lemma decoded_position l e : Forall dec_sdr l -> In e (positions l) -> exists b, bytes_ok b = true /\ pos_decode b = Ok e.
Proof.
  intros H Hin. unfold positions, subrecords in Hin. apply in_flat_map in Hin. destruct Hin as (d & Hd & He).
  apply in_flat_map in Hd. destruct Hd as (s & Hs & Hd). apply in_map_iff in Hd. destruct Hd as (rd & <- & Hrd).
  rewrite Forall_forall in H. specialize (H s Hs). destruct H as (_ & _ & _ & _ & _ & _ & _ & _ & _ & _ & _ & H).
  rewrite Forall_forall in H. destruct (H rd Hrd) as [Hsr _].
  destruct (SRD rd); cbn in He; try contradiction. destruct He as [<-|[]]. exact Hsr.
Qed.
End SavedFacts.
