(** * Prop_Session: C146, C147 — what a login does for the rest of a connection. *)
From Coq Require Import String List Lia ZifyBool ZifyN ZifyNat.
From Verif Require Import GoBase Crc Float64 SubRecords Records Package Storage Server
  Spec_Bits Spec_Wf Spec_Rec Spec_Pkg Spec_Server Spec_Storage Spec_Policy Spec_Log
  BaseFacts PkgFacts PkgFacts3 ServerFacts ServerFacts2 GlueServer GlueServer2 WitnessServer PolicyFacts Vectors Prop_PkgJson Prop_Policy Prop_Server Prop_Log.
Import ListNotations.
Local Open Scope N_scope.
Local Open Scope list_scope.

Section Session.
Context {E : go_env}.
Lemma alike_essence s s' : alike_sdr s s' -> record_essence s = record_essence s'.
Proof.
  intros (H1 & H2 & H3 & H4). unfold record_essence. rewrite H1, H2, H3. f_equal.
  induction H4 as [|rd rd' l l' H _ IH]; [reflexivity|]. cbn [flat_map]. rewrite IH. f_equal.
  unfold same_but_login in H. destruct (SRD rd) eqn:A; try (rewrite <- H; reflexivity).
  destruct (SRD rd') eqn:B; try discriminate H; reflexivity.
Qed.
Lemma alike_process b b' spare spare' : good b -> alike_packet b b' -> process (mkSlice b spare) = process (mkSlice b' spare').
Proof.
  intros Hg [->|(p & p' & l & l' & D & D' & Hi & Ht & Ht' & F & F' & Hal)].
  - rewrite (process_spare b spare Hg), (process_spare b spare' Hg). reflexivity.
  - apply (essence_process b b' p p' l l'); try assumption; [congruence|symmetry; exact Hi|].
    clear - Hal. induction Hal as [|x y xs ys H _ IH]; [reflexivity|]. cbn [map]. rewrite IH, (alike_essence x y H). reflexivity.
Qed.
Lemma processes_unique pkts : forall a1 a2,
  Forall2 (fun b acts => forall spare, process (mkSlice b spare) = PActs acts) pkts a1 ->
  Forall2 (fun b acts => forall spare, process (mkSlice b spare) = PActs acts) pkts a2 -> a1 = a2.
Proof.
  induction pkts as [|b pkts IH]; intros a1 a2 H1 H2; inversion H1 as [|? x ? xs P1 Q1]; inversion H2 as [|? y ? ys P2 Q2]; subst; [reflexivity|].
  rewrite (IH _ _ Q1 Q2). specialize (P1 []). rewrite (P2 []) in P1. apply acts_inj in P1. rewrite P1. reflexivity.
Qed.
Lemma login_nothing logins : Forall good logins -> exists A, forall pkts s c c',
  carries c (logins ++ pkts) s -> carries c' pkts s -> fst (conn_exec c) = A ++ fst (conn_exec c').
Proof.
  intros Hl. assert (Hc0 : carries (mkIn [concat logins] CEof) logins []).
  { split; [cbn [ci_chunks concat]; rewrite !app_nil_r; reflexivity|]. split; [exact Hl|]. left. split; [reflexivity|]. left. cbn. lia. }
  destruct (carries_process _ _ _ Hc0) as (a0 & H0 & _). exists (concat a0). intros pkts s c c' Hc Hc'.
  destruct (carries_process _ _ _ Hc) as (a1 & H1 & ->). destruct (carries_process _ _ _ Hc') as (a2 & H2 & ->).
  rewrite <- concat_app. f_equal. apply (processes_unique (logins ++ pkts)); [exact H1|]. apply Forall2_app; assumption.
Qed.
Lemma logins_unchecked pkts pkts' s s' c c' : carries c pkts s -> carries c' pkts' s' -> Forall2 alike_packet pkts pkts' ->
  fst (conn_exec c) = fst (conn_exec c').
Proof.
  intros Hc Hc' Hal. destruct (carries_process _ _ _ Hc) as (a1 & H1 & ->). destruct (carries_process _ _ _ Hc') as (a2 & H2 & ->).
  f_equal. assert (Hg : Forall good pkts) by apply Hc. clear - H1 H2 Hal Hg. revert a1 a2 H1 H2.
  induction Hal as [|b b' l l' H _ IH]; intros a1 a2 H1 H2; inversion H1 as [|? x ? xs P1 Q1]; inversion H2 as [|? y ? ys P2 Q2]; subst; [reflexivity|].
  inversion Hg as [|? ? G1 G2]; subst. rewrite (IH G2 _ _ Q1 Q2). specialize (P1 []). rewrite (alike_process b b' [] [] G1 H), (P2 []) in P1.
  apply acts_inj in P1. rewrite P1. reflexivity.
Qed.
Lemma saves_concat l : saves (concat l) = concat (map saves l).
Proof. induction l as [|a l IH]; [reflexivity|]. cbn [concat map]. unfold saves in *. rewrite flat_map_app, IH. reflexivity. Qed.
Lemma identity_exact c pkts s : carries c pkts s -> exists rss, saves (fst (conn_exec c)) = concat rss /\
  Forall2 (fun b rs => forall p l, decodes_to b p -> pSFRD p = Some (FSds l) -> Forall (fun r => nrIMEI r = last (imeis l) []) rs) pkts rss.
Proof.
  intros Hc. destruct (carries_process _ _ _ Hc) as (a & H & ->). exists (map saves a). split; [apply saves_concat|].
  assert (Hg : Forall good pkts) by apply Hc. clear - H Hg. induction H as [|b acts pkts a P _ IH]; cbn [map]; constructor.
  - intros p l Hd Hl. inversion Hg as [|? ? G _]; subst. destruct (process_spec b [] (proj1 G) (proj2 G)) as (acts' & Hp & Ha).
    rewrite (P []) in Hp. apply acts_inj in Hp. subst acts'.
    destruct (accepted_actions b acts p _ G Ha (Hd []) Hl) as (_ & _ & Happ). unfold app_actions in Happ.
    destruct (confirms l); [rewrite Happ; constructor|].
    destruct Happ as (rec & ack & -> & _ & _ & _ & _ & _ & _ & Hi & _).
    destruct (positions l), (credentials l); cbn [saves flat_map app]; repeat constructor; exact Hi.
  - apply IH. inversion Hg; assumption.
Qed.
End Session.

(** ** C146: the receiver serves only terminals that have logged in with
    credentials it knows.  Refuted: a connection that never logs in has every
    position stored and acknowledged. *)
Theorem C146_login_required_refuted : forall E : go_env, exists rec ack,
  is_ack ack 5 0 2 [1] /\ nrLocs rec <> [] /\
  (exists p l, decodes_to north p /\ pSFRD p = Some (FSds l) /\ credentials l = false /\ positions l <> []) /\
  forall n c s, carries c (repeat north n) s -> fst (conn_exec c) = concat (repeat [ASave rec; AWrite ack] n).
Proof.
  intros E. destruct (north_decodes E) as (p & l & e & Hd & Hl & Hpos & Hcf & Hcr & Hrn & (s0 & l0 & Hl0 & Hs0) & Hpid).
  destruct (process_spec north [] (proj1 north_good) (proj2 north_good)) as (acts & Hp & Ha).
  destruct (accepted_actions north acts p l north_good Ha (Hd []) Hl) as (_ & _ & Happ). unfold app_actions in Happ.
  rewrite Hcf, Hcr, Hpos, Hrn, Hpid in Happ. destruct Happ as (rec & ack & -> & Hloc & _ & _ & _ & _ & _ & _ & _ & _ & svc & Hack & Hsvc).
  rewrite (Hsvc s0 l0 Hl0), Hs0 in Hack. cbn [app] in Hp. exists rec, ack. split; [exact Hack|].
  split; [intros H0; rewrite H0 in Hloc; inversion Hloc|].
  split; [exists p, l; split; [exact Hd|]; split; [exact Hl|]; split; [exact Hcr|rewrite Hpos; discriminate]|].
  intros n c s Hc. exact (replay c north n s [ASave rec; AWrite ack] Hc Hp).
Qed.
(** A login changes nothing for the packets after it: they cause the records and
    replies they cause on a connection without it. *)
Theorem C146_login_changes_nothing : forall (E : go_env) logins, Forall good logins -> exists A, forall pkts s c c',
  carries c (logins ++ pkts) s -> carries c' pkts s -> fst (conn_exec c) = A ++ fst (conn_exec c').
Proof. exact @login_nothing. Qed.
(** and user name and password are never compared with anything: streams that
    differ only in them cause the same records and replies. *)
Theorem C146_credentials_unchecked : forall (E : go_env) pkts pkts' s s' c c',
  carries c pkts s -> carries c' pkts' s' -> Forall2 alike_packet pkts pkts' -> fst (conn_exec c) = fst (conn_exec c').
Proof. exact @logins_unchecked. Qed.

(** ** C147: the identity given at login is stored with the connection's
    positions.  Refuted; exactly: a record has the IMEI of its own packet, the
    last one if several, or none. *)
Definition ident : bytes := [1; 0; 0; 11; 0; 34; 0; 8; 0; 1; 24; 23; 0; 1; 0; 1; 7; 0; 0; 0; 1; 1; 1; 20; 0; 7; 0; 0; 0; 2; 56; 54; 48; 49; 50; 51; 52; 53; 54; 55; 56; 57; 48; 49; 50; 225; 178].
Lemma ident_good {E : go_env} : good ident.
Proof. good_packet. Qed.
Theorem C147_identity_stored_refuted : forall (E : go_env) c s, carries c [ident; north] s ->
  (exists p l, decodes_to ident p /\ pSFRD p = Some (FSds l) /\ imeis l = [text "860123456789012"]) /\
  exists rec, saves (fst (conn_exec c)) = [rec] /\ nrIMEI rec = [].
Proof.
  intros E c s Hc.
  assert (Hi : exists p l, decodes_to ident p /\ pSFRD p = Some (FSds l) /\ imeis l = [text "860123456789012"] /\ positions l = [] /\ confirms l = false).
  { do 2 eexists. split; [apply decodes_to_nil; [exact ident_good|]; vm_compute; reflexivity|].
    split; [reflexivity|]. split; [vm_compute; reflexivity|]. split; reflexivity. }
  destruct Hi as (p1 & l1 & D1 & F1 & I1 & P1 & C1). split; [exists p1, l1; auto|].
  destruct (north_decodes E) as (p & l & e & Hd & Hl & Hpos & Hcf & _).
  destruct (carries_process _ _ _ Hc) as (a & H & ->). inversion H as [|? x1 ? xs Q1 H']; subst. inversion H' as [|? x2 ? xs' Q2 H'']; subst.
  inversion H''; subst. clear H H' H''.
  destruct (C41_positions_saved_once E ident [] p1 l1 ident_good D1 F1 C1) as (y1 & Y1 & S1 & _).
  rewrite (Q1 []) in Y1. apply acts_inj in Y1. subst y1.
  destruct (C41_positions_saved_once E north [] p l north_good Hd Hl Hcf) as (y2 & Y2 & _ & S2).
  rewrite (Q2 []) in Y2. apply acts_inj in Y2. subst y2.
  destruct S2 as (rec & Hrec & _ & _ & _ & Him); [rewrite Hpos; discriminate|].
  exists rec. rewrite saves_concat. cbn [map concat]. rewrite (S1 P1), Hrec. split; [reflexivity|]. rewrite Him.
  assert (imeis l = []) as ->; [|reflexivity].
  assert (X : forall p' l', decodes_to north p' -> pSFRD p' = Some (FSds l') -> l' = l) by (intros p' l' D' F'; specialize (D' []); rewrite (Hd []) in D'; congruence).
  assert (Hn : exists p' l', decodes_to north p' /\ pSFRD p' = Some (FSds l') /\ imeis l' = []).
  { do 2 eexists. split; [apply decodes_to_nil; [exact north_good|]; vm_compute; reflexivity|]. split; reflexivity. }
  destruct Hn as (p' & l' & D' & F' & Hn). rewrite <- (X p' l' D' F'). exact Hn.
Qed.
Theorem C147_identity_exactly : forall (E : go_env) c pkts s, carries c pkts s -> exists rss, saves (fst (conn_exec c)) = concat rss /\
  Forall2 (fun b rs => forall p l, decodes_to b p -> pSFRD p = Some (FSds l) -> Forall (fun r => nrIMEI r = last (imeis l) []) rs) pkts rss.
Proof. exact @identity_exact. Qed.

Example C146_example : forall E : go_env, carries (mkIn [ident ++ north] CEof) [ident; north] [] /\
  carries (mkIn [north] CEof) [north] [] /\ Forall good [ident] /\ Forall2 alike_packet [login1; north] [login2; north].
Proof.
  intros E. split; [split; [reflexivity|]; split; [constructor; [exact ident_good|constructor; [exact north_good|constructor]]|]; left; split; [reflexivity|left; cbn; lia]|].
  split; [split; [reflexivity|]; split; [constructor; [exact north_good|constructor]|]; left; split; [reflexivity|left; cbn; lia]|].
  split; [constructor; [exact ident_good|constructor]|]. constructor; [|constructor; [left; reflexivity|constructor]]. apply C136_example.
Qed.
Print Assumptions C146_login_required_refuted.
Print Assumptions C146_login_changes_nothing.
Print Assumptions C146_credentials_unchecked.
Print Assumptions C147_identity_stored_refuted.
Print Assumptions C147_identity_exactly.
