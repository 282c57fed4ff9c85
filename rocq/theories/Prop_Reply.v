(** * Prop_Reply: replies that do not reach the peer (C141, C142). *)
From Coq Require Import Lia ZifyBool ZifyN ZifyNat List.
From Verif Require Import GoBase Crc Float64 SubRecords Records Package Storage Server Reply
  Spec_Bits Spec_Wf Spec_Rec Spec_Pkg Spec_Server Spec_Reply ServerFacts2 GlueServer ReplyFacts WitnessServer.
Import ListNotations.
Local Open Scope N_scope.

Lemma same_length {A B} (R : A -> B -> Prop) l m : Forall2 R l m -> length l = length m.
Proof. induction 1; cbn [length]; lia. Qed.

(** ** C141: a reply that cannot be sent costs no data.  [wr] decides of every
    Write whether it is delivered or fails; whatever it decides, the records
    handed to storage and the way the connection ends are those of Server.v. *)
Theorem C141_nothing_lost : forall (E : go_env) wr c, (forall sent b, wr sent b <> WBlocked) ->
  saved_of (fst (replied wr c)) = saves (fst (conn_exec c)) /\
  snd (replied wr c) = Some (snd (conn_exec c)).
Proof. intros E wr c. apply replied_failures. Qed.
(** In particular the positions of every packet are stored, even when no reply
    at all gets through. *)
Theorem C141_positions_stored : forall (E : go_env) wr c pkts s b p l, (forall sent b, wr sent b <> WBlocked) ->
  carries c pkts s -> In b pkts -> decodes_to b p -> pSFRD p = Some (FSds l) -> confirms l = false -> positions l <> [] ->
  exists rec, In rec (saved_of (fst (replied wr c))) /\ Forall2 loc_stored (positions l) (nrLocs rec).
Proof.
  intros E wr c pkts s b p l Hw Hc Hb Hd Hl Hcf Hp. destruct (C141_nothing_lost E wr c Hw) as [-> _].
  destruct (carries_exec c pkts s Hc) as (actss & Ha & -> & _). destruct Hc as (_ & Hg & _).
  assert (H : exists acts, In acts actss /\ packet_actions b acts).
  { clear -Ha Hb. induction Ha as [|x acts bs actss H1 H2 IH]; [destruct Hb|]. destruct Hb as [->|Hb].
    - exists acts. split; [left; reflexivity|exact H1].
    - destruct (IH Hb) as (a & Hi & Hx). exists a. split; [right; exact Hi|exact Hx]. }
  destruct H as (acts & Hin & Hx). rewrite Forall_forall in Hg.
  destruct (accepted_actions b acts p l (Hg b Hb) Hx (Hd []) Hl) as (_ & _ & H). unfold app_actions in H. rewrite Hcf in H.
  destruct H as (rec & ack & Ea & Hs & _). exists rec. split; [|exact Hs].
  unfold saves. rewrite in_flat_map. exists (ASave rec). split; [|left; reflexivity].
  apply in_concat. exists acts. split; [exact Hin|]. rewrite Ea. destruct (positions l); [contradiction|left; reflexivity].
Qed.

(** ** C142: a peer that does not read its replies. *)

(** What each packet is answered with has a definite length. *)
Theorem C142_owed : forall (E : go_env) c pkts s, carries c pkts s -> exists ns, Forall2 owes pkts ns.
Proof. intros E c pkts s. apply owed. Qed.
(** Exactly: when the peer takes [room] bytes of replies, the packets are dealt
    with as long as the replies to those before went out; nothing is done about
    the later ones, and the goroutine stays, whatever conn_ttl is, unless all
    the replies fit. *)
Theorem C142_unread_exactly : forall (E : go_env) c pkts s room ns, carries c pkts s -> Forall2 owes pkts ns ->
  exists actss, Forall2 packet_actions pkts actss /\ fst (conn_exec c) = concat actss /\
  saved_of (fst (replied (reads_only room) c)) = concat (firstn (dealt_with room ns) (map saves actss)) /\
  snd (replied (reads_only room) c) = if total ns <=? room then Some (snd (conn_exec c)) else None.
Proof. intros E c pkts s room ns. apply unread. Qed.
(** Partial: all is stored when the replies fit. *)
Theorem C142_unread_partial : forall (E : go_env) c pkts s room ns, carries c pkts s -> Forall2 owes pkts ns ->
  total ns <= room ->
  saved_of (fst (replied (reads_only room) c)) = saves (fst (conn_exec c)) /\
  snd (replied (reads_only room) c) = Some (snd (conn_exec c)).
Proof.
  intros E c pkts s room ns Hc Ho Hr. destruct (unread c pkts s room ns Hc Ho) as (actss & Ha & He & Hs & Hf).
  rewrite Hs, Hf. replace (total ns <=? room) with true by lia. split; [|reflexivity]. rewrite He.
  assert (Hn : dealt_with room ns = length actss).
  { apply same_length in Ha, Ho. rewrite Ha in Ho. clear -Ho Hr. revert room actss Ho Hr.
    induction ns as [|n ns IH]; intros room actss Ho Hr; [destruct actss; [reflexivity|discriminate]|].
    destruct actss as [|a actss]; [discriminate|]. cbn [dealt_with length] in *. cbn [total fold_right] in Hr. fold (total ns) in Hr.
    replace (n <=? room) with true by lia. f_equal. apply IH; lia. }
  rewrite Hn, <- (map_length saves), firstn_all. clear. induction actss as [|a l IH]; [reflexivity|].
  cbn [map concat]. rewrite saves_app', IH. reflexivity.
Qed.

Lemma north_owes (E : go_env) : owes north 29 /\ forall acts, packet_actions north acts -> length (saves acts) = 1%nat.
Proof.
  assert (H : exists p l e r, decodes_to north p /\ pSFRD p = Some (FSds l) /\ l = [r] /\ positions l = [e] /\
    confirms l = false /\ credentials l = false).
  { do 4 eexists. split; [apply decodes_to_nil; [exact north_good|]; vm_compute; reflexivity|]. repeat split. }
  destruct H as (p & l & e & r & Hd & Hl & Er & He & Hc & Hcr). split.
  - exists p, 0, false. split; [exact Hd|]. rewrite Hl, Hc, Hcr, Er. reflexivity.
  - intros acts Ha. destruct (accepted_actions north acts p l north_good Ha (Hd []) Hl) as (_ & _ & H).
    unfold app_actions in H. rewrite Hc, He, Hcr in H. destruct H as (rec & ack & -> & _). reflexivity.
Qed.
Lemma carries_copies (E : go_env) n : carries (mkIn [concat (repeat north n)] COpen) (repeat north n) [].
Proof.
  split; [cbn [ci_chunks concat]; rewrite !app_nil_r; reflexivity|]. split.
  - apply Forall_forall. intros x Hx. apply repeat_spec in Hx. subst x. exact north_good.
  - left. split; [reflexivity|left; cbn; lia].
Qed.

(** Examples: no reply gets through, and three packets are stored; the peer
    takes the reply to the first of three packets, and two are stored. *)
Example C141_example : forall E : go_env,
  carries (mkIn [concat (repeat north 3)] COpen) (repeat north 3) [] /\
  length (saved_of (fst (replied (fun _ _ => WFailed) (mkIn [concat (repeat north 3)] COpen)))) = 3%nat.
Proof.
  intros E. pose proof (carries_copies E 3) as C. split; [exact C|].
  destruct (C141_nothing_lost E (fun _ _ => WFailed) (mkIn [concat (repeat north 3)] COpen)) as [-> _]; [discriminate|].
  destruct (carries_exec _ _ _ C) as (actss & Ha & -> & _). destruct (north_owes E) as [_ Hs]. cbn [repeat] in Ha.
  inversion Ha as [|? a1 ? ? A1 Ha1]; subst. inversion Ha1 as [|? a2 ? ? A2 Ha2]; subst. inversion Ha2 as [|? a3 ? ? A3 Ha3]; subst.
  inversion Ha3; subst. cbn [concat]. rewrite !saves_app', !app_length, (Hs a1 A1), (Hs a2 A2), (Hs a3 A3). reflexivity.
Qed.
Example C142_example : forall E : go_env,
  Forall2 owes (repeat north 3) (repeat 29 3) /\ dealt_with 40 (repeat 29 3) = 2%nat.
Proof. intros E. destruct (north_owes E) as [H _]. split; [repeat (constructor; [exact H|]); constructor|reflexivity]. Qed.

(** Not so: however much the peer reads, the data it sends after that is
    not stored.  A peer that sends the same packet with one position [n] times
    and takes [room] bytes of replies has [room]/29 + 1 of them stored; the
    connection is never closed. *)
Theorem C142_unread_stored_refuted : forall (E : go_env) room n, (N.to_nat (room / 29) + 1 < n)%nat ->
  let c := mkIn [concat (repeat north n)] COpen in
  carries c (repeat north n) [] /\ length (saves (fst (conn_exec c))) = n /\
  length (saved_of (fst (replied (reads_only room) c))) = (N.to_nat (room / 29) + 1)%nat /\
  snd (replied (reads_only room) c) = None.
Proof.
  intros E room n Hn c. pose proof (carries_copies E n) as Hc. fold c in Hc. split; [exact Hc|].
  destruct (north_owes E) as [Ho Hs].
  assert (Hos : Forall2 owes (repeat north n) (repeat 29 n)) by (clear -Ho; induction n; constructor; assumption).
  destruct (unread c _ _ room _ Hc Hos) as (actss & Ha & He & H1 & H2).
  assert (Hl : Forall (fun x => length x = 1%nat) (map saves actss)).
  { clear -Ha Hs. remember (repeat north n) as pk eqn:Ep. assert (Hin : forall x, In x pk -> x = north) by (subst pk; intros x; apply repeat_spec).
    clear Ep. induction Ha as [|b acts bs actss H1 H2 IH]; constructor.
    - apply Hs. rewrite <- (Hin b); [exact H1|left; reflexivity].
    - apply IH. intros x Hx. apply Hin. right. exact Hx. }
  assert (Hlen : length (map saves actss) = n).
  { rewrite map_length. apply same_length in Ha. rewrite repeat_length in Ha. lia. }
  assert (Hcat : forall ls : list (list nav_record), Forall (fun x => length x = 1%nat) ls -> length (concat ls) = length ls).
  { clear. induction ls as [|x ls IH]; intros H; [reflexivity|]. inversion H; subst. cbn [concat length]. rewrite app_length, IH by assumption. lia. }
  assert (Hd : forall k room, dealt_with room (repeat 29 k) = Nat.min k (N.to_nat (room / 29) + 1)).
  { clear. induction k as [|k IH]; intros room; [reflexivity|]. cbn [repeat dealt_with].
    destruct (N.leb_spec 29 room) as [Hle|Hgt].
    - rewrite IH. replace (room / 29) with ((room - 29) / 29 + 1); [lia|].
      replace room with ((room - 29) + 1 * 29) at 2 by lia. rewrite N.div_add by lia. reflexivity.
    - rewrite N.div_small by exact Hgt. lia. }
  split; [|split].
  - rewrite He. assert (saves (concat actss) = concat (map saves actss)) as ->.
    { clear. induction actss as [|a l IH]; [reflexivity|]. cbn [map concat]. rewrite saves_app', IH. reflexivity. }
    rewrite Hcat by exact Hl. exact Hlen.
  - rewrite H1, Hcat; [|apply Forall_forall; intros x Hx; rewrite Forall_forall in Hl; apply Hl; rewrite <- (firstn_skipn (dealt_with room (repeat 29 n)) (map saves actss)); apply in_or_app; left; exact Hx].
    rewrite firstn_length, Hlen, Hd. lia.
  - rewrite H2. replace (total (repeat 29 n) <=? room) with false; [reflexivity|]. symmetry. apply N.leb_gt.
    assert (Ht : total (repeat 29 n) = 29 * N.of_nat n).
    { clear. induction n as [|n IH]; [reflexivity|]. cbn [repeat total fold_right]. fold (total (repeat 29 n)). rewrite IH. lia. }
    rewrite Ht. pose proof (N.div_mod room 29 ltac:(lia)) as D. pose proof (N.mod_lt room 29 ltac:(lia)) as M. lia.
Qed.
Print Assumptions C141_nothing_lost.
Print Assumptions C141_positions_stored.
Print Assumptions C142_owed.
Print Assumptions C142_unread_exactly.
Print Assumptions C142_unread_partial.
Print Assumptions C142_unread_stored_refuted.
