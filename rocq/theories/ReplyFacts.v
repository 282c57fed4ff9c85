(** * ReplyFacts: proofs about replies that do not arrive. *)
From Coq Require Import Lia ZifyBool ZifyN ZifyNat List.
From Verif Require Import GoBase Crc Float64 SubRecords Records Package Storage Server Reply
  Spec_Bits Spec_Wf Spec_Rec Spec_Pkg Spec_Server Spec_Reply ServerFacts2 GlueServer.
Import ListNotations.
Local Open Scope N_scope.

Section ReplyFacts.
Context {E : go_env}.

Lemma saved_app a b : saved_of (a ++ b) = saved_of a ++ saved_of b.
Proof. apply flat_map_app. Qed.
Lemma sent_app a b : sent_of (a ++ b) = sent_of a ++ sent_of b.
Proof. apply flat_map_app. Qed.
Lemma saves_app' a b : saves (a ++ b) = saves a ++ saves b.
Proof. apply flat_map_app. Qed.

(** ** Writes that fail *)
Lemma perform_failures wr : (forall sent b, wr sent b <> WBlocked) -> forall acts sent,
  saved_of (fst (perform wr sent acts)) = saves acts /\ snd (perform wr sent acts) = false.
Proof.
  intros H. induction acts as [|[b|n] l IH]; intros sent; cbn [perform].
  - split; reflexivity.
  - specialize (H sent b). destruct (wr sent b); [| |contradiction].
    + specialize (IH (sent ++ [b])). destruct (perform wr (sent ++ [b]) l) as [d st]. cbn [fst snd] in *. exact IH.
    + specialize (IH sent). destruct (perform wr sent l) as [d st]. cbn [fst snd] in *. exact IH.
  - specialize (IH sent). destruct (perform wr sent l) as [d st]. cbn [fst snd] in *. destruct IH as [I1 I2].
    split; [|exact I2]. cbn [saved_of flat_map app saves]. f_equal. exact I1.
Qed.
Lemma replied_failures wr c : (forall sent b, wr sent b <> WBlocked) ->
  saved_of (fst (replied wr c)) = saves (fst (conn_exec c)) /\ snd (replied wr c) = Some (snd (conn_exec c)).
Proof.
  intros H. unfold replied. destruct (conn_exec c) as [acts f]. pose proof (perform_failures wr H acts []) as [H1 H2].
  destruct (perform wr [] acts) as [d st]. cbn [fst snd] in *. subst st. split; [exact H1|reflexivity].
Qed.

(** ** Replies that are not read *)
Lemma perform_app wr a : forall sent b,
  perform wr sent (a ++ b) =
  let '(d, st) := perform wr sent a in
  if st then (d, true) else let '(d', st') := perform wr (sent ++ sent_of d) b in (d ++ d', st').
Proof.
  induction a as [|[x|n] a IH]; intros sent b; cbn [app perform].
  - cbn [sent_of flat_map]. rewrite app_nil_r. destruct (perform wr sent b). reflexivity.
  - destruct (wr sent x); [| |reflexivity].
    + rewrite IH. destruct (perform wr (sent ++ [x]) a) as [d st]. destruct st; [reflexivity|].
      cbn [sent_of flat_map app]. rewrite <- app_assoc. cbn [app]. fold (sent_of d).
      destruct (perform wr (sent ++ x :: sent_of d) b). reflexivity.
    + rewrite IH. destruct (perform wr sent a) as [d st]. destruct st; [reflexivity|].
      cbn [sent_of flat_map app]. fold (sent_of d). destruct (perform wr (sent ++ sent_of d) b). reflexivity.
  - rewrite IH. destruct (perform wr sent a) as [d st]. destruct st; [reflexivity|].
    cbn [sent_of flat_map app]. fold (sent_of d). destruct (perform wr (sent ++ sent_of d) b). reflexivity.
Qed.

Lemma blen_concat_app (a b : list bytes) : blen (concat (a ++ b)) = blen (concat a) + blen (concat b).
Proof. unfold blen. rewrite concat_app, app_length. lia. Qed.

Lemma perform_saves wr sent recs : perform wr sent (map ASave recs) = (map DSaved recs, false).
Proof. induction recs as [|r l IH]; [reflexivity|]. cbn [map perform]. rewrite IH. reflexivity. Qed.
Lemma perform_fits room ws : forall sent, blen (concat sent) + blen (concat ws) <= room ->
  perform (reads_only room) sent (map AWrite ws) = (map DSent ws, false).
Proof.
  induction ws as [|w l IH]; intros sent H; [reflexivity|]. cbn [map perform]. unfold reads_only at 1.
  change (w :: l) with ([w] ++ l) in H. rewrite blen_concat_app in H. cbn [concat] in H. rewrite app_nil_r in H.
  replace (blen (concat sent) + blen w <=? room) with true by lia.
  rewrite IH; [reflexivity|]. rewrite blen_concat_app. cbn [concat]. rewrite app_nil_r. lia.
Qed.
Lemma perform_write wr sent w l : wr sent w = WDone ->
  saved_of (fst (perform wr sent (AWrite w :: l))) = saved_of (fst (perform wr (sent ++ [w]) l)) /\
  snd (perform wr sent (AWrite w :: l)) = snd (perform wr (sent ++ [w]) l).
Proof. intros H. cbn [perform]. rewrite H. destruct (perform wr (sent ++ [w]) l). split; reflexivity. Qed.
Lemma perform_full room ws : forall sent, blen (concat sent) <= room -> room < blen (concat sent) + blen (concat ws) ->
  saved_of (fst (perform (reads_only room) sent (map AWrite ws))) = [] /\
  snd (perform (reads_only room) sent (map AWrite ws)) = true.
Proof.
  induction ws as [|w l IH]; intros sent H0 H.
  - cbn [concat] in H. change (blen []) with 0 in H. lia.
  - change (w :: l) with ([w] ++ l) in H. rewrite blen_concat_app in H. cbn [concat] in H. rewrite app_nil_r in H.
    destruct (N.leb_spec (blen (concat sent) + blen w) room) as [Hle|Hgt].
    + destruct (perform_write (reads_only room) sent w (map AWrite l)) as [P1 P2].
      { unfold reads_only. replace (blen (concat sent) + blen w <=? room) with true by lia. reflexivity. }
      cbn [map]. specialize (IH (sent ++ [w])). rewrite blen_concat_app in IH. cbn [concat] in IH. rewrite app_nil_r in IH.
      destruct (IH Hle ltac:(lia)) as [I1 I2]. split; [exact (eq_trans P1 I1)|exact (eq_trans P2 I2)].
    + cbn [map perform]. change (reads_only room sent w) with (if blen (concat sent) + blen w <=? room then WDone else WBlocked).
      replace (blen (concat sent) + blen w <=? room) with false by lia. split; reflexivity.
Qed.
Lemma sent_map ws : sent_of (map DSent ws) = ws.
Proof. induction ws as [|w l IH]; [reflexivity|]. cbn [map sent_of flat_map app]. f_equal. exact IH. Qed.
Lemma saved_sent ws : saved_of (map DSent ws) = [].
Proof. induction ws; [reflexivity|assumption]. Qed.
Lemma saved_map recs : saved_of (map DSaved recs) = recs.
Proof. induction recs as [|w l IH]; [reflexivity|]. cbn [map saved_of flat_map app]. f_equal. exact IH. Qed.
Lemma sent_saved recs : sent_of (map DSaved recs) = [].
Proof. induction recs; [reflexivity|assumption]. Qed.

(** The actions for one packet: saves, then writes. *)
Definition orderly (acts : list action) : Prop := exists recs ws, acts = map ASave recs ++ map AWrite ws.
Lemma saves_map recs ws : saves (map ASave recs ++ map AWrite ws) = recs.
Proof.
  rewrite saves_app'. assert (saves (map AWrite ws) = []) as -> by (induction ws; [reflexivity|assumption]).
  rewrite app_nil_r. induction recs as [|w l IH]; [reflexivity|]. cbn [map saves flat_map app]. f_equal. exact IH.
Qed.
Lemma writes_map recs ws : writes (map ASave recs ++ map AWrite ws) = ws.
Proof.
  rewrite writes_app. assert (writes (map ASave recs) = []) as -> by (induction recs; [reflexivity|assumption]).
  cbn [app]. induction ws as [|w l IH]; [reflexivity|]. cbn [map writes flat_map app]. f_equal. exact IH.
Qed.

Lemma packet_orderly b acts : packet_actions b acts -> orderly acts.
Proof.
  intros (p & code & err & _ & _ & He & Ha). destruct err.
  - destruct (He eq_refl) as (_ & ack & -> & _). exists [], [ack]. reflexivity.
  - destruct (Ha eq_refl) as (_ & [(_ & -> & _)|(_ & l & _ & H)]).
    + exists [], []. reflexivity.
    + unfold app_actions in H. destruct (confirms l); [subst; exists [], []; reflexivity|].
      destruct H as (rec & ack & -> & _). generalize (result_packet (pPID p)). intros rp.
      exists (match positions l with [] => [] | _ :: _ => [rec] end), (ack :: if credentials l then [rp] else []).
      destruct (positions l), (credentials l); reflexivity.
Qed.

Lemma result_len pid : blen (result_packet pid) = 24.
Proof.
  unfold result_packet, blen. cbv zeta. generalize ((pid + 1) mod 65536). intros x.
  match goal with |- context [crc8 ?h] => generalize (crc8 h) end. intros c1.
  match goal with |- context [crc16 ?h] => generalize (crc16 h) end. intros c2. reflexivity.
Qed.

Lemma owes_bytes b acts n : packet_actions b acts -> owes b n -> blen (concat (writes acts)) = n.
Proof.
  intros (p & code & err & Hd & _ & He & Ha) (p' & code' & err' & Hd' & Hn).
  pose proof (Hd []) as D. rewrite (Hd' []) in D. injection D as -> -> ->. destruct err.
  - destruct (He eq_refl) as (_ & ack & -> & _ & Hl & _). subst n. cbn [writes flat_map app concat]. rewrite app_nil_r, Hl. reflexivity.
  - destruct (Ha eq_refl) as (_ & [(_ & -> & r & Hr)|(_ & l & Hl & H)]).
    + rewrite Hr in Hn. subst n. reflexivity.
    + rewrite Hl in Hn. unfold app_actions in H. destruct (confirms l); [subst; reflexivity|].
      destruct H as (rec & ack & -> & _ & _ & _ & _ & _ & _ & _ & _ & _ & svc & (_ & Hk & _) & _).
      pose proof (result_len (pPID p)) as R. revert R. generalize (result_packet (pPID p)). intros rp R.
      assert (Hw : writes ((match positions l with [] => [] | _ :: _ => [ASave rec] end)
                     ++ [AWrite ack] ++ (if credentials l then [AWrite rp] else [])) =
                   ack :: (if credentials l then [rp] else [])).
      { destruct (positions l), (credentials l); reflexivity. }
      rewrite Hw. clear Hw Ha He Hd Hd'.
      assert (Hm : match map RN l with [] => 0 | _ :: _ => 7 + 6 * N.of_nat (length (map RN l)) end =
                   match l with [] => 0 | _ :: _ => 7 + 6 * N.of_nat (length l) end).
      { rewrite map_length. destruct l; reflexivity. }
      rewrite Hm in Hk. destruct (credentials l); cbn [concat]; rewrite ?app_nil_r; unfold blen in *; rewrite ?app_length; lia.
Qed.
Lemma owes_some b acts : packet_actions b acts -> exists n, owes b n.
Proof.
  intros (p & code & err & Hd & _ & He & Ha). destruct err.
  - exists 16. exists p, code, true. split; [exact Hd|reflexivity].
  - destruct (pSFRD p) as [[l|r]|] eqn:Hp; eexists; exists p, code, false; (split; [exact Hd|]); rewrite Hp; reflexivity.
Qed.

Lemma perform_seq wr a sent b d : perform wr sent a = (d, false) ->
  saved_of (fst (perform wr sent (a ++ b))) = saved_of d ++ saved_of (fst (perform wr (sent ++ sent_of d) b)) /\
  snd (perform wr sent (a ++ b)) = snd (perform wr (sent ++ sent_of d) b).
Proof.
  intros H. rewrite perform_app, H. destruct (perform wr (sent ++ sent_of d) b) as [d' st']. split; [apply saved_app|reflexivity].
Qed.
Lemma perform_stop wr a sent b : snd (perform wr sent a) = true -> perform wr sent (a ++ b) = perform wr sent a.
Proof. intros H. rewrite perform_app. destruct (perform wr sent a) as [d st]. cbn in H. subst st. reflexivity. Qed.

(** One connection's packets against a peer that reads only [room] bytes. *)
Lemma perform_packets room actss : forall ns sent, Forall orderly actss ->
  Forall2 (fun acts n => blen (concat (writes acts)) = n) actss ns -> blen (concat sent) <= room ->
  saved_of (fst (perform (reads_only room) sent (concat actss))) =
    concat (firstn (dealt_with (room - blen (concat sent)) ns) (map saves actss)) /\
  snd (perform (reads_only room) sent (concat actss)) = negb (blen (concat sent) + total ns <=? room).
Proof.
  induction actss as [|acts actss IH]; intros ns sent Ho Hn Hs; inversion Hn as [|x n xs ns' Hn1 Hn2].
  - cbn [concat perform fst snd saved_of flat_map dealt_with firstn map total fold_right]. split; [reflexivity|lia].
  - subst. inversion Ho as [|? ? (recs & ws & Ea) Ho']; subst. cbn [concat].
    rewrite writes_map in *. rewrite <- app_assoc.
    destruct (perform_seq (reads_only room) (map ASave recs) sent (map AWrite ws ++ concat actss) _ (perform_saves _ sent recs)) as [S1 S2].
    rewrite sent_saved, app_nil_r, saved_map in S1. rewrite sent_saved, app_nil_r in S2.
    cbn [dealt_with map firstn total fold_right concat]. rewrite saves_map. rewrite S1, S2.
    destruct (N.leb_spec (blen (concat ws)) (room - blen (concat sent))) as [Hle|Hgt].
    + destruct (perform_seq (reads_only room) (map AWrite ws) sent (concat actss) (map DSent ws)) as [T1 T2];
        [apply perform_fits; lia|].
      rewrite sent_map, saved_sent in T1. rewrite sent_map in T2. rewrite T1, T2.
      destruct (IH ns' (sent ++ ws) Ho' Hn2) as [I1 I2]; [rewrite blen_concat_app; lia|].
      rewrite blen_concat_app in I1, I2. split.
      * cbn [app]. f_equal. refine (eq_trans I1 _). do 3 f_equal. lia.
      * refine (eq_trans I2 _). fold (total ns'). do 2 f_equal. lia.
    + pose proof (perform_full room ws sent Hs ltac:(lia)) as [F1 F2]. rewrite perform_stop by exact F2.
      rewrite F1, F2. split; [reflexivity|]. lia.
Qed.

Lemma unread c pkts s room ns : carries c pkts s -> Forall2 owes pkts ns ->
  exists actss, Forall2 packet_actions pkts actss /\ fst (conn_exec c) = concat actss /\
  saved_of (fst (replied (reads_only room) c)) = concat (firstn (dealt_with room ns) (map saves actss)) /\
  snd (replied (reads_only room) c) = if total ns <=? room then Some (snd (conn_exec c)) else None.
Proof.
  intros Hc Ho. destruct (carries_exec c pkts s Hc) as (actss & Ha & He & _). exists actss. split; [exact Ha|]. split; [exact He|].
  unfold replied. destruct (conn_exec c) as [acts f]. cbn [fst snd] in *. subst acts.
  assert (Hor : Forall orderly actss). { clear -Ha. induction Ha; constructor; [eapply packet_orderly; eassumption|assumption]. }
  assert (Hn : Forall2 (fun acts n => blen (concat (writes acts)) = n) actss ns).
  { clear -Ha Ho. revert ns Ho. induction Ha as [|b acts bs actss H1 H2 IH]; intros ns Ho; inversion Ho; subst; constructor.
    - eapply owes_bytes; eassumption.
    - apply IH. assumption. }
  pose proof (perform_packets room actss ns [] Hor Hn) as P. cbn [concat] in P.
  change (blen ([]:bytes)) with 0 in P. rewrite N.sub_0_r, N.add_0_l in P. specialize (P ltac:(lia)). cbn zeta in P.
  destruct P as [P1 P2]. clear Hn Hor Ha Ho Hc.
  match goal with |- saved_of (fst (let '(d, stuck) := ?p in _)) = _ /\ _ =>
    change (saved_of (fst p) = concat (firstn (dealt_with room ns) (map saves actss))) in P1;
    change (snd p = negb (total ns <=? room)) in P2;
    destruct p as [d st] end.
  cbn [fst snd] in *. split; [exact P1|]. rewrite P2. destruct (total ns <=? room); reflexivity.
Qed.
Lemma owed c pkts s : carries c pkts s -> exists ns, Forall2 owes pkts ns.
Proof.
  intros Hc. destruct (carries_exec c pkts s Hc) as (actss & Ha & _). clear Hc. induction Ha as [|b acts bs actss H1 H2 [ns IH]].
  - exists []. constructor.
  - destruct (owes_some b acts H1) as [n Hn]. exists (n :: ns). constructor; assumption.
Qed.
End ReplyFacts.
