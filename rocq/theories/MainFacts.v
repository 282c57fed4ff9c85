(** * MainFacts: the lemmas behind Prop_Main. *)
From Coq Require Import String List Lia.
From Verif Require Import GoBase Float64 SubRecords Records Package Storage Connectors Json Server Config Main
  Spec_Rec Spec_Pkg Spec_Server Spec_Storage Spec_Json Spec_Main BaseFacts StorageFacts ServerFacts4 GlueServer GlueServer2.
Local Open Scope N_scope.
Local Open Scope list_scope.

(** ** Start-up *)
Lemma opens_fun lib e c c' : section_opens lib e c -> section_opens lib e c' -> c = c'.
Proof.
  intros (k & Hd & Hi) (k' & Hd' & Hi'). apply kind_documented in Hd, Hd'. rewrite Hd in Hd'. injection Hd' as <-.
  rewrite Hi in Hi'. injection Hi' as <-. reflexivity.
Qed.
Lemma main_exact lib cfg :
  exists pre post cs0, cfg = pre ++ post /\ Forall2 (section_opens lib) pre cs0 /\
    ((post = [] /\ pre <> [] /\ main_connectors lib cfg = cs0) \/
     (main_connectors lib cfg = cs0 ++ [CnLog] /\
      (cfg = [] \/ exists e rest, post = e :: rest /\ forall c, ~ section_opens lib e c))).
Proof.
  set (ini := fun k s => match connector_init lib k s with Some _ => true | None => false end).
  set (f := fun ks : store_kind * section => match connector_init lib (fst ks) (snd ks) with Some c => [c] | None => [] end).
  assert (G : forall pre l, Forall2 (opened ini) pre l -> Forall2 (section_opens lib) pre (flat_map f l)).
  { induction 1 as [|e st pre l (H1 & H2 & H3) _ IH]; [constructor|]. cbn [flat_map]. unfold f at 1. unfold ini in H3.
    destruct (connector_init lib (fst st) (snd st)) as [c|] eqn:Hc; [|discriminate]. cbn [app]. constructor; [|exact IH].
    exists (fst st). rewrite H2 in Hc. auto. }
  unfold main_connectors, load_connectors. fold ini. destruct (load_storages section ini [] cfg) as [l o] eqn:Hl.
  destruct (match o with LdOk => true | _ => false end) eqn:Ho.
  - destruct o; try discriminate Ho. apply loaded_iff in Hl. destruct Hl as [Hne Hf].
    exists cfg, [], (flat_map f l). rewrite app_nil_r. split; [reflexivity|]. split; [apply G, Hf|]. left.
    split; [reflexivity|]. split; [exact Hne|]. apply app_nil_r.
  - assert (o <> LdOk) as Ho' by (intros ->; discriminate).
    destruct (load_failed ini cfg l o Ho' Hl) as [(-> & -> & ->)|(pre & e & post & -> & Hf & He)].
    + exists [], [], []. split; [reflexivity|]. split; [constructor|]. right. split; [reflexivity|left; reflexivity].
    + exists pre, (e :: post), (flat_map f l). split; [reflexivity|]. split; [apply G, Hf|]. right.
      split; [destruct o; [discriminate|reflexivity..]|]. right. exists e, post. split; [reflexivity|].
      intros c (k & Hd & Hi). destruct He as [(_ & He)|(_ & k' & Hd' & He)]; [exact (He k Hd)|].
      apply kind_documented in Hd, Hd'. rewrite Hd in Hd'. injection Hd' as <-. unfold ini in He. rewrite Hi in He. discriminate.
Qed.

(** ** Storages of the running process *)
Lemma stores_from_len rt cs : forall k, length (stores_from rt k cs) = length cs.
Proof. induction cs as [|c cs IH]; intros k; [reflexivity|]. cbn. rewrite IH. reflexivity. Qed.
Lemma stores_from_nth rt cs : forall k0 k s, nth_error (stores_from rt k0 cs) k = Some s ->
  exists c, nth_error cs k = Some c /\ s = store_of rt (k0 + k) c.
Proof.
  induction cs as [|c cs IH]; intros k0 [|k] s; cbn [stores_from nth_error]; try discriminate.
  - intros [= <-]. exists c. rewrite Nat.add_0_r. auto.
  - intros H. destruct (IH _ _ _ H) as (c' & H1 & ->). exists c'. rewrite <- plus_n_Sm. auto.
Qed.

Section Sent.
Context {E : go_env}.

(** What the calls of one connection at storage [k] are: one per record handed
    over, for a storage whose every Save makes a call satisfying [R]. *)
Lemma sent_calls rt k c i (R : nav_record -> lib_call -> Prop) tr :
  (forall j n o, In (j, ECall k n o) tr -> forall h, exists call, fst (save_last rt k c (h ++ [n])) = Some call /\ R n call) ->
  forall hist, Forall2 R (calls_of i k tr) (by_conn i (sent_from rt k c hist tr)).
Proof.
  intros H. induction tr as [|[j e] tr IH]; intros hist; [constructor|].
  assert (IH' := IH (fun j n o Hin => H j n o (or_intror Hin))). clear IH.
  unfold calls_of, events_of. cbn [filter fst]. cbn [sent_from].
  destruct e as [b|k' n o|n o]; cbn [map snd flat_map].
  - destruct (Nat.eqb j i); cbn [map snd flat_map app]; apply IH'.
  - destruct (Nat.eqb k k') eqn:Hk.
    + apply Nat.eqb_eq in Hk. subst k'. destruct (H j n o (or_introl eq_refl) hist) as (call & Hc & HR). rewrite Hc.
      cbn [app]. unfold by_conn. cbn [filter fst]. destruct (Nat.eqb j i) eqn:Hj; cbn [map snd flat_map].
      * rewrite Nat.eqb_refl. cbn [app]. constructor; [exact HR|apply IH'].
      * apply IH'.
    + destruct (Nat.eqb j i); cbn [map snd flat_map]; [rewrite Hk; cbn [app]|]; apply IH'.
  - destruct (Nat.eqb j i); cbn [map snd flat_map app]; apply IH'.
Qed.

(** ** What one packet saves *)
Lemma packet_saves b acts : good b -> packet_actions b acts ->
  (forall l, reports b l -> exists rec, saves acts = [rec] /\ recorded l rec) /\
  ((forall l, ~ reports b l) -> saves acts = []).
Proof.
  intros Hg Hp. assert (Hp0 := Hp). destruct Hp as (p & code & err & Hd & Hpid & Hrej & Hacc). split.
  - intros l (p' & Hd' & Hf & Hc & Hpos).
    assert (Hd'0 := Hd' []). destruct (accepted_actions b acts p' l Hg Hp0 Hd'0 Hf) as (_ & _ & Ha).
    destruct (saves_of_app_actions _ _ _ Ha Hc) as (rec & Hs & H1 & H2 & H3 & H4 & H5 & H6 & H7 & _).
    exists rec. split; [destruct (positions l); [congruence|exact Hs]|]. repeat split; assumption.
  - intros Hn. destruct err.
    + destruct (Hrej eq_refl) as (_ & ack & -> & _). reflexivity.
    + destruct (Hacc eq_refl) as (-> & [(_ & -> & _)|(_ & l & Hf & Ha)]); [reflexivity|].
      destruct (confirms l) eqn:Hc; [rewrite (app_actions_confirms _ _ _ Ha Hc); reflexivity|].
      destruct (saves_of_app_actions _ _ _ Ha Hc) as (rec & Hs & _). rewrite Hs.
      destruct (positions l) eqn:Hpos; [reflexivity|]. exfalso. apply (Hn l). exists p. split; [exact Hd|].
      split; [exact Hf|]. split; [exact Hc|congruence].
Qed.

Lemma saves_concat l : saves (concat l) = concat (map saves l).
Proof. induction l as [|a l IH]; [reflexivity|]. cbn [concat map]. unfold saves at 1. rewrite flat_map_app. f_equal. exact IH. Qed.
Lemma forall2_concat_split {A B} (R : A -> B -> Prop) (xs : list (list A)) : forall ys, Forall2 R (concat xs) ys ->
  exists yss, ys = concat yss /\ Forall2 (Forall2 R) xs yss.
Proof.
  induction xs as [|x xs IH]; intros ys H; cbn [concat] in H.
  - inversion H; subst. exists []. split; [reflexivity|constructor].
  - apply Forall2_app_inv_l in H. destruct H as (y1 & y2 & H1 & H2 & ->). destruct (IH _ H2) as (yss & -> & H3).
    exists (y1 :: yss). split; [reflexivity|]. constructor; assumption.
Qed.
End Sent.
