(** * Prop_Hang: a storage that does not answer (C149). *)
From Coq Require Import Lia List.
From Verif Require Import GoBase Crc Float64 SubRecords Records Package Storage Server Hang
  Spec_Bits Spec_Wf Spec_Rec Spec_Pkg Spec_Server ServerFacts2 GlueServer ReplyFacts Spec_Hang HangFacts HangServer WitnessServer Prop_Reply.
Import ListNotations.
Local Open Scope nat_scope.

Section Glue.
Context {E : go_env}.
Lemma orderly_saves_first a n l : orderly (a ++ ASave n :: l) -> writes a = [].
Proof.
  intros (recs & ws & H). revert a H. induction recs as [|r recs IH]; intros [|x a] H; try reflexivity.
  - exfalso. cbn [map app] in H. destruct ws as [|w ws]; [discriminate H|]. cbn [map] in H.
    assert (Hin : In (ASave n) (map AWrite (w :: ws))) by (cbn [map]; rewrite <- H; right; apply in_or_app; right; left; reflexivity).
    apply in_map_iff in Hin. destruct Hin as (? & Hx & _). discriminate Hx.
  - cbn [map app] in H. injection H as -> H. cbn [writes flat_map app]. apply (IH a). exact H.
Qed.
Lemma which_packet n b actss : Forall orderly actss -> forall a, concat actss = a ++ ASave n :: b -> exists i,
  i < length actss /\ writes a = concat (map writes (firstn i actss)) /\
  length (concat (map saves (firstn i actss))) <= length (saves a) < length (concat (map saves (firstn (S i) actss))).
Proof.
  induction 1 as [|x actss Hx Ho IH]; intros a H.
  - destruct a; discriminate H.
  - cbn [concat] in H. destruct (app_eq_app _ _ _ _ H) as (l & [[H1 H2]|[H1 H2]]).
    + destruct l as [|y l].
      * cbn [app] in H2. rewrite app_nil_r in H1. subst a.
        destruct (IH [] (eq_sym H2)) as (i & Hi & Hw & Hs1 & Hs2). exists (S i). cbn [length]. split; [lia|].
        cbn [firstn map concat] in *. rewrite !app_length. cbn [writes saves flat_map length] in *.
        split; [rewrite <- Hw; symmetry; apply app_nil_r|]. cbn [firstn map concat] in Hs2. lia.
      * cbn [app] in H2. injection H2 as Hy H2. subst x y. exists 0. cbn [length firstn map concat]. split; [lia|].
        split; [apply orderly_saves_first in Hx; exact Hx|]. rewrite app_nil_r, saves_app'.
        cbn [saves flat_map app]. rewrite app_length. cbn [length]. lia.
    + subst a. destruct (IH l H2) as (i & Hi & Hw & Hs1 & Hs2). exists (S i). cbn [length]. split; [lia|].
      rewrite writes_app, saves_app', app_length. cbn [firstn map concat] in *. rewrite !app_length, Hw.
      split; [reflexivity|]. cbn [firstn map concat] in Hs2. lia.
Qed.
Lemma saves_concat actss : saves (concat actss) = concat (map saves actss).
Proof. induction actss as [|a l IH]; [reflexivity|]. cbn [map concat]. rewrite saves_app', IH. reflexivity. Qed.
Lemma writes_concat actss : writes (concat actss) = concat (map writes actss).
Proof. induction actss as [|a l IH]; [reflexivity|]. cbn [map concat]. rewrite writes_app, IH. reflexivity. Qed.
End Glue.

(** ** C149: a storage that does not answer holds up nothing but itself. *)

(** Exactly, when storage [k] of [K] does not return from its [m]-th record and
    all else is well: if the packets have less than [m] records, all storages get
    all of them.  Otherwise the storages up to [k] get the first [m] records and
    the others one less; the replies to the packets before the one with the
    [m]-th record are all that is sent; and the goroutine stays, whatever
    conn_ttl is. *)
Theorem C149_hung_exactly : forall (E : go_env) c pkts s K k m, carries c pkts s -> k < K -> 1 <= m ->
  exists actss, Forall2 packet_actions pkts actss /\ fst (conn_exec c) = concat actss /\
  let recs := concat (map saves actss) in
  let '(tr, fin) := hung K (hangs_at k m) c in
  (length recs < m -> fin = Some (snd (conn_exec c)) /\ replies tr = concat (map writes actss) /\
     forall j, j < K -> handed j tr = recs) /\
  (m <= length recs -> fin = None /\
     (forall j, j < K -> handed j tr = firstn (if j <=? k then m else m - 1) recs) /\
     exists i, i < length pkts /\ replies tr = concat (map writes (firstn i actss)) /\
       length (concat (map saves (firstn i actss))) < m <= length (concat (map saves (firstn (S i) actss)))).
Proof.
  intros E c pkts s K k m Hc Hk Hm. destruct (carries_exec c pkts s Hc) as (actss & Ha & He & _).
  exists actss. split; [exact Ha|]. split; [exact He|]. cbv zeta.
  assert (Hor : Forall orderly actss). { clear -Ha. induction Ha; constructor; [eapply packet_orderly; eassumption|assumption]. }
  unfold hung. destruct (conn_exec c) as [acts f]. cbn [fst snd] in *. subst acts. rewrite <- saves_concat.
  destruct (Nat.ltb_spec (length (saves (concat actss))) m) as [Hlt|Hge].
  - destruct (quiet_run K k m (concat actss) [] []) as (tr & H1 & H2 & H3); [intros j _; reflexivity|exact Hlt|].
    rewrite H1. split; [|intros; lia]. intros _. split; [reflexivity|]. split; [rewrite H3; apply writes_concat|exact H2].
  - destruct (held_run K k m Hk (concat actss) (conj Hm Hge)) as (a & n & b & tr & Hab & Hl & H1 & H2 & H3).
    rewrite H1. split; [intros; lia|]. intros _. split; [reflexivity|]. split; [exact H3|].
    destruct (which_packet n b actss Hor a Hab) as (i & Hi & Hw & Hs1 & Hs2). exists i.
    apply same_length in Ha. rewrite Ha. split; [exact Hi|]. split; [rewrite H2; exact Hw|]. lia.
Qed.

(** Whatever the storages do: a call that does not return is as a call that fails,
    but nothing happens after it. *)
Theorem C149_nothing_more : forall (E : go_env) K ans c,
  let failing j h := match ans j h with HHang => HErr | o => o end in
  snd (hung K failing c) = Some (snd (conn_exec c)) /\
  (exists rest, fst (hung K failing c) = fst (hung K ans c) ++ rest) /\
  (snd (hung K ans c) <> None -> hung K ans c = hung K failing c).
Proof.
  intros E K ans c failing. unfold hung. destruct (conn_exec c) as [acts f].
  destruct (hperform_cut K ans acts []) as (H1 & H2 & rest & H3). change (as_failure ans) with failing in *.
  destruct (hperform K failing [] acts) as [tr' st']. destruct (hperform K ans [] acts) as [tr st]. cbn [fst snd] in *. subst st'.
  split; [reflexivity|]. split; [exists rest; exact H3|]. destruct st; [intros H; contradiction|]. intros _. injection (H1 eq_refl) as ->. reflexivity.
Qed.

Lemma carries_closed (E : go_env) n :
  carries (mkIn [concat (repeat north n) ++ repeat 9%N 10] COpen) (repeat north n) (repeat 9%N 10) /\ alien (repeat 9%N 10).
Proof.
  assert (A : alien (repeat 9%N 10)) by (split; [reflexivity|]; split; [cbn; lia|discriminate]). split; [|exact A].
  split; [cbn [ci_chunks concat]; rewrite !app_nil_r; reflexivity|]. split.
  - apply Forall_forall. intros x Hx. apply repeat_spec in Hx. subst x. exact north_good.
  - right. exact A.
Qed.
Lemma one_each (E : go_env) n : forall actss, Forall2 packet_actions (repeat north n) actss ->
  length actss = n /\ length (concat (map saves actss)) = n.
Proof.
  destruct (north_owes E) as [_ Hs]. induction n as [|n IH]; intros actss H; inversion H as [|? a ? l Ha Hl]; subst; [split; reflexivity|].
  destruct (IH l Hl) as [I1 I2]. cbn [map concat length]. rewrite app_length, (Hs a Ha), I1, I2. split; reflexivity.
Qed.

(** Hang.v is Server.v: with storages that answer every call, what is seen of a
    connection that is alone is its events in the receiver's executions. *)
Theorem C149_as_server : forall (E : go_env) stores c sched, in_ok c ->
  turns_needed (length stores) c <= turns 0 sched -> g_crashed (grun stores sched (ginit [c])) = false ->
  hung (length stores) (answers stores) c =
    (visible (events_of 0 (g_trace (grun stores sched (ginit [c])))), Some (snd (conn_exec c))).
Proof. exact @as_server. Qed.

(** Not so: with a storage before it that does not answer, a storage gets nothing
    at all, no packet is answered, and the connection, which would otherwise be
    closed at the end, never is. *)
Theorem C149_isolated_refuted : forall (E : go_env) n, 1 <= n ->
  let c := mkIn [concat (repeat north n) ++ repeat 9%N 10] COpen in
  carries c (repeat north n) (repeat 9%N 10) /\ length (saves (fst (conn_exec c))) = n /\ snd (conn_exec c) = FinClosed /\
  let '(tr, fin) := hung 2 (hangs_at 0 1) c in
  length (handed 0 tr) = 1 /\ handed 1 tr = [] /\ replies tr = [] /\ fin = None.
Proof.
  intros E n Hn c. destruct (carries_closed E n) as [Hc Ha]. fold c in Hc. split; [exact Hc|].
  destruct (carries_exec c _ _ Hc) as (as0 & Ha0 & He0 & _ & Hf). destruct (one_each E n as0 Ha0) as [_ Hl0].
  split; [rewrite He0, saves_concat; exact Hl0|]. split; [exact (Hf Ha)|].
  destruct (C149_hung_exactly E c _ _ 2 0 1 Hc ltac:(lia) ltac:(lia)) as (actss & Hp & He & H). cbv zeta in H.
  destruct (one_each E n actss Hp) as [L1 L2]. destruct (hung 2 (hangs_at 0 1) c) as [tr fin].
  destruct H as [_ H]. rewrite L2 in H. destruct (H Hn) as (Hfin & Hh & i & Hi & Hr & Hs1 & _).
  rewrite (Hh 0) by lia. rewrite (Hh 1) by lia. cbn [Nat.leb Nat.sub].
  split; [rewrite firstn_length, L2; lia|]. split; [reflexivity|]. split; [|exact Hfin].
  assert (i = 0) as ->; [|exact Hr]. destruct i as [|i]; [reflexivity|]. exfalso.
  destruct actss as [|a l]; [cbn in L1; lia|].
  assert (Hx : packet_actions north a) by (clear -Hp Hn; destruct n; [lia|]; cbn [repeat] in Hp; inversion Hp; assumption).
  cbn [firstn map concat] in Hs1. rewrite app_length in Hs1. destruct (north_owes E) as [_ Hsv]. rewrite (Hsv a Hx) in Hs1. lia.
Qed.

(** C149_hung_exactly is not vacuous: of three packets with a record each, the
    second storage of three does not return from the second record. *)
Example C149_example : forall E : go_env,
  let c := mkIn [concat (repeat north 3) ++ repeat 9%N 10] COpen in
  carries c (repeat north 3) (repeat 9%N 10) /\
  let '(tr, fin) := hung 3 (hangs_at 1 2) c in
  map (fun j => length (handed j tr)) [0; 1; 2] = [2; 2; 1] /\ fin = None.
Proof.
  intros E c. destruct (carries_closed E 3) as [Hc _]. fold c in Hc. split; [exact Hc|].
  destruct (C149_hung_exactly E c _ _ 3 1 2 Hc ltac:(lia) ltac:(lia)) as (actss & Hp & He & H). cbv zeta in H.
  destruct (one_each E 3 actss Hp) as [L1 L2]. destruct (hung 3 (hangs_at 1 2) c) as [tr fin].
  destruct H as [_ H]. rewrite L2 in H. destruct (H ltac:(lia)) as (Hfin & Hh & _).
  split; [|exact Hfin]. cbn [map]. rewrite (Hh 0), (Hh 1), (Hh 2) by lia. cbn [Nat.leb Nat.sub]. rewrite !firstn_length, L2. reflexivity.
Qed.
Print Assumptions C149_hung_exactly.
Print Assumptions C149_nothing_more.
Print Assumptions C149_as_server.
Print Assumptions C149_isolated_refuted.
