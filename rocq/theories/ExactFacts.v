(** * ExactFacts: the exact form of some refuted properties. *)
From Coq Require Import Lia Permutation.
From Verif Require Import GoBase Crc Float64 SubRecords Records Package Storage Server
  Spec_Pkg Spec_Server Spec_Exact BaseFacts PkgFacts ServerFacts ServerFacts2 ServerFacts3 ServerFacts4
  GlueServer GlueServer2.

Section Hemi.
Context {E : go_env}.

Lemma unsigned_cases d d' : unsigned d = unsigned d' -> d = d' \/
  exists e e', d = SRPos e /\ d' = SRPos e' /\ NavigationTime e = NavigationTime e' /\
    Latitude e = Latitude e' /\ Longitude e = Longitude e' /\ Speed e = Speed e'.
Proof.
  intros H. destruct d as [e| | | | | | | | | | | | | |].
  { destruct d' as [e'| | | | | | | | | | | | | |]; cbn [unsigned] in H; try discriminate H.
    right. exists e, e'. split; [reflexivity|]. split; [reflexivity|].
    pose proof (f_equal (fun d => match d with SRPos x => NavigationTime x | _ => 0%Z end) H) as H1.
    pose proof (f_equal (fun d => match d with SRPos x => Latitude x | _ => Latitude e end) H) as H2.
    pose proof (f_equal (fun d => match d with SRPos x => Longitude x | _ => Longitude e end) H) as H3.
    pose proof (f_equal (fun d => match d with SRPos x => Speed x | _ => 0 end) H) as H4.
    auto. }
  all: left; destruct d' as [e'| | | | | | | | | | | | | |]; cbn [unsigned] in H; first [exact H|discriminate H].
Qed.
Lemma unsigned_step d : forall pid ids st l SRT1 SRL1 d', unsigned d = unsigned d' -> forall SRT2 SRL2,
  subs_loop pid ids st ({| SRT := SRT1; SRL := SRL1; SRD := d |} :: l) =
  subs_loop pid ids st ({| SRT := SRT2; SRL := SRL2; SRD := d' |} :: l).
Proof.
  intros pid ids st l SRT1 SRL1 d' Hu SRT2 SRL2.
  destruct (unsigned_cases d d' Hu) as [<-|(e & e' & -> & -> & H1 & H2 & H3 & H4)]; [reflexivity|].
  cbn [subs_loop SRD]. unfold loc_of. rewrite H1, H2, H3, H4. reflexivity.
Qed.
Lemma unsigned_subs pid l1 : forall l2 ids st,
  map (fun d => unsigned (SRD d)) l1 = map (fun d => unsigned (SRD d)) l2 ->
  subs_loop pid ids st l1 = subs_loop pid ids st l2.
Proof.
  induction l1 as [|[t1 n1 d1] l1 IH]; intros [|[t2 n2 d2] l2] ids st H; try discriminate H; [reflexivity|].
  cbn [map SRD] in H. injection H as H0 H.
  rewrite (unsigned_step d1 pid ids st l1 t1 n1 d2 H0 t2 n2).
  destruct d2; cbn [subs_loop SRD]; try reflexivity; try (apply IH, H).
  match goal with |- context[cntr_step ?a ids (ap_exp st)] => destruct (cntr_step a ids (ap_exp st)) as [ids' n] end. apply IH, H.
Qed.
Lemma unsigned_recs pid l1 : forall l2 st,
  map unsigned_record l1 = map unsigned_record l2 -> recs_loop pid st l1 = recs_loop pid st l2.
Proof.
  induction l1 as [|r1 l1 IH]; intros [|r2 l2] st H; try discriminate H; [reflexivity|].
  cbn [map] in H. unfold unsigned_record at 1 3 in H. injection H as H1 H2 H3 H4 H. cbn [recs_loop].
  rewrite H1, H2, H3, (unsigned_subs pid (RD r1) (RD r2) _ _ H4).
  destruct (subs_loop pid (zeros 4) _ (RD r2)) as [st'|]; [apply IH, H|reflexivity].
Qed.
Lemma hemisphere_forgotten b1 b2 p1 p2 l1 l2 s1 s2 : good b1 -> good b2 -> decodes_to b1 p1 -> decodes_to b2 p2 ->
  pSFRD p1 = Some (FSds l1) -> pSFRD p2 = Some (FSds l2) -> pPT p1 = pPT p2 -> pPID p1 = pPID p2 ->
  map unsigned_record l1 = map unsigned_record l2 ->
  process (mkSlice b1 s1) = process (mkSlice b2 s2).
Proof.
  intros Hg1 Hg2 Hd1 Hd2 Hl1 Hl2 Hpt Hpid Hu. unfold process. rewrite Hd1, Hd2, Hl1, Hl2, Hpt, Hpid.
  rewrite (unsigned_recs (pPID p2) l1 l2 (app_init (pPID p2)) Hu). reflexivity.
Qed.
End Hemi.

Section Order.
Context {E : go_env}.
Variable stores : list saver.

(** ** Storages see the records of one connection in step *)
Lemma storages_in_step conns sched i c0 k k' : Forall in_ok conns -> nth_error conns i = Some c0 ->
  (k < k')%nat -> (k' < length stores)%nat ->
  (forall j s h, (j < k')%nat -> nth_error stores j = Some s -> s h = SvOk) ->
  exists later, calls_of i k (g_trace (grun stores sched (ginit conns))) =
                calls_of i k' (g_trace (grun stores sched (ginit conns))) ++ later /\ (length later <= 1)%nat.
Proof.
  intros Hb Hi Hkk Hk Hok.
  destruct (conn_events stores conns sched i c0 Hb Hi) as (d & later & e0 & cur & H1 & H2 & H3 & H4).
  change (calls_of i k ?t) with (calls_ev k (events_of i t)). change (calls_of i k' ?t) with (calls_ev k' (events_of i t)).
  assert (forall j n o, (j < k')%nat -> In (ECall j n o) (events_of i (g_trace (grun stores sched (ginit conns)))) -> o = SvOk) as Hf.
  { intros j n o Hj Hin. apply events_in, in_split in Hin. destruct Hin as (pre & post & Ht).
    destruct (grun_faithful stores conns sched _ _ _ _ _ _ Ht) as (s & Hs & ->). apply (Hok j s _ Hj Hs). }
  rewrite H3 in Hf |- *. rewrite !calls_ev_app.
  rewrite (calls_performs _ _ _ k H2), (calls_performs _ _ _ k' H2 Hk); [| |lia|].
  2:{ intros j n Hj Hin. specialize (Hf j n SvErr Hj (in_or_app _ _ _ (or_introl Hin))). discriminate. }
  2:{ intros j n Hj Hin. specialize (Hf j n SvErr ltac:(lia) (in_or_app _ _ _ (or_introl Hin))). discriminate. }
  enough (exists l, calls_ev k cur = calls_ev k' cur ++ l /\ (length l <= 1)%nat) as (l & -> & Hl).
  { exists l. rewrite app_assoc. split; [reflexivity|exact Hl]. }
  destruct H4 as [->|(n & l' & _ & m & Hm & [->|(Hlt & _ & ->)])].
  - exists []. split; [reflexivity|cbn; lia].
  - rewrite !calls_ev_seq.
    destruct ((0 <=? k) && (k <? 0 + m))%nat eqn:H5; destruct ((0 <=? k') && (k' <? 0 + m))%nat eqn:H6; try lia;
      [exists []|exists [n]|exists []]; (split; [reflexivity|cbn; lia]).
  - rewrite !calls_ev_app, !calls_ev_seq. cbn [calls_ev flat_map]. rewrite !app_nil_r.
    destruct ((0 <=? k) && (k <? 0 + m))%nat eqn:H5; destruct ((0 <=? k') && (k' <? 0 + m))%nat eqn:H6;
      destruct (k =? m)%nat eqn:H7; destruct (k' =? m)%nat eqn:H8; try lia;
      cbn [app]; first [exists []; split; [reflexivity|cbn; lia]|exists [n]; split; [reflexivity|cbn; lia]].
Qed.

(** ** Every event belongs to a connection *)
Lemma upd_length {A} i (x : A) l : length (upd i x l) = length l.
Proof. revert i; induction l as [|y l IH]; intros [|i]; cbn; [reflexivity..|]. rewrite IH. reflexivity. Qed.
Lemma gstep_known i g n : length (g_conns g) = n -> (forall x, In x (g_trace g) -> (fst x < n)%nat) ->
  length (g_conns (gstep stores i g)) = n /\ (forall x, In x (g_trace (gstep stores i g)) -> (fst x < n)%nat).
Proof.
  intros Hn Ht. unfold gstep. destruct (g_crashed g); [split; assumption|].
  destruct (nth_error (g_conns g) i) as [cs|] eqn:Hi; [|split; assumption].
  assert ((i < n)%nat) as Hlt. { rewrite <- Hn. apply nth_error_Some. congruence. }
  assert (Hadd : forall l, (forall x, In x l -> fst x = i) -> forall x, In x (g_trace g ++ l) -> (fst x < n)%nat).
  { intros l Hl x Hx. apply in_app_or in Hx. destruct Hx as [Hx|Hx]; [apply Ht, Hx|]. rewrite (Hl x Hx). exact Hlt. }
  destruct (cs_done cs); [split; assumption|].
  destruct (cs_pend cs) as [|[b|m] pend].
  - destruct (conn_step (cs_in cs)); cbn [g_conns g_trace]; rewrite ?upd_length; split; assumption.
  - cbn [g_conns g_trace]. rewrite upd_length. split; [exact Hn|]. apply Hadd. intros x [<-|[]]. reflexivity.
  - destruct (nth_error stores (cs_at cs)) as [s|].
    + destruct (s _); cbn [g_conns g_trace]; rewrite ?upd_length; (split; [exact Hn|]); apply Hadd; intros x; cbn [In]; intros Hx;
        repeat (destruct Hx as [<-|Hx]; [reflexivity|]); contradiction.
    + cbn [g_conns g_trace]. rewrite upd_length. split; [exact Hn|]. apply Hadd. intros x [<-|[]]. reflexivity.
Qed.
Lemma grun_known sched : forall g n, length (g_conns g) = n -> (forall x, In x (g_trace g) -> (fst x < n)%nat) ->
  forall x, In x (g_trace (grun stores sched g)) -> (fst x < n)%nat.
Proof.
  induction sched as [|i sched IH]; intros g n Hn Ht; [exact Ht|].
  destruct (gstep_known i g n Hn Ht) as (Hn' & Ht'). exact (IH (gstep stores i g) n Hn' Ht').
Qed.

(** ** Same subsequences, same multiset *)
Definition tagged (k : nat) (tr : list (nat * event)) : list (nat * nav_record) :=
  flat_map (fun x => match snd x with ECall k' n _ => if Nat.eqb k k' then [(fst x, n)] else [] | _ => [] end) tr.
Lemma tagged_history k tr : map snd (tagged k tr) = history k tr.
Proof.
  induction tr as [|[i e] tr IH]; [reflexivity|]. unfold tagged, history in *. cbn [flat_map fst snd]. rewrite map_app, IH.
  destruct e as [b|k' n o|n o]; try reflexivity. destruct (Nat.eqb k k'); reflexivity.
Qed.
Definition pick (i : nat) (l : list (nat * nav_record)) := map snd (filter (fun x => Nat.eqb (fst x) i) l).
Lemma tagged_calls i k tr : pick i (tagged k tr) = calls_of i k tr.
Proof.
  unfold pick, calls_of, events_of. induction tr as [|[j e] tr IH]; [reflexivity|]. unfold tagged in *. cbn [flat_map filter fst snd].
  rewrite filter_app, map_app, IH.
  destruct (Nat.eqb j i) eqn:Hj; cbn [map flat_map snd]; destruct e as [b|k' n o|n o]; try reflexivity;
    destruct (Nat.eqb k k'); cbn [filter map fst snd]; rewrite ?Hj; reflexivity.
Qed.
Lemma tagged_known k tr x : In x (tagged k tr) -> exists e, In (fst x, e) tr.
Proof.
  unfold tagged. rewrite in_flat_map. intros ([j e] & Hin & Hx). destruct e as [b|k' n o|n o]; try contradiction.
  cbn [snd fst] in Hx. destruct (Nat.eqb k k'); [|contradiction]. destruct Hx as [<-|[]]. exists (ECall k' n o). exact Hin.
Qed.
Lemma pick_nil l : (forall i, pick i l = []) -> l = [].
Proof.
  intros H. destruct l as [|[j n] l]; [reflexivity|]. specialize (H j). unfold pick in H. cbn in H. rewrite Nat.eqb_refl in H. discriminate.
Qed.
Lemma pick_head i n rest l : pick i l = n :: rest -> exists l1 l2, l = l1 ++ (i, n) :: l2 /\ pick i l1 = [] /\ pick i l2 = rest.
Proof.
  induction l as [|[j m] l IH]; [discriminate|]. unfold pick in *. cbn [filter fst]. destruct (Nat.eqb j i) eqn:Hj.
  - cbn [map snd]. intros H. injection H as -> H. apply Nat.eqb_eq in Hj. subst j. exists [], l. split; [reflexivity|]. split; [reflexivity|exact H].
  - intros H. destruct (IH H) as (l1 & l2 & -> & H1 & H2). exists ((j, m) :: l1), l2. split; [reflexivity|].
    cbn [filter fst]. rewrite Hj. auto.
Qed.
Lemma pick_app i l1 l2 : pick i (l1 ++ l2) = pick i l1 ++ pick i l2.
Proof. unfold pick. rewrite filter_app, map_app. reflexivity. Qed.
Lemma pick_permutation a : forall b, (forall i, pick i a = pick i b) -> Permutation a b.
Proof.
  induction a as [|[j n] a IH]; intros b H.
  - rewrite (pick_nil b); [constructor|]. intros i. rewrite <- H. reflexivity.
  - pose proof (H j) as Hj. unfold pick at 1 in Hj. cbn [filter fst] in Hj. rewrite Nat.eqb_refl in Hj. cbn [map snd] in Hj.
    symmetry in Hj. destruct (pick_head _ _ _ _ Hj) as (b1 & b2 & -> & H1 & H2).
    apply Permutation_cons_app, IH. intros i. specialize (H i). rewrite pick_app in *.
    destruct (Nat.eqb j i) eqn:Hji.
    + apply Nat.eqb_eq in Hji. subst i. rewrite H1, H2. reflexivity.
    + unfold pick in H at 1 3. cbn [filter fst] in H. rewrite Hji in H. exact H.
Qed.
Lemma calls_unknown i k tr n : (forall x, In x tr -> (fst x < n)%nat) -> (n <= i)%nat -> calls_of i k tr = [].
Proof.
  intros H Hi. unfold calls_of, events_of. replace (filter (fun x => Nat.eqb (fst x) i) tr) with (@nil (nat * event)); [reflexivity|].
  symmetry. induction tr as [|x tr IH]; [reflexivity|]. cbn [filter].
  assert (Nat.eqb (fst x) i = false) as ->. { apply Nat.eqb_neq. pose proof (H x (or_introl eq_refl)). lia. }
  apply IH. intros y Hy. apply H. right. exact Hy.
Qed.
Lemma same_records conns sched k k' : Forall in_ok conns ->
  (k < length stores)%nat -> (k' < length stores)%nat ->
  (forall s h, In s stores -> s h = SvOk) ->
  (forall i c, nth_error conns i = Some c -> (turns_needed (length stores) c <= turns i sched)%nat) ->
  g_crashed (grun stores sched (ginit conns)) = false ->
  Permutation (history k (g_trace (grun stores sched (ginit conns)))) (history k' (g_trace (grun stores sched (ginit conns)))).
Proof.
  intros Hok Hk Hk' Hst Ht Hc. rewrite <- !tagged_history. apply Permutation_map, pick_permutation. intros i. rewrite !tagged_calls.
  destruct (nth_error conns i) as [c|] eqn:Hi.
  - assert (forall kk, forall j s h, (j < kk)%nat -> nth_error stores j = Some s -> s h = SvOk) as Hs.
    { intros kk j s h _ Hj. apply Hst. exact (nth_error_In _ _ Hj). }
    rewrite (storage_complete stores conns sched i c k Hok Hi Hk (Hs k) (Ht i c Hi) Hc).
    rewrite (storage_complete stores conns sched i c k' Hok Hi Hk' (Hs k') (Ht i c Hi) Hc). reflexivity.
  - assert (forall x, In x (g_trace (grun stores sched (ginit conns))) -> (fst x < length conns)%nat) as Hin.
    { apply grun_known; [cbn [ginit g_conns]; apply map_length|]. intros x []. }
    apply nth_error_None in Hi. rewrite !(calls_unknown i _ _ (length conns) Hin Hi). reflexivity.
Qed.
End Order.
