(** * Prop_Main: C85-C87 — the receiver process as a whole, from its
    configuration to the calls of the storage client libraries. *)
From Coq Require Import String List Lia.
From Verif Require Import GoBase Crc Float64 SubRecords Records Package Storage Connectors Json Server Config Main
  Spec_Rec Spec_Pkg Spec_Server Spec_Storage Spec_Json Spec_Main StorageFacts ServerFacts4 GlueServer GlueServer2 MainFacts TimeFacts
  WitnessServer Vectors Prop_Server Prop_Json Spec_Stream Prop_Stream.
Local Open Scope string_scope.
Local Open Scope N_scope.
Local Open Scope list_scope.

(** ** C85: start-up.  Without a readable configuration the process exits.
    Otherwise it serves the configured address with the storages of the sections
    that open, up to the first that does not (in the order in which the runtime
    iterates over the map); the log storage is added exactly when some section
    does not open or there is none.  It never serves without a storage. *)
Theorem C85_startup : forall lib new path,
  (main_start lib new path = StFatal <-> path = [] \/ new path = None) /\
  forall addr ttl level cs, main_start lib new path = StServe addr ttl level cs ->
  exists cfg, new path = Some cfg /\
    addr = cfHost (cg_settings cfg) ++ text ":" ++ cfPort (cg_settings cfg) /\
    ((- 2 ^ 63 <= cfConnTTL (cg_settings cfg) * 1000000000 < 2 ^ 63)%Z -> ttl = (cfConnTTL (cg_settings cfg) * 1000000000)%Z) /\
    cs <> [] /\
    exists pre post opened, cg_store cfg = pre ++ post /\ Forall2 (section_opens lib) pre opened /\
      ((post = [] /\ pre <> [] /\ cs = opened) \/
       (cs = opened ++ [CnLog] /\
        (cg_store cfg = [] \/ exists e rest, post = e :: rest /\ forall c, ~ section_opens lib e c))).
Proof.
  intros lib new path. split.
  - destruct path as [|a path]; [cbn; intuition|]. cbn [main_start].
    destruct (new (a :: path)); split; try discriminate; try tauto; intros [H|H]; discriminate.
  - intros addr ttl level cs H. destruct path as [|a path]; [discriminate|]. cbn [main_start] in H.
    destruct (new (a :: path)) as [cfg|] eqn:Hn; [|discriminate]. injection H as <- <- <- <-.
    exists cfg. split; [reflexivity|]. split; [apply get_addr_text|]. split; [apply get_ttl_exact|].
    destruct (main_exact lib (cg_store cfg)) as (pre & post & cs0 & H1 & H2 & H3). split; [|exists pre, post, cs0; auto].
    destruct H3 as [(_ & Hne & ->)|(-> & _)]; [|destruct cs0; discriminate].
    destruct H2; [congruence|discriminate].
Qed.
Example C85_example :
  main_start (fun _ => true) (fun _ => Some (mkConfig (mkSettings (text "h") (text "6000") 10 (text "DEBUG"))
     [(text "nats", Some [(text "servers", text "n"); (text "topic", text "t")]); (text "kafka", Some []); (text "nsq", Some [])])) (text "c.yaml")
  = StServe (text "h:6000") 10000000000 DebugLevel [CnNats (text "n") (text "t"); CnLog].
Proof. reflexivity. Qed.

Lemma section_conn lib new path cfg addr ttl level cs k name m kind conn :
  new path = Some cfg -> main_start lib new path = StServe addr ttl level cs ->
  Forall (fun e => exists c, section_opens lib e c) (cg_store cfg) ->
  nth_error (cg_store cfg) k = Some (name, Some m) -> documented name kind -> nth_error cs k = Some conn ->
  connector_init lib kind (Some m) = Some conn.
Proof.
  intros Hn Hst Hall Hk Hdoc Hcn.
  destruct path as [|a path]; [discriminate|]. cbn [main_start] in Hst. rewrite Hn in Hst. injection Hst as _ _ _ Hcs'.
    destruct (main_exact lib (cg_store cfg)) as (pre & post & cs0 & H1 & H2 & H3). rewrite Hcs' in H3.
    assert (post = []) as ->.
    { destruct H3 as [(H3 & _)|(_ & [H3|(e & rest & H3 & Hno)])]; [exact H3| |].
      - rewrite H3 in H1. symmetry in H1. apply app_eq_nil in H1. tauto.
      - rewrite H1 in Hall. apply Forall_app in Hall. destruct Hall as [_ Hall]. rewrite H3 in Hall.
        inversion Hall as [|? ? (c' & Hc') _]. destruct (Hno c' Hc'). }
    rewrite app_nil_r in H1.
    assert (Hcs0 : nth_error cs0 k = Some conn).
    { destruct H3 as [(_ & _ & ->)|(-> & [H3|(e & rest & H3 & _)])]; [exact Hcn| |discriminate].
      rewrite H3 in Hk. destruct k; discriminate. }
    rewrite H1 in Hk. clear - H2 Hk Hcs0 Hdoc. revert k Hk Hcs0. induction H2 as [|e st pre cs0 Ho _ IH]; intros [|k] Hk Hc0; try discriminate.
    - cbn in Hk, Hc0. injection Hk as ->. injection Hc0 as ->. destruct Ho as (kd & Hd & Hi). cbn [fst snd] in Hd, Hi.
      apply kind_documented in Hd, Hdoc. rewrite Hdoc in Hd. injection Hd as <-. exact Hi.
    - apply (IH k Hk Hc0).
Qed.
(** Every record handed to a storage serialises; with backends that accept
    everything every call succeeds and delivers it. *)
Lemma accepted_calls {E : go_env} rt jf cs conns sched : number_texts (rt_ft rt) jf -> Forall in_ok conns ->
  (forall k h call, rt_lib rt k h call = true) ->
  let tr := g_trace (grun (stores_of rt cs) sched (ginit conns)) in
  (forall j k n o, In (j, ECall k n o) tr -> o = SvOk) /\
  forall lib i k kind m conn, connector_init lib kind (Some m) = Some conn ->
    Forall2 (delivers jf kind m) (calls_of i k tr) (by_conn i (sent rt k conn tr)).
Proof.
  intros Hft Hok Hlib tr.
  assert (Hser : forall j k' n o, In (j, ECall k' n o) tr -> forall rdt, exists b v, to_bytes (rt_ft rt) rdt n = Some b /\
     read_json b = Some v /\ record_doc jf rdt n v).
  { intros j k' n o Hin rdt. exact (C80_record_serialises E (rt_ft rt) jf rdt _ _ _ _ _ _ _ Hft Hok Hin). }
  split.
  - intros j k' n o Hin. destruct (call_outcome _ _ _ _ _ _ _ Hin) as (st & h & Hs & ->).
    destruct (stores_from_nth _ _ _ _ _ Hs) as (cj & _ & ->). unfold store_of, save_last. rewrite last_last.
    destruct (Hser _ _ _ _ Hin (rt_time rt (0 + k')%nat (h ++ [n]))) as (b & v & Hb & _). rewrite Hb. unfold connector_save.
    destruct (publish_call cj b); [rewrite Hlib|]; reflexivity.
  - intros lib i k kind m conn Hinit. apply sent_calls. intros j n o Hin h. unfold save_last. rewrite last_last.
    destruct (Hser _ _ _ _ Hin (rt_time rt k (h ++ [n]))) as (b & v & Hb & Hj & Hd). rewrite Hb.
    destruct (destination_of lib kind m conn b Hinit) as (call & Hp & Hde). exists call. unfold connector_save. rewrite Hp.
    split; [reflexivity|]. exists b, (rt_time rt k (h ++ [n])), v. auto.
Qed.

(** ** C86: end to end.  A receiver whose sections all open and whose backends
    accept everything; clients that send well-framed packets on which Decode
    returns.  Once connection [i] has had its turns, what section number [k] has
    received from it is exactly: for each packet that reports positions, in order,
    one call to the configured destination carrying a JSON document of them;
    nothing for the other packets. *)
Theorem C86_end_to_end : forall (E : go_env) rt jf lib new path cfg addr ttl level cs conns sched i c pkts s k name m kind conn,
  number_texts (rt_ft rt) jf ->
  new path = Some cfg -> main_start lib new path = StServe addr ttl level cs ->
  Forall (fun e => exists c, section_opens lib e c) (cg_store cfg) ->
  nth_error (cg_store cfg) k = Some (name, Some m) -> documented name kind -> nth_error cs k = Some conn ->
  (forall k h call, rt_lib rt k h call = true) ->
  Forall (fun c => exists pkts s, carries c pkts s) conns -> nth_error conns i = Some c -> carries c pkts s ->
  (turns_needed (length cs) c <= turns i sched)%nat ->
  exists callss, Forall2 (packet_delivered jf kind m) pkts callss /\
    by_conn i (sent rt k conn (g_trace (grun (stores_of rt cs) sched (ginit conns)))) = concat callss.
Proof.
  intros E rt jf lib new path cfg addr ttl level cs conns sched i c pkts s k name m kind conn
    Hft Hn Hst Hall Hk Hdoc Hcn Hlib Hcs Hi Hc Ht.
  assert (Hok : Forall in_ok conns).
  { eapply Forall_impl; [|exact Hcs]. intros c' (pk & s' & H'). apply (carries_ok _ _ _ H'). }
  assert (Hlen : length (stores_of rt cs) = length cs) by apply stores_from_len.
  assert (Hncr : g_crashed (grun (stores_of rt cs) sched (ginit conns)) = false).
  { apply good_clients; [|exact Hcs]. intros st h Hin. apply In_nth_error in Hin. destruct Hin as (j & Hj).
    destruct (stores_from_nth _ _ _ _ _ Hj) as (cj & _ & ->). unfold store_of, save_last, connector_save.
    destruct (to_bytes _ _ _); [|discriminate]. destruct (publish_call cj _); [rewrite Hlib|]; discriminate. }
  assert (Hinit := section_conn _ _ _ _ _ _ _ _ _ _ _ _ _ Hn Hst Hall Hk Hdoc Hcn).
  destruct (accepted_calls rt jf cs conns sched Hft Hok Hlib) as (Hout & HR). specialize (HR lib i k kind m conn Hinit).
  set (tr := g_trace (grun (stores_of rt cs) sched (ginit conns))) in *.
  assert (Hcalls : calls_of i k tr = saves (fst (conn_exec c))).
  { change (calls_of i k tr) with (calls_ev k (events_of i tr)).
    apply (calls_performs (length (stores_of rt cs))).
    - apply completion_events; [exact Hok|exact Hi|rewrite Hlen; exact Ht|exact Hncr].
    - rewrite Hlen. apply nth_error_Some. congruence.
    - intros j n _ Hin. apply events_in in Hin. discriminate (Hout _ _ _ _ Hin). }
  destruct (carries_exec c pkts s Hc) as (actss & Ha & He & _). rewrite He, saves_concat in Hcalls.
  rewrite Hcalls in HR. destruct (forall2_concat_split _ _ _ HR) as (callss & Hcc & HF). exists callss. split; [|exact Hcc].
  destruct Hc as (_ & Hgd & _). clear - Ha HF Hgd. revert callss HF. induction Ha as [|b acts pkts actss Hb _ IH]; intros callss HF; inversion HF as [|x calls xs callss' H1 HF' E1 E2]; subst; constructor.
  - destruct (packet_saves b acts (Forall_inv Hgd) Hb) as (S1 & S2). split.
    + intros l Hl. destruct (S1 l Hl) as (rec & Hs & Hr). rewrite Hs in H1. inversion H1 as [|? call ? ? Hd Hnil]; subst. inversion Hnil; subst.
      exists rec, call. auto.
    + intros Hn. rewrite (S2 Hn) in H1. inversion H1. reflexivity.
  - apply IH; [exact (Forall_inv_tail Hgd)|exact HF'].
Qed.
(** Whatever connections they come from, the calls one storage gets are those
    for the records handed to it, in that order, each made knowing the earlier
    ones (its time of receipt, the state of its client). *)
Theorem C86_asked_in_order : forall rt k c tr,
  let handed := flat_map (fun x => match snd x with ECall k' n _ => if Nat.eqb k k' then [n] else [] | _ => [] end) tr in
  map snd (sent rt k c tr) =
    flat_map (fun j => match fst (save_last rt k c (firstn (S j) handed)) with Some call => [call] | None => [] end) (seq 0 (length handed)).
Proof.
  intros rt k c tr. cbv zeta. unfold sent.
  assert (H : forall hist, let handed := flat_map (fun x => match snd x with ECall k' n _ => if Nat.eqb k k' then [n] else [] | _ => [] end) tr in
    map snd (sent_from rt k c hist tr) =
    flat_map (fun j => match fst (save_last rt k c (firstn (S j) (hist ++ handed))) with Some call => [call] | None => [] end) (seq (length hist) (length handed))).
  { induction tr as [|[i e] tr IH]; intros hist; [reflexivity|]. cbv zeta in *.
    cbn [sent_from flat_map snd]. destruct e as [b|k' n o|n o]; cbn [app]; [apply IH| |apply IH].
    destruct (Nat.eqb k k'); cbn [app]; [|apply IH].
    cbn [length seq flat_map]. rewrite map_app, IH.
    f_equal.
    - rewrite firstn_app, (firstn_all2 hist) by lia. replace (S (length hist) - length hist)%nat with 1%nat by lia. cbn [firstn].
      destruct (fst (save_last rt k c (hist ++ [n]))); reflexivity.
    - rewrite app_length. cbn [length]. rewrite Nat.add_1_r, <- app_assoc. reflexivity. }
  apply (H []).
Qed.
(** one packet of the repository's own tests, through nats and redis *)
Definition ex_sections : list (gostr * section) :=
  [(text "nats", Some [(text "servers", text "n"); (text "topic", text "t")]);
   (text "redis", Some [(text "server", text "r"); (text "db", text "0"); (text "queue", text "q")])].
Definition ex_config : config := mkConfig (mkSettings (text "h") (text "6000") 10 (text "INFO")) ex_sections.
Definition ex_rt : runtime := mkRt demo_ft (fun _ _ => text "now") (fun _ _ _ => true).
Example C86_example : exists cs, main_start (fun _ => true) (fun _ => Some ex_config) (text "c") = StServe (text "h:6000") 10000000000 InfoLevel cs /\
  Forall (fun e => exists c, section_opens (fun _ => true) e c) ex_sections /\
  let tr := g_trace (grun (stores_of ex_rt cs) (repeat 0%nat 12) (ginit [mkIn [vec_msg] CEof])) in
  match map (fun x => sent ex_rt (fst x) (snd x) tr) (combine [0; 1]%nat cs) with
  | [[(O, LNatsPublish s t b)]; [(O, LRedisPublish a p d q b')]] =>
      str_eqb s (text "n") && str_eqb t (text "t") && str_eqb q (text "q") && str_eqb b b' &&
      match read_json b with Some (JObj _) => true | _ => false end
  | _ => false
  end = true.
Proof.
  eexists. split; [reflexivity|]. split; [|vm_compute; reflexivity].
  repeat constructor; eexists; eexists; (split; [constructor|reflexivity]).
Qed.

(** ** C87: an acknowledged position was handed to a configured backend.
    Refuted: a section that does not open (here an unknown name) hides the good
    ones after it; the process serves and acknowledges, and makes no library call
    at all. *)
Lemma log_sends_nothing rt k tr : forall hist, sent_from rt k CnLog hist tr = [].
Proof.
  induction tr as [|[j e] tr IH]; intros hist; [reflexivity|]. destruct e as [b|k' n o|n o]; cbn [sent_from]; try apply IH.
  destruct (Nat.eqb k k'); [|apply IH]. rewrite IH. unfold save_last, connector_save. destruct (to_bytes _ _ _); reflexivity.
Qed.
Lemma log_acks {E : go_env} rt b p l n : good b -> decodes_to b p -> pSFRD p = Some (FSds l) -> confirms l = false ->
  n = turns_needed 1 (mkIn [b] COpen) ->
  exists ack svc, is_ack ack (word_at b 7) 0 svc (map RN l) /\
    In (0%nat, EWrite ack) (g_trace (grun (stores_of rt [CnLog]) (repeat 0%nat n) (ginit [mkIn [b] COpen]))).
Proof.
  intros Hg Hdt Hl Hc Hn.
  destruct (process_app b [] p l Hg Hdt Hl) as (acts & Hp & Hpid & Ha).
  assert (Hex := exec_one b COpen acts Hg Hp).
  unfold app_actions in Ha. rewrite Hc in Ha.
  destruct Ha as (rec & ack & Hacts & _ & _ & _ & _ & _ & _ & _ & _ & _ & svc & Hi & _).
  exists ack, svc. split; [rewrite <- Hpid; exact Hi|].
  assert (Hok : Forall in_ok [mkIn [b] COpen]).
  { constructor; [|constructor]. unfold in_ok. cbn [ci_chunks concat]. rewrite app_nil_r. exact (good_b_ok _ Hg). }
  assert (Hcr : g_crashed (grun (stores_of rt [CnLog]) (repeat 0%nat n) (ginit [mkIn [b] COpen])) = false).
  { apply good_clients.
    - intros st h [<- |[]]. unfold store_of, save_last, connector_save. destruct (to_bytes _ _ _); discriminate.
    - constructor; [|constructor]. exists [b], []. split; [cbn [ci_chunks concat]; rewrite !app_nil_r; reflexivity|].
      split; [constructor; [exact Hg|constructor]|]. left. split; [reflexivity|]. left. cbn. lia. }
  assert (Hact := completion (stores_of rt [CnLog]) [mkIn [b] COpen] (repeat 0%nat n) 0 _ Hok eq_refl).
  rewrite Hex in Hact. cbn [fst] in Hact.
  assert (Hin : In (AWrite ack) (actions_of 0 (g_trace (grun (stores_of rt [CnLog]) (repeat 0%nat n) (ginit [mkIn [b] COpen]))))).
  { rewrite Hact; [|unfold turns; rewrite count_occ_repeat_eq by reflexivity; rewrite Hn; apply Nat.le_refl|exact Hcr].
    subst acts. apply in_or_app. right. left. reflexivity. }
  unfold actions_of in Hin. apply in_flat_map in Hin. destruct Hin as (ev & Hev & Hw).
  destruct ev as [w|? ? ?|? ?]; try (destruct Hw as [Hw|[]]; discriminate Hw); try contradiction.
  destruct Hw as [Hw|[]]. injection Hw as ->. unfold events_of in Hev. apply in_map_iff in Hev.
  destruct Hev as ([j ev] & Hs & Hf). cbn [snd] in Hs. subst ev. apply filter_In in Hf. destruct Hf as [Hf Hj].
  cbn [fst] in Hj. apply Nat.eqb_eq in Hj. subst j. exact Hf.
Qed.
Theorem C87_ack_means_handed_over_refuted : forall (E : go_env) rt, exists cfg e c b l sched ack svc,
  In e (cg_store cfg) /\ section_opens (fun _ => true) e c /\
  exists addr ttl level cs, main_start (fun _ => true) (fun _ => Some cfg) (text "c.yaml") = StServe addr ttl level cs /\
  good b /\ reports b l /\
  let tr := g_trace (grun (stores_of rt cs) sched (ginit [mkIn [b] COpen])) in
  In (0%nat, EWrite ack) tr /\ is_ack ack (word_at b 7) 0 svc (map RN l) /\
  forall k conn, nth_error cs k = Some conn -> sent rt k conn tr = [].
Proof.
  intros E rt.
  assert (exists p l, pkg_decode pkg0 (mkSlice north []) = (p, DRet 0 false) /\ pSFRD p = Some (FSds l) /\
     positions l <> [] /\ confirms l = false) as (p & l & Hd & Hl & Hne & Hc).
  { do 2 eexists. split; [vm_compute; reflexivity|]. split; [reflexivity|]. split; [discriminate|]. reflexivity. }
  assert (Hdt := decodes_to_nil _ _ north_good Hd).
  destruct (log_acks rt north p l _ north_good Hdt Hl Hc eq_refl) as (ack & svc & Hi & Hin).
  assert (Hg := north_good). clear Hd. revert Hg Hdt Hi Hin. generalize north. intros b Hg Hdt Hi Hin.
  exists (mkConfig (cg_settings ex_config) ((text "kafka", Some []) :: ex_sections)).
  exists (text "nats", Some [(text "servers", text "n"); (text "topic", text "t")]), (CnNats (text "n") (text "t")), b, l.
  exists (repeat 0%nat (turns_needed 1 (mkIn [b] COpen))), ack, svc.
  split; [right; left; reflexivity|]. split; [exists KNats; split; [constructor|reflexivity]|].
  exists (text "h:6000"), 10000000000%Z, InfoLevel, [CnLog]. split; [reflexivity|]. split; [exact Hg|]. split; [exists p; auto|]. cbv zeta.
  split; [exact Hin|]. split; [exact Hi|].
  intros k conn Hk. assert (conn = CnLog) as ->.
  { clear - Hk. destruct k as [|[|k]]; [injection Hk as <-; reflexivity|discriminate Hk..]. }
  apply log_sends_nothing.
Qed.
(** Partial: when every section opens and the backends accept everything.  At
    every moment of every execution, a packet written to connection [i] answers a
    packet of that connection; if that one reports positions, each section has
    already received a JSON document holding them. *)
Theorem C87_ack_means_handed_over_partial : forall (E : go_env) rt jf lib new path cfg addr ttl level cs conns sched i c pkts s w,
  number_texts (rt_ft rt) jf ->
  new path = Some cfg -> main_start lib new path = StServe addr ttl level cs ->
  Forall (fun e => exists c, section_opens lib e c) (cg_store cfg) ->
  (forall k h call, rt_lib rt k h call = true) ->
  Forall in_ok conns -> nth_error conns i = Some c -> carries c pkts s ->
  let tr := g_trace (grun (stores_of rt cs) sched (ginit conns)) in
  In (i, EWrite w) tr ->
  exists b acts, In b pkts /\ packet_actions b acts /\ In (AWrite w) acts /\
    forall l, reports b l -> exists rec, Forall2 loc_stored (positions l) (nrLocs rec) /\
      forall k name m kind conn, nth_error (cg_store cfg) k = Some (name, Some m) -> documented name kind ->
        nth_error cs k = Some conn ->
        exists call, In call (by_conn i (sent rt k conn tr)) /\ delivers jf kind m rec call.
Proof.
  intros E rt jf lib new path cfg addr ttl level cs conns sched i c pkts s w Hft Hn Hst Hall Hlib Hok Hi Hc tr Hin.
  destruct (accepted_calls rt jf cs conns sched Hft Hok Hlib) as (Hout & HR). fold tr in Hout, HR.
  assert (Hev : In (EWrite w) (events_of i tr)).
  { unfold events_of. apply in_map_iff. exists (i, EWrite w). split; [reflexivity|]. apply filter_In. split; [exact Hin|apply Nat.eqb_refl]. }
  apply in_split in Hev. destruct Hev as (pre & post & Hev).
  destruct (save_before_ack (stores_of rt cs) conns sched i c pkts s Hok Hi Hc pre w post Hev) as (before & b & after & Hp & acts & Ha & Hw & Hs).
  exists b, acts. split; [rewrite Hp; apply in_or_app; right; left; reflexivity|]. split; [exact Ha|]. split; [exact Hw|].
  intros l (p & Hd & Hf & Hcf & Hpos). destruct (Hs p l Hd Hf Hpos) as (early & saving & late & rec & o & Hpre & Hone & Hloc).
  exists rec. split; [exact Hloc|]. intros k name m kind conn Hk Hdoc Hcn.
  assert (Hinit := section_conn _ _ _ _ _ _ _ _ _ _ _ _ _ Hn Hst Hall Hk Hdoc Hcn).
  specialize (HR lib i k kind m conn Hinit).
  assert (Hsub : forall e, In e saving -> In e (events_of i tr)).
  { intros e He. rewrite Hev. apply in_or_app. left. rewrite Hpre. apply in_or_app. right. apply in_or_app. left. exact He. }
  assert (Hrec : In rec (calls_of i k tr)).
  { unfold calls_of. apply in_flat_map. exists (ECall k rec SvOk). split.
    - apply Hsub. destruct Hone as [|k0 Hk0].
      + apply in_or_app. left. apply in_map_iff. exists k. split; [reflexivity|]. apply in_seq. split; [apply Nat.le_0_l|].
        unfold stores_of. rewrite stores_from_len. apply nth_error_Some. congruence.
      + exfalso. assert (Hbad : In (ECall k0 rec SvErr) (events_of i tr)).
        { apply Hsub. apply in_or_app. right. left. reflexivity. }
        apply events_in in Hbad. discriminate (Hout _ _ _ _ Hbad).
    - rewrite Nat.eqb_refl. left. reflexivity. }
  clear - HR Hrec. induction HR as [|n call ns calls Hd _ IH]; [destruct Hrec|].
  destruct Hrec as [-> |Hrec]; [exists call; split; [left; reflexivity|exact Hd]|].
  destruct (IH Hrec) as (call' & H1 & H2). exists call'. split; [right; exact H1|exact H2].
Qed.

(** ** C65, for the whole process: with any storages but redis, whatever the
    client libraries answer (errors at every call included), the receiver dies
    only of what a client sends (C91); otherwise every client gets the same
    answers, and the same records are handed to the storages, as with backends
    that never fail. *)
Lemma no_redis_no_panic {E : go_env} rt cs : (forall a p d q, ~ In (CnRedis a p d q) cs) ->
  forall st h, In st (stores_of rt cs) -> st h <> SvPanic.
Proof.
  intros Hr st h Hin. apply In_nth_error in Hin as (k & Hk). unfold stores_of in Hk. apply stores_from_nth in Hk as (c & Hc & ->).
  unfold store_of, save_last, connector_save. apply nth_error_In in Hc.
  destruct (to_bytes _ _ _) as [b|]; [|discriminate]. destruct c; cbn; try (destruct (rt_lib _ _ _ _); discriminate); try discriminate.
  exfalso. exact (Hr _ _ _ _ Hc).
Qed.
Theorem C65_receiver_goes_on_partial : forall (E : go_env) rt cs conns sched,
  (forall a p d q, ~ In (CnRedis a p d q) cs) -> Forall in_ok conns ->
  (forall c, In c conns -> ~ poisonous (concat (ci_chunks c))) ->
  g_crashed (grun (stores_of rt cs) sched (ginit conns)) = false /\
  forall i c rt', nth_error conns i = Some c -> (turns_needed (length cs) c <= turns i sched)%nat ->
    actions_of i (g_trace (grun (stores_of rt cs) sched (ginit conns))) =
    actions_of i (g_trace (grun (stores_of rt' cs) sched (ginit conns))).
Proof.
  intros E rt cs conns sched Hr Hok Hp.
  assert (Hlen : forall rt', length (stores_of rt' cs) = length cs) by (intros rt'; apply stores_from_len).
  assert (Hnc : forall rt', g_crashed (grun (stores_of rt' cs) sched (ginit conns)) = false).
  { intros rt'. destruct (g_crashed _) eqn:Hc; [|reflexivity]. exfalso.
    destruct (proj1 (C91_process_dies_iff E (stores_of rt' cs) conns Hok (no_redis_no_panic rt' cs Hr))) as (i & c & Hi & Hb); [exists sched; exact Hc|].
    exact (Hp c (nth_error_In _ _ Hi) Hb). }
  split; [apply Hnc|]. intros i c rt' Hi Ht. destruct (C50_isolation E c) as (acts & Ha).
  rewrite (proj2 (Ha (stores_of rt cs) conns sched i Hok Hi)); [|rewrite Hlen; exact Ht|apply Hnc].
  rewrite (proj2 (Ha (stores_of rt' cs) conns sched i Hok Hi)); [reflexivity|rewrite Hlen; exact Ht|apply Hnc].
Qed.
Example C65_goes_on_example : forall E : go_env, let c := mkIn [north; south ++ [1]] CEof in
  in_ok c /\ ~ poisonous (concat (ci_chunks c)).
Proof.
  intros E c. assert (Hok : in_ok c) by (vm_compute; reflexivity). split; [exact Hok|]. intros Hp.
  destruct (proj2 (C91_process_dies_iff E [] [c] (Forall_cons _ Hok (Forall_nil _)) (fun s h Hin => match Hin with end))) as (sched & Hc).
  { exists 0%nat, c. split; [reflexivity|exact Hp]. }
  rewrite (C49_no_crash_partial E [] [c] sched) in Hc; [discriminate|intros st h []|].
  constructor; [|constructor]. exists [north; south], [1]. exact (C39_example E).
Qed.
Print Assumptions C85_startup.
Print Assumptions C86_end_to_end.
Print Assumptions C86_asked_in_order.
Print Assumptions C87_ack_means_handed_over_refuted.
Print Assumptions C87_ack_means_handed_over_partial.
Print Assumptions C65_receiver_goes_on_partial.
