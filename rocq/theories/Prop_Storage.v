(** * Prop_Storage: C47, C52, C53, C63–C67 — the output side of the receiver. *)
From Coq Require Import String List Permutation.
From Verif Require Import GoBase Crc Float64 SubRecords Records Package Storage Server Connectors
  Spec_Bits Spec_Wf Spec_Rec Spec_Pkg Spec_Server Spec_Storage StorageFacts
  ServerFacts4 GlueServer WitnessServer Vectors.
Local Open Scope string_scope.
Local Open Scope N_scope.
Local Open Scope list_scope.

(** ** C47: positions that differ in the hemisphere are stored differently.
    Refuted: the same record for a northern and a southern latitude. *)
Theorem C47_hemisphere_refuted : forall E : go_env, exists b1 b2 p1 p2 l1 l2 e1 e2 rec ack,
  good b1 /\ good b2 /\ decodes_to b1 p1 /\ decodes_to b2 p2 /\
  pSFRD p1 = Some (FSds l1) /\ pSFRD p2 = Some (FSds l2) /\ positions l1 = [e1] /\ positions l2 = [e2] /\
  LAHS e1 = s0 /\ LAHS e2 = s1 /\
  (forall spare, process (mkSlice b1 spare) = PActs [ASave rec; AWrite ack]) /\
  (forall spare, process (mkSlice b2 spare) = PActs [ASave rec; AWrite ack]).
Proof. exact @hemisphere_refuted. Qed.

(** ** C52: Repository.Save.  [hists] are the records each storage has been
    handed so far; a storage may answer according to all of them. *)
Theorem C52_save_reaches_all : forall m stores hists,
  Forall2 (fun (st : saver) h => st (h ++ [m]) = SvOk) stores hists ->
  repo_save stores hists m = (map (fun h => h ++ [m]) hists, SvOk).
Proof. exact save_ok. Qed.
Theorem C52_save_stops_at_error : forall m bad h after ha o, bad (h ++ [m]) = o -> o <> SvOk ->
  forall before hb, Forall2 (fun (st : saver) h => st (h ++ [m]) = SvOk) before hb ->
  repo_save (before ++ bad :: after) (hb ++ h :: ha) m =
    (map (fun h => h ++ [m]) hb ++ (h ++ [m]) :: ha, o).
Proof. exact save_fails. Qed.
(** The same in every execution of the receiver: each completed Save of each
    connection called the storages in this way. *)
Theorem C52_in_every_execution : forall (E : go_env) stores conns sched i c, Forall in_ok conns ->
  nth_error conns i = Some c ->
  (turns_needed (length stores) c <= turns i sched)%nat ->
  g_crashed (grun stores sched (ginit conns)) = false ->
  performs (length stores) (fst (conn_exec c)) (events_of i (g_trace (grun stores sched (ginit conns)))).
Proof. exact @completion_events. Qed.
Definition ex_nav (n : N) : nav_record := mkNav [] [] n n 0 [] [] [] 0.
Example C52_example : repo_save [fun _ => SvOk; fun h => if (1 <? length h)%nat then SvErr else SvOk; fun _ => SvOk]
    [[ex_nav 1]; [ex_nav 1]; []] (ex_nav 2) = ([[ex_nav 1; ex_nav 2]; [ex_nav 1; ex_nav 2]; []], SvErr).
Proof. reflexivity. Qed.

(** ** C53: LoadStorages.  [cfg] lists the configuration map in the order in
    which the runtime iterates over it. *)
Theorem C53_loaded_iff : forall params (init : store_kind -> params -> bool) cfg l,
  load_storages params init [] cfg = (l, LdOk) <-> cfg <> [] /\ Forall2 (opened init) cfg l.
Proof. exact @loaded_iff. Qed.
Theorem C53_any_order : forall params (init : store_kind -> params -> bool) cfg cfg' l, Permutation cfg cfg' ->
  load_storages params init [] cfg = (l, LdOk) ->
  exists l', load_storages params init [] cfg' = (l', LdOk) /\ Permutation l l'.
Proof. exact @loaded_any_order. Qed.
Theorem C53_failure_reported : forall params (init : store_kind -> params -> bool) cfg l o, o <> LdOk ->
  load_storages params init [] cfg = (l, o) ->
  (cfg = [] /\ l = [] /\ o = LdInvalid) \/
  exists pre e post, cfg = pre ++ e :: post /\ Forall2 (opened init) pre l /\
    ((o = LdUnknown /\ forall k, ~ documented (fst e) k) \/
     (o = LdInitErr /\ exists k, documented (fst e) k /\ init k (snd e) = false)).
Proof. exact @load_failed. Qed.
Example C53_example : load_storages N (fun _ n => N.ltb n 5) [] [(text "redis", 1); (text "nats", 2)] =
  ([(KRedis, 1); (KNats, 2)], LdOk).
Proof. reflexivity. Qed.

(** ** C63: the configuration alone determines where records go.  Refuted: one
    wrong section next to a good one; whether the good storage is used depends
    on the iteration order of the map. *)
Theorem C63_config_determines_storages_refuted : exists (lib : lib_call -> bool) cfg cfg' c,
  Permutation cfg cfg' /\ c <> CnLog /\
  In c (main_connectors lib cfg) /\ ~ In c (main_connectors lib cfg') /\ main_connectors lib cfg' = [CnLog].
Proof.
  exists (fun _ => true), [(text "nats", Some [(text "topic", text "x")]); (text "kafka", None)],
    [(text "kafka", None); (text "nats", Some [(text "topic", text "x")])], (CnNats [] (text "x")).
  split; [constructor|]. split; [discriminate|]. split; [left; reflexivity|].
  assert (main_connectors (fun _ => true) [(text "kafka", None); (text "nats", Some [(text "topic", text "x")])] = [CnLog]) as -> by reflexivity.
  split; [|reflexivity]. intros [H|[]]. discriminate H.
Qed.
(** Partial: when every section is good, exactly the configured connectors are
    used, in any order. *)
Theorem C63_config_determines_storages_partial : forall lib cfg, cfg <> [] ->
  Forall (fun e => exists k c, documented (fst e) k /\ connector_init lib k (snd e) = Some c) cfg ->
  (exists cs, main_connectors lib cfg = cs /\
    Forall2 (fun e c => exists k, documented (fst e) k /\ connector_init lib k (snd e) = Some c) cfg cs) /\
  forall cfg', Permutation cfg cfg' -> Permutation (main_connectors lib cfg) (main_connectors lib cfg').
Proof. exact main_all_good. Qed.
(** Exactly: the order of the map does not matter if and only if all sections are
    good or none is. *)
Theorem C63_order_irrelevant_iff : forall lib cfg, cfg <> [] ->
  ((forall cfg', Permutation cfg cfg' -> Permutation (main_connectors lib cfg) (main_connectors lib cfg')) <->
   Forall (fun e => exists k c, documented (fst e) k /\ connector_init lib k (snd e) = Some c) cfg \/
   Forall (fun e => ~ exists k c, documented (fst e) k /\ connector_init lib k (snd e) = Some c) cfg).
Proof. exact order_matters. Qed.
Example C63_example : main_connectors (fun _ => true) [(text "nats", Some []); (text "nsq", Some [])] = [CnNats [] []; CnNsq [] []].
Proof. reflexivity. Qed.

(** ** C64: a redis section without "db" uses database 0.  Refuted: it is
    refused; exactly the sections with all three of server, db and queue are
    accepted. *)
Theorem C64_redis_db_default_refuted : forall lib addr q,
  connector_init lib KRedis (Some [(text "server", addr); (text "queue", q)]) = None.
Proof. reflexivity. Qed.
Theorem C64_redis_accepted_iff : forall lib m c, connector_init lib KRedis (Some m) = Some c <->
  exists addr d db q, mget m (text "server") = Some addr /\ mget m (text "db") = Some d /\ numeral d db /\
    mget m (text "queue") = Some q /\ c = CnRedis addr (setting m "password") db q.
Proof. exact redis_init_iff. Qed.

(** ** C65: when the backend refuses a record, Save returns an error; the
    receiver survives.  Refuted for redis: the process dies, with every
    connection. *)
Theorem C65_backend_failure_survived_refuted : forall (E : go_env) addr password db queue
    (tobytes : nav_record -> bytes) (others : list conn_in) sched,
  let store : saver := fun h => snd (connector_save (fun _ => false) (CnRedis addr password db queue) (Some (tobytes (last h (ex_nav 0))))) in
  exists b, good b /\
  g_crashed (grun [store] (0%nat :: 0%nat :: sched) (ginit (mkIn [b] COpen :: others))) = true.
Proof.
  intros E addr password db queue tobytes others sched store. exists north. split; [exact north_good|].
  apply panic_crashes. reflexivity.
Qed.
Theorem C65_backend_failure_survived_partial : forall lib c msg, (forall a p d q, c <> CnRedis a p d q) ->
  snd (connector_save lib c msg) =
    match msg with
    | None => SvErr
    | Some b => match publish_call c b with
                | None => SvOk
                | Some call => if lib call then SvOk else SvErr
                end
    end.
Proof.
  intros lib c [b|] H; [|reflexivity]. unfold connector_save. destruct c; try reflexivity.
  exfalso. eapply H. reflexivity.
Qed.

(** ** C66: every connector hands over exactly the serialised record, once, to
    the configured destination. *)
Theorem C66_destination : forall lib k m c, connector_init lib k (Some m) = Some c ->
  forall lib' b, exists call, fst (connector_save lib' c (Some b)) = Some call /\ destination k m b call.
Proof.
  intros lib k m c H lib' b. destruct (destination_of lib k m c b H) as (call & Hc & Hd).
  exists call. unfold connector_save. rewrite Hc. auto.
Qed.
(** The section opens exactly when the library accepts a connection made with
    the configured address, credentials and times. *)
Theorem C66_opened_exactly : forall lib k m,
  (exists c, connector_init lib k (Some m) = Some c) <-> opens lib k m.
Proof.
  intros lib k m. destruct k; cbn [connector_init init_rabbit init_pg init_nats init_nsq init_tnt init_redis]; unfold opens; cbv zeta.
  - fold (amqp_url m). change (text "amqp://" ++ _) with (amqp_url m).
    destruct (lib (LAmqpDial (amqp_url m))); cbn [negb]; [|split; [intros [c H]; discriminate|intros [H _]; discriminate]].
    destruct (lib (LAmqpChannel (amqp_url m))); cbn [negb]; [|split; [intros [c H]; discriminate|intros [_ H]; discriminate]].
    split; [auto|intros _; eexists; reflexivity].
  - change (text "dbname=" ++ _) with (pg_dsn m).
    destruct (lib (LPgOpen (pg_dsn m))); cbn [negb]; [|split; [intros [c H]; discriminate|intros [H _]; discriminate]].
    destruct (lib (LPgPing (pg_dsn m))); cbn [negb]; [|split; [intros [c H]; discriminate|intros [_ H]; discriminate]].
    split; [auto|intros _; eexists; reflexivity].
  - assert (Hu : nats_user m = match mget m (text "user"), mget m (text "password") with Some u, Some p => Some (u, p) | _, _ => None end).
    { unfold nats_user. change (text "user") with k_user. change (text "password") with k_password.
      destruct (mget m k_user); reflexivity. }
    rewrite <- Hu. change (text "EGTS handler, topic: " ++ setting m "topic") with (nats_name m). change (setting m "servers") with (mval m k_servers).
    destruct (lib _); cbn [negb]; split; try discriminate; try (intros [c H]; discriminate); intros _; [reflexivity|eexists; reflexivity].
  - change (setting m "server") with (mval m k_server).
    destruct (lib _); cbn [negb]; split; try discriminate; try (intros [c H]; discriminate); intros _; [reflexivity|eexists; reflexivity].
  - change (setting m "host" ++ text ":" ++ setting m "port") with (tnt_addr m).
    change (setting m "timeout") with (mval m k_timeout). change (setting m "reconnect") with (mval m k_reconnect).
    change (setting m "max_recons") with (mval m k_max_recons). change (setting m "user") with (mval m k_user). change (setting m "password") with (mval m k_password).
    split.
    + intros [c H]. destruct (atoi (mval m k_max_recons)) as [n|] eqn:Hn; [|discriminate].
      destruct (atoi (mval m k_timeout)) as [t|] eqn:Ht; [|discriminate]. destruct (atoi (mval m k_reconnect)) as [r|] eqn:Hr; [|discriminate].
      destruct (lib (LTntConnect (tnt_addr m) t r n (mval m k_user) (mval m k_password))) eqn:Hl; [|discriminate].
      exists t, r, n. split; [apply atoi_numeral; exact Ht|]. split; [apply atoi_numeral; exact Hr|]. split; [apply atoi_numeral; exact Hn|exact Hl].
    + intros (t & r & n & Ht & Hr & Hn & Hl). apply atoi_numeral in Ht, Hr, Hn. rewrite Hn, Ht, Hr, Hl. eexists. reflexivity.
  - change (text "server") with k_server. change (text "queue") with k_queue. change (setting m "db") with (mval m k_db). split.
    + intros [c H]. destruct (mget m k_server); [|discriminate]. cbn [negb] in H.
      destruct (atoi (mval m k_db)) as [db|] eqn:Hd; [|discriminate]. destruct (mget m k_queue); [|discriminate].
      exists db. split; [discriminate|]. split; [discriminate|apply atoi_numeral; exact Hd].
    + intros (db & Hs & Hq & Hd). destruct (mget m k_server); [|congruence]. cbn [negb]. apply atoi_numeral in Hd. rewrite Hd.
      destruct (mget m k_queue); [eexists; reflexivity|congruence].
Qed.
(** With credentials that are only half configured, none are used. *)
Example C66_opened_example : opens (fun call => match call with LNatsConnect srv _ None => str_eqb srv (text "nats://h:4222") | _ => false end) KNats
  [(text "servers", text "nats://h:4222"); (text "topic", text "egts"); (text "user", text "u")].
Proof. reflexivity. Qed.
Example C66_example : connector_init (fun _ => true) KRedis
    (Some [(text "server", text "h:1"); (text "queue", text "egts"); (text "db", text "-07")]) =
  Some (CnRedis (text "h:1") [] (-7) (text "egts")).
Proof. reflexivity. Qed.

(** ** C67: an empty section (a nil map) is refused by every connector, before
    any library call. *)
Theorem C67_empty_section_refused : forall lib k, connector_init lib k None = None.
Proof. intros lib []; reflexivity. Qed.
Print Assumptions C47_hemisphere_refuted.
Print Assumptions C52_save_reaches_all.
Print Assumptions C52_save_stops_at_error.
Print Assumptions C52_in_every_execution.
Print Assumptions C53_loaded_iff.
Print Assumptions C53_any_order.
Print Assumptions C53_failure_reported.
Print Assumptions C63_config_determines_storages_refuted.
Print Assumptions C63_config_determines_storages_partial.
Print Assumptions C63_order_irrelevant_iff.
Print Assumptions C64_redis_db_default_refuted.
Print Assumptions C64_redis_accepted_iff.
Print Assumptions C65_backend_failure_survived_refuted.
Print Assumptions C65_backend_failure_survived_partial.
Print Assumptions C66_destination.
Print Assumptions C66_opened_exactly.
Print Assumptions C67_empty_section_refused.
