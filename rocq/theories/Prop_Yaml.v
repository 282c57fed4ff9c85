(** * Prop_Yaml: C119, C120 — the configuration file. *)
From Coq Require Import String List Lia.
From Verif Require Import GoBase Float64 Storage Connectors Config Main Server Yaml Spec_Storage Spec_Main Spec_Yaml StorageFacts YamlFacts.
Local Open Scope string_scope.
Local Open Scope N_scope.
Local Open Scope list_scope.

(** The file configs/receiver.yaml:1-6, which README.md:77-84 also shows; all of
    its storage sections are commented out. *)
Definition shipped : ynode :=
  YMap [(text "host", YStr (text "127.0.0.1")); (text "port", YStr (text "6000"));
        (text "con_live_sec", YInt 10 (text "10")); (text "log_level", YStr (text "DEBUG")); (text "storage", YNull)].

(** ** C119: what is written in the configuration file takes effect, or the
    process refuses to start.  Refuted by the file that is shipped: it gives the
    time to live under a name the program does not know, which passes
    unnoticed, and the receiver runs with none. *)
Theorem C119_written_takes_effect_refuted :
  (exists c, config_new (Some shipped) = Some c /\ cfConnTTL (cg_settings c) = 0%Z) /\
  (forall lib, main_start lib (fun _ => config_new (Some shipped)) (text "configs/receiver.yaml")
     = StServe (text "127.0.0.1:6000") 0 DebugLevel [CnLog]) /\
  forall l1 l2 k n, unknown k -> config_new (Some (YMap (l1 ++ (k, n) :: l2))) = config_new (Some (YMap (l1 ++ l2))).
Proof.
  split; [|split].
  - eexists. split; reflexivity.
  - intros lib. reflexivity.
  - intros l1 l2 k n Hk. cbn [config_new]. rewrite !y_fields_app. destruct (y_fields config0 l1) as [c|]; [|reflexivity].
    cbn [y_fields]. rewrite y_field_other by (apply unknown_false; exact Hk). reflexivity.
Qed.

(** What holds.  The file is accepted exactly if it is empty or a mapping in
    which every documented parameter has a value of its kind; then each setting
    is what the document says under the documented name (the last time it says
    so, nothing if it does not), and the storages are the sections it lists. *)
Theorem C119_accepted_partial : forall doc,
  (exists c, config_new (Some doc) = Some c) <-> doc = YNull \/ exists l, doc = YMap l /\ well_typed l.
Proof.
  intros doc. split.
  - intros [c H]. destruct doc as [| | | | |l|]; cbn [config_new] in H; try discriminate; [left; reflexivity|right].
    exists l. split; [reflexivity|]. apply (y_fields_total l config0). exists c. exact H.
  - intros [->|[l [-> H]]]; [eexists; reflexivity|]. cbn [config_new]. apply y_fields_total. exact H.
Qed.
Theorem C119_settings_partial : forall l c, config_new (Some (YMap l)) = Some c ->
  text_of l "host" (cfHost (cg_settings c)) /\ text_of l "port" (cfPort (cg_settings c)) /\
  number_of l "conn_ttl" (cfConnTTL (cg_settings c)) /\ text_of l "log_level" (cfLogLevel (cg_settings c)) /\
  exists e, configured l e /\ holds section_says e (cg_store c).
Proof. intros l c H. exact (inv_run l [] config0 c inv0 H). Qed.
(** An empty file: nothing is set, and the positions go to the log. *)
Theorem C119_empty_partial : forall lib path, path <> [] ->
  main_start lib (fun _ => config_new (Some YNull)) path = StServe (text ":") 0 InfoLevel [CnLog].
Proof. intros lib [|a path] H; [congruence|reflexivity]. Qed.

(** ** C120: every configuration can be written: some file makes the process
    use exactly these settings and these storages. *)
Theorem C120_expressible : forall t c, config_value c -> config_new (Some (written t c)) = Some c.
Proof. exact config_written. Qed.
(** Two files that say the same under every documented name set the same
    address, time to live and log level, whatever else they contain and in
    whatever order. *)
Theorem C120_settings_determined : forall l l' c c', config_new (Some (YMap l)) = Some c -> config_new (Some (YMap l')) = Some c' ->
  (forall k kind, parameter k kind -> given l k = given l' k) ->
  cg_settings c = cg_settings c'.
Proof.
  intros l l' c c' H H' Hg. apply C119_settings_partial in H as (H1 & H2 & H3 & H4 & _). apply C119_settings_partial in H' as (H1' & H2' & H3' & H4' & _).
  assert (Hs : forall n s s', says n s -> says n s' -> s = s') by (intros n s s' [] G; inversion G; reflexivity).
  assert (Hc : forall n s s', counts n s -> counts n s' -> s = s') by (intros n s s' [] G; inversion G; reflexivity).
  unfold text_of, number_of in *. rewrite <- (Hg _ _ par_host) in H1'. rewrite <- (Hg _ _ par_port) in H2'.
  rewrite <- (Hg _ _ par_conn_ttl) in H3'. rewrite <- (Hg _ _ par_log_level) in H4'.
  destruct (cg_settings c) as [h p t v], (cg_settings c') as [h' p' t' v']. cbn [cfHost cfPort cfConnTTL cfLogLevel] in *.
  assert (h = h') as -> by (destruct (given l (text "host")); [eapply Hs; eassumption|congruence]).
  assert (p = p') as -> by (destruct (given l (text "port")); [eapply Hs; eassumption|congruence]).
  assert (t = t') as -> by (destruct (given l (text "conn_ttl")); [eapply Hc; eassumption|congruence]).
  assert (v = v') as -> by (destruct (given l (text "log_level")); [eapply Hs; eassumption|congruence]).
  reflexivity.
Qed.

(** cases: the file of config_test.go, with a number for the port of a section *)
Definition sample : ynode :=
  YMap [(text "host", YStr (text "127.0.0.1")); (text "port", YInt 5020 (text "5020")); (text "conn_ttl", YInt 10 (text "10"));
        (text "log_level", YStr (text "DEBUG"));
        (text "storage", YMap [(text "rabbitmq", YMap [(text "host", YStr (text "localhost")); (text "port", YInt 5672 (text "5672"))]);
                               (text "nsq", YNull)])].
Example C119_example :
  config_new (Some sample) = Some (mkConfig (mkSettings (text "127.0.0.1") (text "5020") 10 (text "DEBUG"))
    [(text "rabbitmq", Some [(text "host", text "localhost"); (text "port", text "5672")]); (text "nsq", None)]).
Proof. reflexivity. Qed.
(** a quoted number, a fractional one, a wrong shape, a repeated key *)
Example C119_example_kinds :
  config_new (Some (YMap [(text "conn_ttl", YStr (text "10"))])) = None /\
  config_new (Some (YMap [(text "conn_ttl", YFloat 2 (text "2.9"))])) = Some (mkConfig (mkSettings [] [] 2 []) []) /\
  config_new (Some (YMap [(text "host", YMap [])])) = None /\
  config_new (Some (YMap [(text "storage", YMap [(text "nats", YStr (text "x"))])])) = None /\
  config_new (Some (YMap [(text "port", YStr (text "1")); (text "port", YStr (text "2"))])) = Some (mkConfig (mkSettings [] (text "2") 0 []) []).
Proof. repeat split. Qed.
Example C119_example_unknown : unknown (text "con_live_sec") /\ well_typed [(text "con_live_sec", YSeq [])].
Proof.
  split; [intros kind H; apply par_inv in H; destruct H as [[H _]|[[H _]|[[H _]|[[H _]|[H _]]]]]; discriminate|].
  intros k n kind [He|[]] Hp; injection He as <- <-; apply par_inv in Hp; rename Hp into H; destruct H as [[H _]|[[H _]|[[H _]|[[H _]|[H _]]]]]; discriminate.
Qed.
Example C120_example : config_value (mkConfig (mkSettings (text "h") (text "1") 5 (text "WARN"))
  [(text "nats", Some [(text "topic", text "t"); (text "servers", text "s")]); (text "nsq", None)]).
Proof.
  split; [cbn; lia|]. split; [repeat constructor; cbn; intuition discriminate|].
  repeat constructor; cbn [snd]; intros m [= <-]; repeat constructor; cbn; intuition discriminate.
Qed.
Print Assumptions C119_written_takes_effect_refuted.
Print Assumptions C119_accepted_partial.
Print Assumptions C119_settings_partial.
Print Assumptions C119_empty_partial.
Print Assumptions C120_expressible.
Print Assumptions C120_settings_determined.
