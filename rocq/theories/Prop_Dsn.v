(** * Prop_Dsn: C121 — the settings of the postgresql section reach the driver. *)
From Coq Require Import String List Lia Bool ZifyBool ZifyN.
From Verif Require Import GoBase Float64 Storage Connectors Dsn Spec_Storage Spec_Yaml Spec_Dsn StorageFacts YamlFacts DsnFacts.
Local Open Scope string_scope.
Local Open Scope N_scope.
Local Open Scope list_scope.

(** ** C121: the database server is addressed with the database, host, port,
    user, password and sslmode of the section.  Refuted: an empty password
    (trusted authentication) makes the driver take "sslmode=disable" for the
    password and leaves it without an sslmode; a password with a space is
    refused, or changes other parameters. *)
Definition pg_section (password : string) : list (gostr * gostr) :=
  [(text "host", text "localhost"); (text "port", text "5432"); (text "user", text "postgres"); (text "password", text password);
   (text "database", text "receiver"); (text "table", text "points"); (text "sslmode", text "disable")].
Theorem C121_settings_reach_driver_refuted : forall lib, (forall call, lib call = true) ->
  (exists query o, connector_init lib KPostgres (Some (pg_section "")) = Some (CnPg (pg_dsn (pg_section "")) query) /\
     pq_read (pg_dsn (pg_section "")) = Some o /\
     given o (text "password") = Some (text "sslmode=disable") /\ given o (text "sslmode") = None) /\
  pq_read (pg_dsn (pg_section "my secret")) = None /\
  (exists o, pq_read (pg_dsn (pg_section "x dbname=other")) = Some o /\
     given o (text "password") = Some (text "x") /\ given o (text "dbname") = Some (text "other")).
Proof.
  intros lib Hlib. split; [|split].
  - eexists _, _. split; [unfold connector_init, init_pg; rewrite !Hlib; reflexivity|]. split; [vm_compute; reflexivity|]. split; reflexivity.
  - vm_compute. reflexivity.
  - eexists. split; [vm_compute; reflexivity|]. split; reflexivity.
Qed.

(** Exactly: the driver opened for a section is given each of its settings if
    and only if none contains white space or a backslash or begins with a quote,
    and none but sslmode is empty. *)
Theorem C121_settings_reach_driver_exactly : forall lib m dsn query,
  connector_init lib KPostgres (Some m) = Some (CnPg dsn query) ->
  Forall (fun ks => ascii_text (setting m (snd ks))) pg_parameters ->
  ((exists o, pq_read dsn = Some o /\ receives m o) <->
   Forall (fun ks => unquoted (setting m (snd ks)) /\ (snd ks <> "sslmode" -> setting m (snd ks) <> [])) pg_parameters).
Proof.
  intros lib m dsn query Hi _.
  assert (dsn = pg_dsn m) as ->.
  { cbn [connector_init] in Hi. unfold init_pg in Hi. destruct (lib (LPgOpen (pg_dsn m))); [|discriminate].
    destruct (lib (LPgPing (pg_dsn m))); [|discriminate]. injection Hi as <- _. reflexivity. }
  rewrite dsn_iff. unfold six, pg_parameters. cbn [map fst snd]. rewrite !tight_cons.
  assert (Hk : forall x, In x ["dbname"; "host"; "port"; "user"; "password"; "sslmode"] -> Forall key_char (text x)).
  { intros x Hx. cbn [In] in Hx. repeat (destruct Hx as [<-|Hx]; [repeat (constructor; [split; [reflexivity|discriminate]|]); constructor|]). destruct Hx. }
  rewrite !plain_unquoted. cbn [tight]. rewrite plain_unquoted. split.
  - intros (_ & H1 & N1 & _ & H2 & N2 & _ & H3 & N3 & _ & H4 & N4 & _ & H5 & N5 & _ & H6).
    repeat (constructor; [cbn [snd]; split; [assumption|intros Hn; first [assumption|congruence]]|]). constructor.
  - intros HF. repeat match goal with H : Forall _ (_ :: _) |- _ => apply Forall_cons_iff in H as [[? ?] ?]; cbn [snd] in * end.
    repeat match goal with H : ?x <> "sslmode" -> _ |- _ => first [specialize (H ltac:(discriminate))|clear H] end.
    repeat (split; [first [apply Hk; cbn [In]; tauto|assumption]|]). assumption.
Qed.
(** Partial: with ordinary settings. *)
Theorem C121_settings_reach_driver_partial : forall lib m dsn query,
  connector_init lib KPostgres (Some m) = Some (CnPg dsn query) ->
  Forall (fun ks => ascii_text (setting m (snd ks)) /\ setting m (snd ks) <> [] /\ unquoted (setting m (snd ks))) pg_parameters ->
  exists o, pq_read dsn = Some o /\ receives m o.
Proof.
  intros lib m dsn query Hi HF. apply (C121_settings_reach_driver_exactly lib m dsn query Hi).
  - eapply Forall_impl; [|exact HF]. intros ks H. apply H.
  - eapply Forall_impl; [|exact HF]. intros ks (_ & H1 & H2). split; [exact H2|intros _; exact H1].
Qed.

(** The section of the connector's own documentation meets the hypotheses, and
    quoting works by hand. *)
Example C121_example : forall lib, (forall call, lib call = true) ->
  connector_init lib KPostgres (Some (pg_section "postgres")) = Some (CnPg (pg_dsn (pg_section "postgres")) (pg_query (pg_section "postgres"))) /\
  Forall (fun ks => ascii_text (setting (pg_section "postgres") (snd ks)) /\ setting (pg_section "postgres") (snd ks) <> [] /\
    unquoted (setting (pg_section "postgres") (snd ks))) pg_parameters /\
  pq_read (text "dbname=receiver host=localhost password='my secret' user=a\ b") =
    Some [(text "dbname", text "receiver"); (text "host", text "localhost"); (text "password", text "my secret"); (text "user", text "a b")].
Proof.
  intros lib Hlib. split; [unfold connector_init, init_pg; rewrite !Hlib; reflexivity|]. split.
  - assert (Hg : forall v, forallb (fun c => (c <? 128) && negb (pq_space c) && negb (c =? 92) && negb (c =? 39)) v = true -> v <> [] ->
      ascii_text v /\ v <> [] /\ unquoted v).
    { intros v Hv Hn. rewrite forallb_forall in Hv. split; [|split; [exact Hn|split]].
      - apply Forall_forall. intros c Hc. specialize (Hv c Hc). lia.
      - apply Forall_forall. intros c Hc. specialize (Hv c Hc). unfold pq_space in Hv. unfold white. lia.
      - intros v' ->. specialize (Hv 39 (or_introl eq_refl)). discriminate. }
    repeat (constructor; [apply Hg; [vm_compute; reflexivity|vm_compute; discriminate]|]). constructor.
  - vm_compute. reflexivity.
Qed.
Print Assumptions C121_settings_reach_driver_refuted.
Print Assumptions C121_settings_reach_driver_exactly.
Print Assumptions C121_settings_reach_driver_partial.
