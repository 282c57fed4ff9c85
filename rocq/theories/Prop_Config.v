(** * Prop_Config: C51, C59, C60 — timers, the accept loop, configuration. *)
From Coq Require Import String List.
From Verif Require Import GoBase Server Config Spec_Storage TimeFacts.
Local Open Scope string_scope.
Local Open Scope N_scope.
Local Open Scope list_scope.

(** ** C51: an idle connection is closed after conn_ttl.  Events carry their
    time; a packet at time t leaves the state [TReading (t + ttl)].
    Refuted: however long nothing arrives, the connection stays; it is closed by
    no history at all in which the peer keeps its side open. *)
Theorem C51_idle_closed_refuted : forall ttl t0 evs, Forall (fun ev : Z * tevent => snd ev = TTick) evs ->
  trun ttl (TReading (t0 + ttl)) evs = TReading (t0 + ttl).
Proof. intros ttl t0 evs. apply idle_stays. Qed.
Theorem C51_open_peer_refuted : forall ttl d evs, Forall (fun ev : Z * tevent => snd ev <> TEof) evs ->
  trun ttl (TReading d) evs <> TClosed.
Proof. intros ttl d evs H Hc. destruct (reading_stays ttl evs H d) as [d' Hd]. congruence. Qed.
(** What does hold: once the peer has closed its side, after packets at the given
    times, the connection is closed exactly when the time of the last packet plus
    conn_ttl has come. *)
Theorem C51_closed_after_eof_partial : forall ttl t0 times te evs,
  trun ttl (TReading (t0 + ttl)) (map (fun t => (t, TPacket)) times ++ (te, TEof) :: evs) = TClosed <->
  exists t e, In (t, e) evs /\ (last times t0 + ttl <= t)%Z.
Proof.
  intros ttl t0 times te evs. rewrite trun_app, packets_reset.
  exact (eof_wait ttl (last times t0 + ttl) evs).
Qed.
Example C51_example : trun 10 (TReading 10) [(5, TPacket); (7, TPacket); (100, TTick)]%Z = TReading 17 /\
  trun 10 (TReading 10) [(5, TPacket); (8, TEof); (14, TTick)]%Z = TEofWait 15 /\
  trun 10 (TReading 10) [(5, TPacket); (8, TEof); (14, TTick); (15, TTick)]%Z = TClosed.
Proof. repeat split. Qed.

(** ** C59: Stop ends Run.  Refuted: in no history at all does Run return. *)
Theorem C59_stop_ends_run_refuted : forall evs, l_run (lrun evs) <> LReturned.
Proof. exact lnever_returns. Qed.
(** What Stop does: from then on no connection is accepted, and every turn of
    the still-running loop logs one more error. *)
Theorem C59_stop_partial : forall before after, l_run (lrun before) = LRunning ->
  lrun (before ++ [LStop] ++ after) =
  mkL LRunning (Some false) (l_conns (lrun before)) (l_errors (lrun before) + n_accepts after).
Proof. exact lstop_spins. Qed.
Example C59_example : lrun [LStart true; LAccept true; LAccept false; LStop; LAccept true; LAccept true; LStop] =
  mkL LRunning (Some false) 1 3.
Proof. reflexivity. Qed.

(** ** C60: the accessors *)
Theorem C60_address : forall s, get_addr s = cfHost s ++ text ":" ++ cfPort s.
Proof. exact get_addr_text. Qed.
Theorem C60_ttl : forall s, (- 2 ^ 63 <= cfConnTTL s * 1000000000 < 2 ^ 63)%Z -> get_ttl s = (cfConnTTL s * 1000000000)%Z.
Proof. exact get_ttl_exact. Qed.
Theorem C60_log_level : forall s,
  (get_level s = DebugLevel <-> cfLogLevel s = text "DEBUG") /\
  (get_level s = WarnLevel <-> cfLogLevel s = text "WARN") /\
  (get_level s = ErrorLevel <-> cfLogLevel s = text "ERROR") /\
  (cfLogLevel s <> text "DEBUG" -> cfLogLevel s <> text "WARN" -> cfLogLevel s <> text "ERROR" -> get_level s = InfoLevel).
Proof. exact get_level_names. Qed.
(** a conn_ttl of 300 years does not fit *)
Example C60_example : get_ttl (mkSettings (text "0.0.0.0") (text "6000") 10 (text "DEBUG")) = 10000000000%Z /\
  (get_ttl (mkSettings (text "") (text "") 9460800000 (text "debug")) < 0)%Z /\
  get_level (mkSettings (text "") (text "") 1 (text "debug")) = InfoLevel.
Proof. repeat split. Qed.
Print Assumptions C51_idle_closed_refuted.
Print Assumptions C51_open_peer_refuted.
Print Assumptions C51_closed_after_eof_partial.
Print Assumptions C59_stop_ends_run_refuted.
Print Assumptions C59_stop_partial.
Print Assumptions C60_address.
Print Assumptions C60_ttl.
Print Assumptions C60_log_level.
