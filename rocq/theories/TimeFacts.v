(** * TimeFacts: timers, the accept loop and the configuration accessors. *)
From Coq Require Import String List.
From Verif Require Import GoBase Float64 Server Config Spec_Storage StorageFacts.
From Coq Require Import Lia ZifyBool.

Lemma idle_stays ttl d evs : Forall (fun ev : Z * tevent => snd ev = TTick) evs -> trun ttl (TReading d) evs = TReading d.
Proof.
  unfold trun. induction 1 as [|[t e] evs H _ IH]; [reflexivity|]. cbn in H. subst e. exact IH.
Qed.
Lemma closed_stays ttl evs : trun ttl TClosed evs = TClosed.
Proof. unfold trun. induction evs as [|ev evs IH]; [reflexivity|]. exact IH. Qed.
Lemma eof_wait ttl d evs : trun ttl (TEofWait d) evs = TClosed <-> exists t e, In (t, e) evs /\ (d <= t)%Z.
Proof.
  unfold trun. induction evs as [|[t e] evs IH]; [split; [discriminate|intros (? & ? & [] & _)]|].
  cbn [fold_left tstep fst snd]. destruct (Z.leb_spec d t).
  - split; [intros _; exists t, e; split; [left; reflexivity|assumption]|]. intros _. apply closed_stays.
  - rewrite IH. split.
    + intros (t' & e' & Hin & Hle). exists t', e'. split; [right; exact Hin|exact Hle].
    + intros (t' & e' & [Heq|Hin] & Hle); [injection Heq as -> ->; lia|]. exists t', e'. auto.
Qed.
Lemma last_cons_indep {A} (l : list A) : forall x d, last (x :: l) d = last l x.
Proof.
  induction l as [|y l IH]; intros x d; [reflexivity|]. change (last (x :: y :: l) d) with (last (y :: l) d).
  rewrite (IH y d). symmetry. apply (IH y x).
Qed.
Lemma packets_reset ttl times : forall t0, trun ttl (TReading (t0 + ttl)) (map (fun t => (t, TPacket)) times)
  = TReading (last times t0 + ttl).
Proof.
  unfold trun. induction times as [|t times IH]; intros t0; [reflexivity|]. cbn [map fold_left tstep fst snd].
  rewrite IH, last_cons_indep. reflexivity.
Qed.
Lemma trun_app ttl s e1 e2 : trun ttl s (e1 ++ e2) = trun ttl (trun ttl s e1) e2.
Proof. apply fold_left_app. Qed.

(** While the peer has not closed its side, the handler never closes. *)
Lemma reading_stays ttl evs : Forall (fun ev : Z * tevent => snd ev <> TEof) evs ->
  forall d, exists d', trun ttl (TReading d) evs = TReading d'.
Proof.
  unfold trun. induction 1 as [|[t e] evs H _ IH]; intros d; [exists d; reflexivity|]. cbn in H.
  destruct e; [|congruence|]; cbn [fold_left tstep fst snd]; apply IH.
Qed.

(** ** Accept loop *)
Lemma lrun_app e1 e2 : lrun (e1 ++ e2) = fold_left lstep e2 (lrun e1).
Proof. apply fold_left_app. Qed.
Lemma lrunning_stays evs : forall s, l_run s = LRunning -> l_run (fold_left lstep evs s) = LRunning.
Proof.
  induction evs as [|e evs IH]; intros s H; [exact H|]. cbn [fold_left]. apply IH.
  destruct s as [r o c n]. cbn in H. subst r. destruct e as [ok|ok|], o as [[|]|]; try destruct ok; reflexivity.
Qed.
Lemma lnever_returns evs : l_run (lrun evs) <> LReturned.
Proof.
  unfold lrun. assert (G : forall evs s, l_run s <> LReturned -> l_run (fold_left lstep evs s) <> LReturned).
  { induction evs0 as [|e evs0 IH]; intros s H; [exact H|]. cbn [fold_left]. apply IH.
    destruct e as [ok|ok|]; cbn [lstep]; destruct (l_run s) eqn:R, (l_open s) as [[|]|]; try destruct ok; cbn [l_run]; congruence. }
  apply G. discriminate.
Qed.
Definition n_accepts (evs : list levent) : nat := length (filter (fun e => match e with LAccept _ => true | _ => false end) evs).
Lemma lclosed_spins evs : forall s, l_run s = LRunning -> l_open s = Some false ->
  fold_left lstep evs s = mkL LRunning (Some false) (l_conns s) (l_errors s + n_accepts evs).
Proof.
  induction evs as [|e evs IH]; intros [r o c n] H Ho; cbn in H, Ho; subst r o; [cbn; rewrite Nat.add_0_r; reflexivity|].
  destruct e as [ok|ok|]; cbn [fold_left lstep l_run l_open l_conns l_errors n_accepts filter length].
  - rewrite IH by reflexivity. reflexivity.
  - rewrite IH by reflexivity. cbn [l_conns l_errors]. unfold n_accepts. cbn [filter length]. f_equal. lia.
  - rewrite IH by reflexivity. reflexivity.
Qed.
Lemma lopen_after_start pre : l_run (lrun pre) = LRunning -> exists b, l_open (lrun pre) = Some b.
Proof.
  unfold lrun. assert (G : forall evs s, (l_run s = LRunning -> exists b, l_open s = Some b) ->
    (l_run (fold_left lstep evs s) = LRunning -> exists b, l_open (fold_left lstep evs s) = Some b)).
  { induction evs as [|e evs IH]; intros s H; [exact H|]. cbn [fold_left]. apply IH.
    destruct e as [ok|ok|]; cbn [lstep]; destruct (l_run s) eqn:R, (l_open s) as [[|]|] eqn:O; try destruct ok;
      cbn [l_run l_open]; rewrite ?R, ?O; intros Hr; try discriminate Hr; eauto; apply H; exact Hr. }
  apply G. discriminate.
Qed.
Lemma lstop_spins pre post : l_run (lrun pre) = LRunning ->
  lrun (pre ++ [LStop] ++ post) = mkL LRunning (Some false) (l_conns (lrun pre)) (l_errors (lrun pre) + n_accepts post).
Proof.
  intros H. destruct (lopen_after_start pre H) as [b Hb]. rewrite lrun_app, fold_left_app. cbn [fold_left lstep]. rewrite Hb, H.
  rewrite lclosed_spins by reflexivity. reflexivity.
Qed.

(** ** Configuration *)
Lemma get_ttl_exact s : (- 2 ^ 63 <= cfConnTTL s * 1000000000 < 2 ^ 63)%Z -> get_ttl s = (cfConnTTL s * 1000000000)%Z.
Proof. intros H. unfold get_ttl, wrap64. rewrite Z.mod_small; lia. Qed.
Lemma get_addr_text s : get_addr s = cfHost s ++ text ":" ++ cfPort s.
Proof. reflexivity. Qed.
Lemma get_level_names s :
  (get_level s = DebugLevel <-> cfLogLevel s = text "DEBUG") /\
  (get_level s = WarnLevel <-> cfLogLevel s = text "WARN") /\
  (get_level s = ErrorLevel <-> cfLogLevel s = text "ERROR") /\
  (cfLogLevel s <> text "DEBUG" -> cfLogLevel s <> text "WARN" -> cfLogLevel s <> text "ERROR" -> get_level s = InfoLevel).
Proof.
  unfold get_level. change (text "DEBUG") with str_DEBUG. change (text "WARN") with str_WARN. change (text "ERROR") with str_ERROR.
  pose proof (str_eqb_eq (cfLogLevel s) str_DEBUG). pose proof (str_eqb_eq (cfLogLevel s) str_INFO).
  pose proof (str_eqb_eq (cfLogLevel s) str_WARN). pose proof (str_eqb_eq (cfLogLevel s) str_ERROR).
  assert (str_INFO <> str_DEBUG /\ str_INFO <> str_WARN /\ str_INFO <> str_ERROR /\ str_DEBUG <> str_WARN /\ str_DEBUG <> str_ERROR /\ str_WARN <> str_ERROR)
    by (repeat split; discriminate).
  destruct (str_eqb (cfLogLevel s) str_DEBUG), (str_eqb (cfLogLevel s) str_INFO), (str_eqb (cfLogLevel s) str_WARN), (str_eqb (cfLogLevel s) str_ERROR);
  intuition congruence.
Qed.
