(** * Prop_Stream: C90, C91 — the receiver on arbitrary byte streams. *)
From Coq Require Import Lia.
From Verif Require Import GoBase Crc Float64 SubRecords Records Package Storage Server
  Spec_Bits Spec_Wf Spec_Rec Spec_Crc Spec_Pkg Spec_Server Spec_Stream BaseFacts CrcFacts SubFacts RecFacts
  DecFacts PkgFacts PkgFacts2 ServerFacts ServerFacts2 ServerFacts3 ServerFacts4 StreamFacts GlueServer Vectors WitnessServer DamageFacts OutFacts.

(** ** C90: what the receiver does with any stream of bytes whatever.
    [received] (in Spec_Stream) is the whole behaviour: the stream is cut into
    units by the declared lengths, every unit is answered on its own, and the
    handler ends where the stream does, at a unit that does not begin with 1, or
    with the process. *)
Theorem C90_every_stream : forall (E : go_env) c, in_ok c ->
  received (concat (ci_chunks c)) (ci_end c) (fst (conn_exec c)) (snd (conn_exec c)).
Proof. intros E c Hok. exact (exec_received _ c (le_n _) Hok). Qed.
(** Packets with sensible lengths are exactly units; other lengths wrap around. *)
Theorem C90_units : forall u, (framed u -> a_unit u) /\ (a_unit u -> 10 <= wire_len u < 65546 -> framed u).
Proof. intro u. split; [apply framed_unit | apply unit_framed]. Qed.
(** A unit whose declared length wraps around: header length 1, frame length 0,
    so a declared length of 1; the receiver waits for 65527 bytes more. *)
Example C90_example : unit_len [1; 0; 0; 1; 0; 0; 0; 0; 0; 1] = 65537 /\ a_unit north /\ ~ framed (firstn 47 north) /\
  in_ok (mkIn [firstn 7 north; skipn 7 north ++ [9; 9; 9; 9; 9; 9; 9; 9; 9; 9]] COpen).
Proof.
  split; [vm_compute; reflexivity|]. split; [apply (framed_unit north (proj1 (@north_good env0)))|].
  split; [intros (_ & _ & H & _); vm_compute in H; discriminate H | vm_compute; reflexivity].
Qed.
Example C90_garbage_after_packet : forall E : go_env, exists r a,
  conn_exec (mkIn [north ++ [9; 9; 9; 9; 9; 9; 9; 9; 9; 9]] COpen) = ([ASave r; AWrite a], FinClosed).
Proof.
  intro E.
  assert (exists r a, process (mkSlice north []) = PActs [ASave r; AWrite a]) as (r & a & Hpr)
    by (do 2 eexists; vm_compute; reflexivity).
  exists r, a. rewrite <- (process_spare north (room north) north_good) in Hpr.
  exact (exec_unit north _ (framed_unit _ (proj1 north_good)) Hpr COpen [9; 9; 9; 9; 9; 9; 9; 9; 9; 9] eq_refl).
Qed.

(** ** C91: exactly which clients can stop the process.
    With storages that do not panic, some schedule stops the process iff some
    client sends a [poisonous] stream; and then every schedule that gives that
    client enough turns does, whatever the storages do. *)
Theorem C91_process_dies_iff : forall (E : go_env) stores conns, Forall in_ok conns ->
  (forall s h, In s stores -> s h <> SvPanic) ->
  ((exists sched, g_crashed (grun stores sched (ginit conns)) = true) <->
   exists i c, nth_error conns i = Some c /\ poisonous (concat (ci_chunks c))).
Proof.
  intros E stores conns Hok Hst. split.
  - intros (sched & H). exact (dies_needs_poison stores conns sched Hok Hst H).
  - intros (i & c & Hi & Hp). exists (repeat i (turns_needed (length stores) c)).
    assert (in_ok c) as Hc by (rewrite Forall_forall in Hok; exact (Hok c (nth_error_In _ _ Hi))).
    apply (poisonous_kills stores conns _ i c Hok Hi); [apply crash_iff; assumption|].
    assert (forall m, (m <= count_occ Nat.eq_dec (repeat i m) i)%nat) as Hm.
    { induction m as [|m IH]; [apply le_n|].
      cbn [repeat count_occ]. destruct (Nat.eq_dec i i) as [_|Hn]; [apply le_n_S; exact IH|contradiction]. }
    exact (Hm _).
Qed.
Theorem C91_inevitable : forall (E : go_env) stores conns sched i c, Forall in_ok conns ->
  nth_error conns i = Some c -> poisonous (concat (ci_chunks c)) ->
  (turns_needed (length stores) c <= turns i sched)%nat ->
  g_crashed (grun stores sched (ginit conns)) = true.
Proof.
  intros E stores conns sched i c Hok Hi Hp. apply (poisonous_kills stores conns sched i c Hok Hi).
  apply crash_iff; [|exact Hp]. rewrite Forall_forall in Hok. exact (Hok c (nth_error_In _ _ Hi)).
Qed.
(** A poisonous stream: a good packet, then twelve bytes with header length 0
    (where append leaves less than 243 spare bytes, as Go's runtime does). *)
Example C91_example : forall E : go_env, (length (append_spare 12) < 243)%nat ->
  poisonous (concat [north] ++ small_crash ++ [5; 6]).
Proof.
  intros E Ha. exists [north], small_crash, [5; 6]. split; [reflexivity|].
  split; [constructor; [|constructor]|].
  - split; [apply framed_unit; exact (proj1 north_good)|]. intro Hd.
    apply panic_iff with (p := pkg0) in Hd; [|vm_compute; reflexivity]. exact (proj2 north_good (room north) Hd).
  - split.
    + split; [reflexivity|]. split; [apply Nat.leb_le; reflexivity|]. split; reflexivity.
    + unfold deadly, panics. cbv zeta. change (room small_crash) with (append_spare 12).
      split; [apply Nat.ltb_lt; reflexivity|]. left. unfold blen. rewrite app_length.
      change (length small_crash) with 12%nat. change (u8 (decl_hl small_crash + 255)) with 255. lia.
Qed.

(** ** C112: the receiver is no amplifier.  To each peer it writes at most three
    bytes for every byte the peer sent, and it performs at most one action (a
    write, or handing a record to the storages) for every six. *)
Theorem C112_output_bounded : forall (E : go_env) stores conns sched i c,
  Forall in_ok conns -> nth_error conns i = Some c ->
  let acts := actions_of i (g_trace (grun stores sched (ginit conns))) in
  (length (concat (writes acts)) <= 3 * length (concat (ci_chunks c)))%nat /\
  (6 * length acts <= length (concat (ci_chunks c)))%nat.
Proof.
  intros E stores conns sched i c Hok Hi acts.
  assert (Hc : in_ok c) by (rewrite Forall_forall in Hok; apply Hok; eapply nth_error_In; exact Hi).
  destruct (isolation stores conns sched i c Hok Hi) as (later & Hl). fold acts in Hl.
  destruct (received_out _ _ _ _ (C90_every_stream E c Hc)) as [H1 H2]. rewrite Hl in H1, H2.
  rewrite out_app in H1. rewrite app_length in H2. unfold out_len in H1. lia.
Qed.
Example C112_example : in_ok (mkIn [vec_auth; vec_msg] CEof) /\
  map (@length N) (writes (fst (@conn_exec env0 (mkIn [vec_auth; vec_msg] CEof)))) = [29; 24; 29]%nat.
Proof. split; [repeat constructor|vm_compute; reflexivity]. Qed.
Print Assumptions C90_every_stream.
Print Assumptions C90_units.
Print Assumptions C91_process_dies_iff.
Print Assumptions C91_inevitable.
Print Assumptions C112_output_bounded.
