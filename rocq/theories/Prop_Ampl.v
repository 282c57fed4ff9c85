(** * Prop_Ampl: C129 — how much a peer can make the receiver store. *)
From Coq Require Import List Lia.
From Verif Require Import GoBase Crc Float64 SubRecords Records Package Storage Server
  Spec_Server Spec_Stream ServerFacts ServerFacts2 ServerFacts3 ServerFacts4 GlueServer StreamFacts AmplFacts Prop_Stream Vectors WitnessServer.
Local Open Scope list_scope.

(** ** C129: whatever a peer sends, the records saved for it hold at most one
    position for every 21 bytes received, and at most one value of any kind
    (position, sensor reading, liquid level) for every two. *)
Theorem C129_storage_bounded : forall (E : go_env) stores conns sched i c,
  Forall in_ok conns -> nth_error conns i = Some c ->
  let recs := saves (actions_of i (g_trace (grun stores sched (ginit conns)))) in
  (21 * list_sum (map (fun n => length (nrLocs n)) recs) <= length (concat (ci_chunks c)))%nat /\
  (2 * list_sum (map (fun n => length (nrLocs n) + length (nrAn n) + length (nrLiq n)) recs) <= length (concat (ci_chunks c)))%nat.
Proof.
  intros E stores conns sched i c Hok Hi recs.
  assert (Hc : in_ok c) by (rewrite Forall_forall in Hok; apply Hok; eapply nth_error_In; exact Hi).
  destruct (isolation stores conns sched i c Hok Hi) as (later & Hl).
  destruct (received_stored _ _ _ _ (C90_every_stream E c Hc)) as [H1 H2]. rewrite Hl in H1, H2.
  destruct (stored_app (actions_of i (g_trace (grun stores sched (ginit conns)))) later) as [A1 A2]. rewrite A1 in H1. rewrite A2 in H2.
  unfold stored, stored_entries in H1, H2. fold recs in H1, H2. lia.
Qed.

(** 21 is exact: a packet of 21 bytes with which a position is saved.  (Its record
    ends after the length of the position subrecord; the position itself is the
    zeros with which the decoder fills its buffer.) *)
Definition smallest : bytes := [1; 0; 0; 10; 0; 9; 0; 1; 0; 1; 231; 24; 0; 41; 1; 0; 2; 2; 16; 21; 168]%N.
Theorem C129_bound_reached : forall E : go_env, length smallest = 21%nat /\ in_ok (mkIn [smallest] CEof) /\
  exists n ack, fst (conn_exec (mkIn [smallest] CEof)) = [ASave n; AWrite ack] /\ length (nrLocs n) = 1%nat.
Proof.
  intros E. split; [reflexivity|]. split; [repeat constructor|]. 
  assert (Hg : good smallest).
  { apply good_std; [split; [vm_compute; reflexivity|]; split; [vm_compute; reflexivity|];
      split; [vm_compute; reflexivity|]; vm_compute; split; [discriminate|reflexivity]|vm_compute; reflexivity]. }
  assert (Hp : exists n ack, process (mkSlice smallest []) = PActs [ASave n; AWrite ack] /\ length (nrLocs n) = 1%nat).
  { do 2 eexists. split; [vm_compute; reflexivity|]. reflexivity. }
  destruct Hp as (n & ack & Hp & Hn). exists n, ack. split; [|exact Hn]. rewrite (exec_one smallest CEof _ Hg Hp). reflexivity.
Qed.
Example C129_example : forall E : go_env, in_ok (mkIn [vec_msg] CEof). Proof. intros E. repeat constructor. Qed.
Print Assumptions C129_storage_bounded.
Print Assumptions C129_bound_reached.
