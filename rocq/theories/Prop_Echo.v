(** * C99: the receiver's own replies cannot start a reply storm. *)
From Coq Require Import Lia.
From Verif Require Import GoBase Float64 Package Storage Server Spec_Pkg Spec_Server Spec_Stream
  ServerFacts3 EchoFacts Vectors.

(** ** C99: whatever connections, bytes, storages and schedule, every packet
    the receiver sends is a well-framed packet that no receiver dies on; fed
    back to a receiver (to the same one over a loop, or to another instance,
    cut into any chunks), they produce at most one answer each, all of them
    rejections without confirmations, and these produce no answer at all: two
    receivers talking to each other fall silent after two exchanges, and
    nothing is stored. *)
Theorem C99_echo_dies_out : forall (E : go_env) stores conns sched i c,
  Forall in_ok conns -> nth_error conns i = Some c ->
  let sent := writes (actions_of i (g_trace (grun stores sched (ginit conns)))) in
  Forall good sent /\
  forall c1, concat (ci_chunks c1) = concat sent ->
    exists nacks, conn_exec c1 = (map AWrite nacks, starved (ci_end c1)) /\
      (length nacks <= length sent)%nat /\
      Forall (fun b => exists pid code, code <> 0 /\ is_ack b pid code 0 []) nacks /\
      forall c2, concat (ci_chunks c2) = concat nacks -> conn_exec c2 = ([], starved (ci_end c2)).
Proof.
  intros E stores conns sched i c Hok Hi sent.
  pose proof (trace_replies stores conns sched i c Hok Hi) as Hr. fold sent in Hr. split.
  - eapply Forall_impl; [|exact Hr]. intros b. exact (reply_good b).
  - intros c1 Hc1. destruct (echo_exec sent (ci_end c1) Hr) as (nacks & Hx & Hl & Hn). exists nacks.
    assert (Hone : forall x : bytes, concat [x] = x) by (intro x; cbn [concat]; apply app_nil_r).
    split; [|split; [exact Hl|split; [exact Hn|]]].
    + refine (eq_trans (conn_exec_stream c1 (mkIn [concat sent] (ci_end c1)) _ eq_refl) Hx).
      cbn [ci_chunks]. rewrite Hc1. symmetry. apply Hone.
    + intros c2 Hc2.
      refine (eq_trans (conn_exec_stream c2 (mkIn [concat nacks] (ci_end c2)) _ eq_refl) (nacks_exec nacks (ci_end c2) Hn)).
      cbn [ci_chunks]. rewrite Hc2. symmetry. apply Hone.
Qed.
(** A dispatcher authenticates: it is sent a confirmation and a result; an echo
    of both is answered by one rejection, an echo of that by nothing. *)
Example C99_example : let E := env0 in
  let run chunks := writes (fst (conn_exec (mkIn chunks CEof))) in
  let sent := writes (actions_of 0 (g_trace (grun [fun _ => SvOk] (repeat 0%nat 9) (ginit [mkIn [vec_auth] CEof])))) in
  length sent = 2%nat /\ length (run sent) = 1%nat /\ run (run sent) = [].
Proof. vm_compute. repeat split; reflexivity. Qed.
Print Assumptions C99_echo_dies_out.
