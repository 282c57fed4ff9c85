(** * Prop_Alloc: C115. *)
From Verif Require Import GoBase Crc Float64 SubRecords Records Package Storage Server.
From Verif Require Import Spec_Bits Spec_Wf Spec_Rec Spec_Pkg Spec_Server Spec_Stream Alloc AllocFacts AllocFacts2 Vectors.
From Coq Require Import Lia ZifyBool ZifyN ZifyNat.

(** ** C115: the memory Decode needs is proportional to the packet.  Refuted for
    any useful factor: a packet that the receiver hands to Decode makes it hold
    5000 bytes of record buffers for each of its own bytes, 330 megabytes in all
    for 65533 bytes. *)
Theorem C115_memory_proportional_refuted : forall E : go_env,
  exists u, a_unit u /\ blen u < 65536 /\
  forall spare, 5000 * blen u <= pkg_held (mkSlice u spare) /\ 330000000 <= pkg_held (mkSlice u spare).
Proof.
  intros E. exists (hog_packet (N.to_nat 5040)). split; [apply hog_unit; lia|].
  assert (Hl : blen (hog_packet (N.to_nat 5040)) = 65533) by (unfold blen; rewrite hog_packet_len; lia).
  split; [lia|]. intros spare. pose proof (hog_packet_held (N.to_nat 5040) spare ltac:(lia)) as H. rewrite Hl. lia.
Qed.
(** Every thirteen bytes buy another 64 kilobytes: 26 bytes make it hold 65548,
    39 bytes 131096, and so on. *)
Theorem C115_each_level : forall (E : go_env) n spare, 1 <= N.of_nat n <= 5040 ->
  exists u, a_unit u /\ length u = (13 + 13 * n)%nat /\ 65548 * N.of_nat n <= pkg_held (mkSlice u spare).
Proof.
  intros E n spare Hn. exists (hog_packet n). split; [apply hog_unit, Hn|]. split; [apply hog_packet_len|].
  pose proof (hog_packet_held n spare ltac:(lia)) as H. lia.
Qed.
(** Partial: that is the worst there is.  On every input the buffers held stay
    below 65535 bytes for every thirteen bytes of input, plus 64 kilobytes and
    the last incomplete thirteen, and below 331 megabytes altogether. *)
Theorem C115_memory_bounded_partial : forall (E : go_env) data spare, bytes_ok data = true ->
  13 * pkg_held (mkSlice data spare) <= 65535 * (blen data + 14) /\
  pkg_held (mkSlice data spare) <= 65535 * 5043.
Proof.
  intros E data spare Hb. pose proof (pkg_held_bound data spare Hb) as H. split.
  - destruct (Nat.le_gt_cases 11 (length data)) as [Hl|Hl].
    + assert (Hc : cap (Nat.min (length data - 11) (N.to_nat 65535)) <= cap (length data - 11)) by (apply cap_mono; lia).
      pose proof (cap_times (length data - 11)) as Ht. unfold blen. lia.
    + replace (Nat.min (length data - 11) (N.to_nat 65535)) with 0%nat in H by lia. change (cap 0) with 0 in H.
      unfold blen. lia.
  - assert (Hc : cap (Nat.min (length data - 11) (N.to_nat 65535)) <= cap (N.to_nat 65535)) by (apply cap_mono; lia).
    assert (Hv : 13 * cap (N.to_nat 65535) <= 65535 * 65547) by (pose proof (cap_times (N.to_nat 65535)); lia).
    assert (Hq : exists q, cap (N.to_nat 65535) = 65535 * q) by (eexists; reflexivity). destruct Hq as [q Hq].
    rewrite Hq in *. lia.
Qed.
(** An ordinary packet: one position report of the receiver's test data. *)
Example C115_example : bytes_ok vec_msg = true /\ @pkg_held env0 (mkSlice vec_msg []) <= 2 * blen vec_msg.
Proof. split; [vm_compute; reflexivity|]. vm_compute. discriminate. Qed.
