(** * Prop_GenTimed: C144, C145 — packet-gen and the time its acknowledgement takes. *)
From Coq Require Import String List Lia Bool ZifyBool ZifyN ZifyNat.
From Verif Require Import GoBase Crc Float64 SubRecords Records Package Storage Server PacketGen GenTimed
  Spec_Bits Spec_Wf Spec_Rec Spec_Pkg Spec_Server Spec_Damage PkgFacts PkgFacts2 BurstFacts DamageFacts GlueGen Vectors.
Import ListNotations.
Local Open Scope N_scope.
Local Open Scope list_scope.

Lemma wait_in_range n : (1 <= n <= 9223372036)%Z -> ack_wait (Some n) = (n * 1000000000)%Z.
Proof.
  intros H. unfold ack_wait, z_i64, flag_timeout. change (2 ^ 63)%Z with 9223372036854775808%Z. change (2 ^ 64)%Z with 18446744073709551616%Z.
  rewrite Z.mod_small by lia. lia.
Qed.
Lemma wait_unique flag d : (- 2 ^ 63 <= d < 2 ^ 63)%Z -> (exists k, (flag_timeout flag * 1000000000 = d + k * 2 ^ 64)%Z) -> ack_wait flag = d.
Proof.
  intros Hd (k & Hk). unfold ack_wait, z_i64. rewrite Hk. change (2 ^ 63)%Z with 9223372036854775808%Z in *. change (2 ^ 64)%Z with 18446744073709551616%Z.
  replace (d + k * 18446744073709551616 + 9223372036854775808)%Z with (d + 9223372036854775808 + k * 18446744073709551616)%Z by lia.
  rewrite Z.mod_add by lia. rewrite Z.mod_small by lia. lia.
Qed.
Lemma read_ack_iff wait a ack spare : read_ack wait a = NetAck ack spare <->
  (0 < wait)%Z /\ exists t b, a = Answer t b /\ (t < wait)%Z /\ b <> [] /\ ack = firstn 1024 b /\ spare = repeat 0 (1024 - length b).
Proof.
  unfold read_ack. destruct (wait <=? 0)%Z eqn:E0; [split; [discriminate|]; intros (H & _); lia|].
  destruct a as [|t b]; [split; [discriminate|]; intros (_ & t & b & H & _); discriminate H|].
  destruct (wait <=? t)%Z eqn:E1; [split; [discriminate|]; intros (_ & t' & b' & H & H' & _); injection H as <- <-; lia|].
  destruct b as [|x b]; [split; [discriminate|]; intros (_ & t' & b' & H & _ & H' & _); injection H as <- <-; congruence|].
  split.
  - intros H. split; [lia|]. exists t, (x :: b). split; [reflexivity|]. split; [lia|]. split; [discriminate|].
    assert (G : forall a b c d, NetAck a b = NetAck c d -> a = c /\ b = d) by (intros a0 b0 c0 d0 HH; injection HH; auto).
    apply G in H. destruct H as [<- <-]. auto.
  - intros (_ & t' & b' & H & _ & _ & -> & ->). assert (b' = x :: b) as -> by congruence. reflexivity.
Qed.

(** ** C144: packet-gen waits for the acknowledgement as documented: 5 seconds,
    or as many as -timeout says.  Refuted: without the flag it never reports
    success, whatever the peer does and however fast; nor does it with
    -timeout 9223372037 (292 years). *)
Theorem C144_ack_awaited_refuted : forall (E : go_env) pid oid liquid ts lat lon parse net,
  gen_program pid oid liquid ts lat lon None parse net <> GExit 1 true /\
  gen_program pid oid liquid ts lat lon (Some 9223372037%Z) parse net <> GExit 1 true.
Proof.
  intros E pid oid liquid ts lat lon parse net. unfold gen_program.
  split; intros H; apply gen_main_success_iff in H; destruct H as (_ & _ & _ & t & b & ack & spare & _ & _ & H & _);
    (destruct (net b); [|discriminate H]); apply read_ack_iff in H; destruct H as (H & _); vm_compute in H; discriminate H.
Qed.

(** Exactly: with d the int64 congruent to the number of nanoseconds asked for
    (0 without the flag), success is reported if and only if d is positive and
    the first bytes of the reply are there before d and, up to 1024 of them, are
    the positive reply of C95. *)
Theorem C144_success_exactly : forall (E : go_env) pid oid liquid ts lat lon timeout parse net d,
  (- 2 ^ 63 <= d < 2 ^ 63)%Z ->
  (exists k, (match timeout with Some n => n | None => 0 end * 1000000000 = d + k * 2 ^ 64)%Z) ->
  (gen_program pid oid liquid ts lat lon timeout parse net = GExit 1 true <->
   (0 < d)%Z /\ pid <> 0%Z /\ oid <> 0%Z /\ ts <> [] /\ exists t b at_ reply, parse ts = Some t /\
     gen_bytes (mkGen pid oid t liquid lat lon) = Ok b /\ net b = Some (Answer at_ reply) /\ (at_ < d)%Z /\ reply <> [] /\
     gen_ack (mkGen pid oid t liquid lat lon) (firstn 1024 reply) (repeat 0 (1024 - length reply)) = GExit 1 true).
Proof.
  intros E pid oid liquid ts lat lon timeout parse net d Hd Hk. pose proof (wait_unique timeout d Hd Hk) as Hw.
  unfold gen_program. rewrite gen_main_success_iff, Hw. split.
  - intros (H1 & H2 & H3 & t & b & ack & spare & Ht & Hb & Hn & Ha).
    destruct (net b) as [a|] eqn:En; [|discriminate Hn]. apply read_ack_iff in Hn.
    destruct Hn as (Hp & at_ & r & -> & Hat & Hr & -> & ->). repeat (split; [assumption|]). exists t, b, at_, r. repeat (split; [assumption|]). exact Ha.
  - intros (Hp & H1 & H2 & H3 & t & b & at_ & r & Ht & Hb & Hn & Hat & Hr & Ha). repeat (split; [assumption|]).
    exists t, b, (firstn 1024 r), (repeat 0 (1024 - length r)). rewrite Hn. repeat (split; [assumption|]). split; [|exact Ha].
    apply read_ack_iff. split; [exact Hp|]. exists at_, r. split; [reflexivity|]. repeat (split; [assumption|]). split; reflexivity.
Qed.
(** With -timeout from 1 to 9223372036 it does wait that many seconds: when the
    receiver's reply is back within them, success is reported. *)
Theorem C144_waits_as_asked : forall (E : go_env) pid oid liquid ts lat lon n parse t net,
  (1 <= n <= 9223372036)%Z -> pid <> 0%Z -> oid <> 0%Z -> ts <> [] -> parse ts = Some t ->
  (forall b, gen_bytes (mkGen pid oid t liquid lat lon) = Ok b -> exists spare acts ack at_,
     process (mkSlice b spare) = PActs acts /\ writes acts = [ack] /\
     net b = Some (Answer at_ ack) /\ (0 <= at_ < n * 1000000000)%Z) ->
  gen_program pid oid liquid ts lat lon (Some n) parse net = GExit 1 true.
Proof.
  intros E pid oid liquid ts lat lon n parse t net Hn Hp Ho Hts Ht Hnet. unfold gen_program.
  rewrite (wait_in_range n Hn). apply gen_main_success_iff. repeat (split; [assumption|]).
  set (g := mkGen pid oid t liquid lat lon) in *. destruct (gen_received g) as (b & Hb & _ & H).
  destruct (Hnet b Hb) as (spare & acts & ack & at_ & Hpr & Hw & Hnb & Hat).
  destruct (H spare) as (rec & ack' & loc & liq & H1 & _ & _ & _ & _ & _ & _ & _ & _ & _ & _ & Hlen & H2).
  rewrite Hpr in H1. assert (Hinj : forall a c, PActs a = PActs c -> a = c) by (intros a c Hac; congruence).
  apply Hinj in H1. subst acts. cbn [writes flat_map app] in Hw.
  assert (ack' = ack) as -> by (apply (f_equal (hd [])) in Hw; exact Hw).
  assert (ack <> []) as Hne.
  { intros ->. specialize (H2 []). apply gen_success_iff in H2. destruct H2 as (p & code & r & l & Hd & _).
    vm_compute in Hd. discriminate Hd. }
  exists t, b, ack, (repeat 0 (1024 - length ack)). rewrite Hnb. repeat (split; [assumption|]).
  split; [|apply H2]. apply read_ack_iff. split; [lia|]. exists at_, ack. split; [reflexivity|]. split; [lia|]. split; [exact Hne|].
  split; [|reflexivity]. symmetry. apply firstn_all2. unfold blen in Hlen. lia.
Qed.

(** ** C145: a positive reply is recognised however the network delivers it.
    Refuted: there is one Read; when the first part of a reply is all that has
    arrived, it is judged alone. *)
Section Split.
Context {E : go_env}.
Lemma nil_error_code0 p ack spare code : bytes_ok ack = true -> pkg_decode pkg0 (mkSlice ack spare) = (p, DRet code false) -> code = 0.
Proof.
  intros Hb Hd. pose proof (decode_out pkg0 ack spare Hb) as Ho. rewrite Hd in Ho. cbn [snd] in Ho. unfold outcome, ares in Ho. cbv zeta in Ho.
  repeat match type of Ho with
  | context [if ?c then _ else _] => destruct c
  | context [match ?c with _ => _ end] => destruct c
  end; try discriminate Ho; unfold pcOk in Ho; congruence.
Qed.
Lemma bytes_ok_firstn k (b : bytes) : bytes_ok b = true -> bytes_ok (firstn k b) = true.
Proof. unfold bytes_ok. rewrite !forallb_forall. intros H x Hx. apply H. rewrite <- (firstn_skipn k b). apply in_or_app. left. exact Hx. Qed.
(** a reply cut off is accepted with the same content, or not at all *)
Lemma cut_success g ack spare : bytes_ok ack = true -> whole ack -> gen_ack g ack spare = GExit 1 true ->
  forall k spare', (k < length ack)%nat ->
  (gen_ack g (firstn k ack) spare' = GExit 1 true <-> k = (length ack - 1)%nat /\ last ack 0 = 0).
Proof.
  intros Hok Hw Hs k spare' Hk. apply gen_success_iff in Hs. destruct Hs as (p & code & r & l & Hd & Hrest).
  pose proof (nil_error_code0 p ack spare code Hok Hd) as ->.
  pose proof (prefix_exact pkg0 ack spare p false Hok Hw Hd k pkg0 spare' Hk) as Hex.
  split.
  - intros H. apply gen_success_iff in H. destruct H as (q & code & _ & _ & Hq & _). apply Hex. exists q, false.
    rewrite <- (nil_error_code0 q _ spare' code (bytes_ok_firstn k ack Hok) Hq). exact Hq.
  - intros H. apply Hex in H. destruct H as (q & e & Hq). apply gen_success_iff.
    pose proof Hq as Hq'. apply accept_iff in Hq'; [|apply bytes_ok_firstn; exact Hok]. destruct Hq' as (-> & _).
    destruct (whole_split ack Hw) as (pre & c & body & x & y & Hb & Hp & Hbody).
    destruct (whole_accepted pkg0 ack spare p false pre c body x y Hok Hw Hb Hp Hbody Hd) as (Hstd & _).
    assert (q = p) as ->; [|exists p, 0, r, l; split; [exact Hq|exact Hrest]].
    rewrite Hb in Hok, Hd, Hq, Hk.
    exact (proj2 (proj2 (prefix_partial pkg0 pkg0 (pre ++ [c]) body x y spare spare' p Hok Hstd Hd k q false Hk Hq)) eq_refl).
Qed.
End Split.
Theorem C145_split_reply_refuted : forall E : go_env, exists g ack spare k spare',
  bytes_ok ack = true /\ gen_ack g ack spare = GExit 1 true /\ (0 < k < length ack)%nat /\
  gen_ack g (firstn k ack) spare' = GExit 1 false.
Proof.
  intros E. exists (mkGen 7 1 0 300 (f_of_Z 55) (f_of_Z 37)), [1; 0; 3; 11; 0; 16; 0; 8; 0; 0; 225; 7; 0; 0; 6; 0; 1; 0; 0; 2; 2; 0; 3; 0; 1; 0; 0; 16; 99], [], 20%nat, (repeat 0 1004).
  repeat split; vm_compute; try reflexivity; lia.
Qed.
(** Exactly: of the proper beginnings of a positive reply, only the whole of it
    but for a last byte 0 is recognised. *)
Theorem C145_split_reply_exactly : forall (E : go_env) g ack spare,
  bytes_ok ack = true -> whole ack -> gen_ack g ack spare = GExit 1 true ->
  forall k spare', (k < length ack)%nat ->
  (gen_ack g (firstn k ack) spare' = GExit 1 true <-> k = (length ack - 1)%nat /\ last ack 0 = 0).
Proof. exact @cut_success. Qed.
Example C145_example : forall E : go_env, let g := mkGen 7 1 0 300 (f_of_Z 55) (f_of_Z 37) in
  let ack := [1; 0; 3; 11; 0; 16; 0; 8; 0; 0; 225; 7; 0; 0; 6; 0; 1; 0; 0; 2; 2; 0; 3; 0; 1; 0; 0; 16; 99] in
  bytes_ok ack = true /\ whole ack /\ gen_ack g ack [] = GExit 1 true /\ last ack 0 <> 0.
Proof.
  intros E g ack. split; [vm_compute; reflexivity|]. split; [split; vm_compute; reflexivity|].
  split; [vm_compute; reflexivity|]. vm_compute. discriminate.
Qed.

(** C144 is not vacuous: a receiver that answers after 4.9 seconds satisfies a
    program told to wait 5; without -timeout the same exchange fails. *)
Example C144_example : forall E : go_env, exists net,
  gen_program 7 1 300 [48] (f_of_Z 55) (f_of_Z 37) (Some 5%Z) (fun _ => Some 0%Z) net = GExit 1 true /\
  gen_program 7 1 300 [48] (f_of_Z 55) (f_of_Z 37) None (fun _ => Some 0%Z) net = GExit 1 false /\
  exists b ack, gen_bytes (mkGen 7 1 0 300 (f_of_Z 55) (f_of_Z 37)) = Ok b /\ net b = Some (Answer 4900000000 ack).
Proof.
  intros E. exists (fun b => match echo_net b with NetAck ack _ => Some (Answer 4900000000 ack) | NetFail => None end).
  set (net := fun b : bytes => _). set (g := mkGen 7 1 0 300 (f_of_Z 55) (f_of_Z 37)).
  destruct (gen_received g) as (b & Hb & _ & _). destruct (echo_delivers g b Hb) as (spare & acts & ack & spare' & Hp & Hw & Hn).
  assert (Hnb : net b = Some (Answer 4900000000 ack)) by (unfold net; rewrite Hn; reflexivity).
  split; [|split; [|exists b, ack; split; [exact Hb|exact Hnb]]].
  - apply (C144_waits_as_asked E) with (t := 0%Z); [lia|discriminate|discriminate|discriminate|reflexivity|].
    intros b' Hb'. fold g in Hb'. assert (b' = b) as -> by congruence.
    exists spare, acts, ack, 4900000000%Z. split; [exact Hp|]. split; [exact Hw|]. split; [exact Hnb|]. lia.
  - unfold gen_program, gen_main. cbv beta iota. change (7 =? 0)%Z with false. change (1 =? 0)%Z with false.
    cbv beta iota. fold g. rewrite Hb, Hnb. reflexivity.
Qed.
Print Assumptions C144_ack_awaited_refuted.
Print Assumptions C144_success_exactly.
Print Assumptions C144_waits_as_asked.
Print Assumptions C145_split_reply_refuted.
Print Assumptions C145_split_reply_exactly.
