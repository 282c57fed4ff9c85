(** * OutFacts: how much the receiver writes. *)
From Coq Require Import Lia ZifyBool ZifyN ZifyNat.
From Verif Require Import GoBase Crc Float64 SubRecords Records Package Storage Server
  Spec_Bits Spec_Wf Spec_Rec Spec_Pkg Spec_Server Spec_Stream BaseFacts PkgFacts PkgFacts2 ServerFacts ServerFacts2 StreamFacts.
Section S.
Context {E : go_env}.
Definition out_len (acts : list action) : nat := length (concat (writes acts)).
Lemma out_app a b : out_len (a ++ b) = (out_len a + out_len b)%nat.
Proof. unfold out_len, writes. rewrite flat_map_app, concat_app, app_length. reflexivity. Qed.
Lemma out_write w : out_len [AWrite w] = length w.
Proof. unfold out_len. cbn [writes flat_map app concat]. rewrite app_nil_r. reflexivity. Qed.
Lemma result_len pid : length (result_packet pid) = 24%nat.
Proof. unfold result_packet. cbv zeta. rewrite !app_length. reflexivity. Qed.
Lemma unit_records u p l : bytes_ok u = true -> pkg_decode pkg0 (mkSlice u (room u)) = (p, DRet 0 false) -> pSFRD p = Some (FSds l) ->
  (12 + 7 * length l <= length u)%nat.
Proof.
  intros Hb Hd Hl. apply accept_iff in Hd; [|exact Hb]. destruct Hd as (_ & f & (A1 & _ & _ & _ & A2 & _) & ->).
  assert (f = FSds l). { unfold final_of, set_SFRCS, set_SFRD in Hl. cbn [pSFRD] in Hl. congruence. } subst f.
  assert (S : sds_decode (frame_of u) = Ok l).
  { unfold frame_decode in A2. destruct (_ =? PtAppdataPacket).
    - destruct (sds_decode (frame_of u)) as [l'| | |]; cbn [rmap bind] in A2; congruence.
    - destruct (ptr_decode (frame_of u)) as [r| | |]; cbn [rmap bind] in A2; congruence. }
  apply sds_decode_len in S. unfold frame_of in S. rewrite firstn_length, skipn_length in S. pose proof (hcs_pos_ge u). unfold frame_pos in *. lia.
Qed.
Lemma unit_out u acts : a_unit u -> handled u acts -> (out_len acts <= 3 * length u)%nat /\ (6 * length acts <= length u)%nat.
Proof.
  intros (Hb & Hl & _ & _) (p & code & err & Hd & _ & Hr & Ha). destruct err.
  - destruct (Hr eq_refl) as (_ & ack & -> & (_ & Hlen & _)). rewrite out_write. cbn [length]. unfold blen in Hlen. lia.
  - destruct (Ha eq_refl) as (-> & [(_ & -> & _)|(_ & l & Hf & Happ)]); [cbn; lia|].
    pose proof (unit_records u p l Hb Hd Hf) as Hn. unfold app_actions in Happ. destruct (confirms l); [subst acts; cbn; lia|].
    destruct Happ as (rec & ack & -> & _ & _ & _ & _ & _ & _ & _ & _ & _ & svc & (_ & Hlen & _) & _).
    rewrite !out_app, out_write, !app_length. assert (Hz : out_len (match positions l with [] => [] | _ :: _ => [ASave rec] end) = 0%nat) by (destruct (positions l); reflexivity).
    rewrite Hz. unfold blen in Hlen. destruct l as [|s l].
    + cbn [map credentials] in *. cbn [length] in *. change (positions []) with (@nil pos_data). cbn [length].
      destruct (credentials []) eqn:Ec; [discriminate Ec|]. cbn [out_len length]. unfold out_len. cbn. lia.
    + cbn [map length] in Hlen. rewrite map_length in Hlen. cbn [length] in *. set (cr := credentials (s :: l)). set (po := positions (s :: l)). clearbody cr po.
      destruct cr; [rewrite out_write, result_len|unfold out_len at 1; cbn [writes flat_map concat length]]; destruct po; cbn [length]; lia.
Qed.
Lemma received_out s e acts f : received s e acts f -> (out_len acts <= 3 * length s)%nat /\ (6 * length acts <= length s)%nat.
Proof.
  induction 1 as [s e|s e|s e|u s e|u s e acts acts' f Hu _ Hh _ [I1 I2]]; try (cbn; lia).
  destruct (unit_out u acts Hu Hh) as [U1 U2]. rewrite out_app, !app_length. lia.
Qed.
End S.
