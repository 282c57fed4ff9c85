From Coq Require Import Lia ZifyBool ZifyN ZifyNat.
From Verif Require Import GoBase Crc Float64 SubRecords Records Package Spec_Bits Spec_Wf Spec_Rec Spec_Pkg BaseFacts PkgFacts PkgFacts2.
Section S.
Context {E : go_env}.
Lemma accepted_app data suffix spare f : bytes_ok data = true -> complete data ->
  u8 (decl_hl data + 255) <= blen data -> decl_hl data + decl_fdl data <= blen data ->
  (accepted (data ++ suffix) spare f <-> accepted data [] f).
Proof.
  intros Hb Hc H1 H2. pose proof (hcs_pos_ge data). pose proof (hcs_pos_le data). unfold complete, frame_pos in Hc.
  unfold accepted. cbv zeta. unfold frame_pos. rewrite hcs_pos_app, decl_fdl_app, decl_hl_app by lia. rewrite !byte_at_app by lia.
  rewrite app_nil_r, <- app_assoc, !(area_app data) by (unfold blen in *; lia).
  assert (frame_of (data ++ suffix) = frame_of data) as ->.
  { unfold frame_of. rewrite frame_pos_app, decl_fdl_app by lia. rewrite skipn_app, firstn_app, skipn_length.
    unfold frame_pos. replace (N.to_nat (decl_fdl data) - (length data - S (hcs_pos data)))%nat with 0%nat by lia.
    cbn [firstn]. apply app_nil_r. }
  assert (sfrcs_of (data ++ suffix) = sfrcs_of data) as ->.
  { unfold sfrcs_of. rewrite frame_pos_app, decl_fdl_app by lia. apply word_at_app. unfold frame_pos. lia. }
  rewrite app_length, !blen_app.
  assert ((S (hcs_pos data) + N.to_nat (decl_fdl data) < length data + length suffix)%nat <-> (S (hcs_pos data) + N.to_nat (decl_fdl data) < length data)%nat) as -> by lia.
  assert (u8 (decl_hl data + 255) <= blen data + (blen suffix + blen spare) <-> u8 (decl_hl data + 255) <= blen data) as -> by lia.
  assert (decl_hl data + decl_fdl data <= blen data + (blen suffix + blen spare) <-> decl_hl data + decl_fdl data <= blen data) as -> by lia.
  reflexivity.
Qed.
Lemma final_app p data suffix f : complete data -> final_of p (data ++ suffix) f = final_of p data f.
Proof.
  intros Hc. pose proof (hcs_pos_ge data). pose proof (hcs_pos_le data). unfold complete, frame_pos in Hc.
  assert (sfrcs_of (data ++ suffix) = sfrcs_of data) as Hsf.
  { unfold sfrcs_of. rewrite frame_pos_app, decl_fdl_app by lia. apply word_at_app. unfold frame_pos. lia. }
  assert (hdr_of p (data ++ suffix) = hdr_of p data) as Hh.
  { unfold hdr_of. rewrite routed_app by lia. rewrite !byte_at_app, !word_at_app by lia.
    destruct (routed data) eqn:Hr; [|reflexivity].
    assert (hcs_pos data = 15%nat) by (unfold hcs_pos; rewrite Hr; reflexivity).
    rewrite !word_at_app, byte_at_app by lia. reflexivity. }
  unfold final_of. rewrite Hh, Hsf. rewrite hcs_pos_app by lia. rewrite byte_at_app by lia. reflexivity.
Qed.
Lemma suffix_exactly p data s0 spare0 p' : bytes_ok data = true -> bytes_ok s0 = true ->
  length data = (frame_pos data + N.to_nat (decl_fdl data) + 2)%nat ->
  pkg_decode p (mkSlice (data ++ s0) spare0) = (p', DRet 0 false) ->
  ((forall suffix spare, bytes_ok suffix = true -> pkg_decode p (mkSlice (data ++ suffix) spare) = (p', DRet 0 false)) <->
   1 <= decl_hl data <= std_hl data + 2 \/ (decl_hl data = 0 /\ 255 <= blen data)).
Proof.
  intros Hb Hs Hl Hd. assert (Hc : complete data) by (unfold complete; lia).
  pose proof (hcs_pos_ge data). pose proof (hcs_pos_le data).
  assert (Hhl : decl_hl data < 256) by (unfold decl_hl, byte_at; apply bytes_ok_nth, Hb).
  assert (C : (1 <= decl_hl data <= std_hl data + 2 \/ (decl_hl data = 0 /\ 255 <= blen data)) <->
    u8 (decl_hl data + 255) <= blen data /\ decl_hl data + decl_fdl data <= blen data).
  { unfold std_hl, blen. destruct (N.eq_dec (decl_hl data) 0) as [E0|E0].
    - rewrite E0. change (u8 (0 + 255)) with 255. split; [intros [?|[? ?]]; lia|]. intros [? ?]. right. lia.
    - assert (u8 (decl_hl data + 255) = decl_hl data - 1) as ->.
      { unfold u8. replace (decl_hl data + 255) with (decl_hl data - 1 + 1 * 256) by lia. rewrite N.mod_add by lia. apply N.mod_small. lia. }
      unfold frame_pos in *. lia. }
  rewrite C. split.
  - intros Hall. specialize (Hall [] [] eq_refl). rewrite app_nil_r in Hall. apply accept_iff in Hall; [|exact Hb]. destruct Hall as (_ & f & (_ & A1 & _ & _ & _ & _ & A2 & _) & _).
    rewrite app_nil_r in A1, A2. auto.
  - intros [H1 H2] suffix spare Hsf. apply accept_iff in Hd; [|rewrite bytes_ok_app, Hb; exact Hs]. destruct Hd as (_ & f & Ha & ->).
    apply accept_iff; [rewrite bytes_ok_app, Hb; exact Hsf|]. split; [reflexivity|]. exists f. rewrite !final_app by exact Hc. split; [|reflexivity].
    apply accepted_app in Ha; try assumption. apply accepted_app; assumption.
Qed.
End S.
