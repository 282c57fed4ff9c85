(** * Prop_Cover: C03 and C04, exactly: the damage that goes unnoticed. *)
From Coq Require Import List Lia Bool ZifyBool ZifyN ZifyNat.
From Verif Require Import GoBase Float64 Records Package Crc Spec_Crc Spec_Pkg Spec_Cover BaseFacts CrcFacts DecFacts PkgFacts CoverFacts Vectors.
Local Open Scope N_scope.
Local Open Scope list_scope.

(** ** C03: damage anywhere outside the control fields (in particular in the
    frame) is accepted if and only if it changes no byte that the declared
    lengths place under a checksum, and the frame still parses.  For every
    header length, for bursts of at most 8 bits, or 16 when the bytes under the
    header checksum are not damaged. *)
Theorem C03_unnoticed_exactly : forall (E : go_env) p q b b' spare p' e w,
  bytes_ok (b ++ spare) = true -> bytes_ok b' = true ->
  pkg_decode p (mkSlice b spare) = (p', DRet 0 e) ->
  burst w b b' -> same_control b b' ->
  w <= 8 \/ w <= 16 /\ (forall i, in_header_area (decl_hl b) i -> byte_at b' i = byte_at b i) ->
  ((exists q', pkg_decode q (mkSlice b' spare) = (q', DRet 0 false)) <->
   (forall i, protected (decl_hl b) (decl_fdl b) i -> byte_at b' i = byte_at b i) /\
   exists f, frame_decode (byte_at b 9) (frame_of b') = Ok f).
Proof. exact @unnoticed. Qed.

(** ** C04: another value in a header byte that is no control field is accepted
    if and only if the byte is under no checksum. *)
Theorem C04_header_byte_exactly : forall (E : go_env) p q pre x y post spare p' e,
  let b := pre ++ x :: post in let b' := pre ++ y :: post in
  bytes_ok (b ++ spare) = true -> byte_ok y = true -> x <> y ->
  (length pre < hcs_pos b)%nat -> ~ In (length pre) [3; 5; 6; 9]%nat -> routed b' = routed b ->
  pkg_decode p (mkSlice b spare) = (p', DRet 0 e) ->
  ((exists q', pkg_decode q (mkSlice b' spare) = (q', DRet 0 false)) <-> ~ protected (decl_hl b) (decl_fdl b) (length pre)).
Proof.
  intros E p q pre x y post spare p' e b b' Hbs Hy Hxy Hlt Hnot Hr Hd.
  assert (Hnth : forall i, i <> length pre -> byte_at b' i = byte_at b i).
  { intros i Hi. unfold b, b', byte_at. destruct (Nat.lt_ge_cases i (length pre)) as [H|H]; [rewrite !app_nth1 by lia; reflexivity|].
    rewrite !app_nth2 by lia. destruct (i - length pre)%nat eqn:En; [lia|reflexivity]. }
  assert (Hat : byte_at b' (length pre) = y /\ byte_at b (length pre) = x) by (unfold b, b', byte_at; rewrite !nth_middle; split; reflexivity).
  assert (Hb' : bytes_ok b' = true).
  { pose proof Hbs as H. unfold b, b' in *. rewrite !bytes_ok_app, !andb_true_iff in *. destruct H as [[H1 H2] _]. split; [exact H1|].
    cbn [bytes_ok forallb] in *. apply andb_true_iff in H2 as [_ H2]. apply andb_true_iff. split; assumption. }
  assert (Hbu : burst 8 b b').
  { pose proof Hbs as H. unfold b, b' in *. rewrite !bytes_ok_app, !andb_true_iff in H. destruct H as [[H1 H2] _].
    cbn [bytes_ok forallb] in H2. apply andb_true_iff in H2 as [Hx H2].
    apply (burst_context 8 pre [x] [y] post); [cbn; rewrite Hx; reflexivity|cbn; rewrite Hy; reflexivity|exact H2|apply burst_byte; assumption]. }
  assert (Hl : length b' = length b) by (symmetry; apply Hbu).
  assert (Hfp : frame_pos b' = frame_pos b) by (unfold frame_pos, hcs_pos; rewrite Hr; reflexivity).
  assert (Hpost : forall n, (length pre < n)%nat -> skipn n b' = skipn n b).
  { intros n Hn. unfold b, b'. rewrite !skipn_app. f_equal; destruct (n - length pre)%nat eqn:En; (lia || reflexivity). }
  cbn [In] in Hnot.
  assert (Hfdl : decl_fdl b' = decl_fdl b) by (unfold decl_fdl, word_at; change (nth 5 ?l 0) with (byte_at l 5); change (nth 6 ?l 0) with (byte_at l 6); rewrite !Hnth by lia; reflexivity).
  assert (Hc : same_control b b').
  { split; [exact Hr|]. split; [apply Hnth; lia|]. split; [exact Hfdl|]. split; [apply Hnth; lia|]. split; [apply Hnth; lia|].
    unfold sfrcs_of, word_at. rewrite Hfp, Hfdl. unfold frame_pos. f_equal; [|f_equal]; apply Hnth; lia. }
  assert (Hfr : frame_of b' = frame_of b) by (unfold frame_of; rewrite Hfp, Hfdl, Hpost by (unfold frame_pos; lia); reflexivity).
  assert (Hex : exists f, frame_decode (byte_at b 9) (frame_of b') = Ok f).
  { rewrite Hfr. apply accept_iff in Hd; [|rewrite bytes_ok_app, andb_true_iff in Hbs; tauto].
    destruct Hd as (_ & f & (_ & _ & _ & _ & H & _) & _). exists f. exact H. }
  rewrite (unnoticed p q b b' spare p' e 8 Hbs Hb' Hd Hbu Hc (or_introl (N.le_refl 8))). split.
  - intros [H _] Hp. apply Hxy. rewrite <- (proj1 Hat), <- (proj2 Hat). symmetry. exact (H _ Hp).
  - intros H. split; [|exact Hex]. intros i Hi. apply Hnth. intros ->. exact (H Hi).
Qed.

(** Non-vacuity: the response of the repository's tests, and the same packet
    with header length 1 (and the checksums that go with it), in which the packet
    number is under no checksum. *)
Definition short_area : bytes := [1; 0; 3; 1; 0; 3; 0; 137; 0; 0; crc8 []; 21; 56; 0] ++
  let c := crc16 [0; 3; 1] in [c mod 256; c / 256].
Example C03_C04_example : forall E : go_env,
  (exists p, pkg_decode pkg0 (mkSlice vec_ptresp []) = (p, DRet 0 false)) /\ protected 11 3 7 /\ protected 11 3 12 /\
  (exists p, pkg_decode pkg0 (mkSlice short_area []) = (p, DRet 0 false)) /\ ~ protected 1 3 7 /\ protected 1 3 2.
Proof.
  intros E. split; [eexists; vm_compute; reflexivity|]. split; [left; reflexivity|]. split; [right; split; [discriminate|reflexivity]|].
  split; [eexists; vm_compute; reflexivity|]. split; [intros [H|[_ H]]; vm_compute in H; discriminate H|right; split; [discriminate|reflexivity]].
Qed.
Print Assumptions C03_unnoticed_exactly.
Print Assumptions C04_header_byte_exactly.
