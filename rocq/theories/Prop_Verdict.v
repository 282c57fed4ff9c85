(** * Prop_Verdict: C113, C114. *)
From Verif Require Import GoBase Crc Float64 SubRecords Records Package.
From Verif Require Import Spec_Bits Spec_Wf Spec_Rec Spec_Pkg Spec_Verdict PkgFacts PkgFacts3 Vectors VerdictFacts Prop_Package.
From Coq Require Import Lia.

(** ** C113: the code Decode returns, for every input: the table of
    [Spec_Verdict.verdict], whose rows exclude each other. *)
Theorem C113_code_exactly : forall (E : go_env) p data spare o, bytes_ok data = true ->
  (snd (pkg_decode p (mkSlice data spare)) = o <-> verdict data spare o).
Proof. exact @verdict_iff. Qed.
Theorem C113_codes : forall (E : go_env) p data spare code err, bytes_ok data = true ->
  snd (pkg_decode p (mkSlice data spare)) = DRet code err ->
  (code = 0 /\ err = false) \/ (err = true /\ (code = 129 \/ code = 131 \/ code = 132 \/ code = 133 \/ code = 137)).
Proof.
  intros E p data spare code err Hb H. apply verdict_iff in H; [|exact Hb].
  inversion H; subst; tauto.
Qed.
(** An input for each row that returns: an accepted packet; cut inside the
    header; cut after the header; cut after the frame; with packet type 2; with a
    wrong header checksum; with a wrong body checksum; and its frame, that of a
    confirmation, sent as application data. *)
Definition good13 : bytes := [1; 0; 3; 11; 0; 3; 0; 137; 0; 0; 74; 21; 56; 0; 51; 232].
Definition retype (t : N) : bytes := let h := [1; 0; 3; 11; 0; 3; 0; 137; 0; t] in h ++ [crc8 h] ++ [21; 56; 0; 51; 232].
Definition code_of (d : bytes) : N * bool :=
  match snd (@pkg_decode env0 pkg0 (mkSlice d [])) with DRet c e => (c, e) | _ => (255, true) end.
Example C113_example :
  map code_of [good13; firstn 10 good13; firstn 11 good13; firstn 14 good13; retype 2;
               [1; 0; 3; 11; 0; 3; 0; 137; 0; 0; 75; 21; 56; 0; 51; 232];
               [1; 0; 3; 11; 0; 3; 0; 137; 0; 0; 74; 21; 56; 0; 51; 233]; retype 1] =
  [(0, false); (131, true); (132, true); (129, true); (133, true); (137, true); (137, true); (129, true)].
Proof. vm_compute. reflexivity. Qed.

(** ** C114: Decode accepts what Encode produces.  Refuted: a package without
    records is encoded as a bare header, which is refused with code 132. *)
Definition bare {E : go_env} : package := {| pPRV := 1; pSKID := 0; pPRF := [48; 48]; pRTE := [48]; pENA := [48; 48]; pCMP := [48];
  pPR := [49; 49]; pHL := 11; pHE := 0; pFDL := 0; pPID := 7; pPT := 1; pPRA := 0; pRCA := 0; pTTL := 0; pHCS := 0;
  pSFRD := Some (FSds []); pSFRCS := 0 |}.
Theorem C114_encoded_is_accepted_refuted : forall E : go_env,
  header_typed bare /\
  exists p1 b, pkg_encode bare = (p1, Ok b) /\
  forall q spare, snd (pkg_decode q (mkSlice b spare)) = DRet 132 true.
Proof.
  intros E. assert (Ht : header_typed bare) by (unfold header_typed, bare; cbn; repeat split; auto; reflexivity).
  split; [exact Ht|].
  destruct (pkg_encode bare) as [p1 r] eqn:He. assert (Hr : exists b, r = Ok b).
  { apply (f_equal snd) in He. cbn [snd] in He. rewrite <- He. eexists. vm_compute. reflexivity. }
  destruct Hr as [b ->]. exists p1, b. split; [reflexivity|]. intros q spare.
  exact (encoded_empty_code bare p1 b q spare Ht He eq_refl).
Qed.
(** Exactly: what Encode produces from a package with documented header values
    and a frame that fits the length field is accepted if and only if the frame
    is not empty, header and frame together stay below 65536 bytes, the packet
    type is one of the two known ones and the frame is one of that type. *)
Theorem C114_accepted_exactly : forall (E : go_env) p p1 b body q spare, header_typed p ->
  pkg_encode p = (p1, Ok b) -> frame_encode (pSFRD p) = Ok body -> bytes_ok body = true ->
  blen body < 2 ^ 16 ->
  ((exists p', pkg_decode q (mkSlice b spare) = (p', DRet 0 false)) <->
   body <> [] /\ blen body + (if is1 (pRTE p) then 16 else 11) < 2 ^ 16 /\ (pPT p = 0 \/ pPT p = 1) /\
   exists f, frame_decode (pPT p) body = Ok f).
Proof. exact @encoded_accept_iff. Qed.
(** Partial: a package whose fields hold representable values, with at least one
    record in a frame of the announced type. *)
Theorem C114_encoded_is_accepted_partial : forall (E : go_env) p, wf_pkg p ->
  exists p1 b, pkg_encode p = (p1, Ok b) /\
  forall spare, exists p', pkg_decode pkg0 (mkSlice b spare) = (p', DRet 0 false).
Proof.
  intros E p Hw. destruct (pkg_roundtrip p Hw) as (p1 & hdr & body & b & He & _ & _ & _ & _ & Hd).
  exists p1, b. split; [exact He|]. intros spare. destruct (Hd [] spare eq_refl) as (p' & Hp & _).
  rewrite app_nil_r in Hp. exists p'. exact Hp.
Qed.
(** The package of C14's example meets the hypotheses of both. *)
Example C114_example : forall E : go_env, header_typed ex_pkg /\ wf_pkg ex_pkg /\
  exists p1 b body, pkg_encode ex_pkg = (p1, Ok b) /\ frame_encode (pSFRD ex_pkg) = Ok body /\
    bytes_ok body = true /\ length body = 15%nat.
Proof.
  intros E. split; [unfold header_typed, ex_pkg; cbn; repeat split; auto; reflexivity|]. split; [apply C14_example|].
  eexists _, _, _. split; [vm_compute; reflexivity|]. split; [vm_compute; reflexivity|]. split; reflexivity.
Qed.
Print Assumptions C113_code_exactly.
Print Assumptions C113_codes.
Print Assumptions C114_encoded_is_accepted_refuted.
Print Assumptions C114_accepted_exactly.
Print Assumptions C114_encoded_is_accepted_partial.
