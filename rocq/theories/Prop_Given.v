(** * Prop_Given: C133 (what Encode writes is decoded as it was given). *)
From Verif Require Import GoBase Crc Float64 SubRecords Records Package.
From Verif Require Import Spec_Bits Spec_Wf Spec_Rec Spec_Pkg Spec_Flags Spec_Verdict Spec_Given GivenFacts VerdictFacts Prop_Package.
From Coq Require Import Lia.

(** ** C133: a package that Encode accepts comes back from Decode field by field,
    with only the lengths and checksums filled in.  Refuted: an object number
    that the record's flags announce as absent is not written. *)
Definition silent {E : go_env} : package :=
  {| pPRV := 1; pSKID := 0; pPRF := [48; 48]; pRTE := [48]; pENA := [48; 48]; pCMP := [48];
     pPR := [49; 49]; pHL := 0; pHE := 0; pFDL := 0; pPID := 7; pPT := 1; pPRA := 0; pRCA := 0; pTTL := 0; pHCS := 0;
     pSFRD := Some (FSds [{| RL := 0; RN := 9; SSOD := [48]; RSOD := [48]; GRP := [48]; RPP := [48; 48];
       TMFE := [48]; EVFE := [48]; OBFE := [48]; OID := 5; EVID := 0; TM := 0; SST := 2; RST := 2; RD := [] |}]); pSFRCS := 0 |}.
Theorem C133_decoded_as_given_refuted : forall E : go_env,
  header_typed silent /\ (forall f, pSFRD silent = Some f -> headed_frame f) /\
  exists p1 b p', pkg_encode silent = (p1, Ok b) /\ pkg_decode pkg0 (mkSlice b []) = (p', DRet 0 false) /\
    ~ completed_pkg silent p'.
Proof.
  intros E. assert (Ht : header_typed silent) by (unfold header_typed, silent; cbn; repeat split; auto; reflexivity).
  assert (Hf : forall f, pSFRD silent = Some f -> headed_frame f).
  { intros f H. change (match Some f with Some f => headed_frame f | None => True end). rewrite <- H.
    cbn [pSFRD silent headed_frame]. constructor; [|constructor]. unfold headed_sdr. cbn [RN SST RST OID EVID TM RD RL].
    repeat (split; [first [reflexivity|constructor]|]). exists []. repeat split; auto. }
  split; [exact Ht|]. split; [exact Hf|].
  destruct (pkg_encode silent) as [p1 r] eqn:He. assert (Hr : exists b, r = Ok b).
  { apply (f_equal snd) in He. cbn [snd] in He. rewrite <- He. eexists. vm_compute. reflexivity. }
  destruct Hr as [b ->]. exists p1, b.
  assert (Hfe : exists body, frame_encode (pSFRD silent) = Ok body /\ bytes_ok body = true /\ blen body < 2 ^ 16 /\ body <> [] /\
    blen body + (if is1 (pRTE silent) then 16 else 11) < 2 ^ 16 /\ (pPT silent = 0 \/ pPT silent = 1) /\
    exists f, frame_decode (pPT silent) body = Ok f).
  { eexists. split; [vm_compute; reflexivity|]. repeat split; try reflexivity; try discriminate; [right; reflexivity|].
    eexists. vm_compute. reflexivity. }
  destruct Hfe as (body & Hfe & Hb & Hl & Hacc).
  destruct (proj2 (encoded_accept_iff silent p1 b body pkg0 [] Ht He Hfe Hb Hl) Hacc) as (p' & Hp').
  exists p'. split; [reflexivity|]. split; [exact Hp'|]. intros Hc.
  destruct (proj1 (pkg_given silent p1 b body [] Ht Hf He Hfe Hb Hl) (ex_intro _ p' (conj Hp' Hc))) as (_ & f & body' & Hsf & _ & _ & _ & _ & Hret).
  cbn [pSFRD silent] in Hsf. assert (Hf5 : match f with FSds [s] => OBFE s = s0 /\ OID s = 5 | _ => False end).
  { apply (f_equal (fun o => match o with Some (FSds [s]) => (OBFE s, OID s) | _ => ([], 0) end)) in Hsf.
    destruct f as [[|s [|? ?]]|]; try discriminate Hsf. cbn in Hsf.
    assert (OBFE s = s0) by (apply (f_equal fst) in Hsf; cbn [fst] in Hsf; symmetry; exact Hsf).
    apply (f_equal snd) in Hsf. cbn [snd] in Hsf. auto. }
  destruct f as [[|s [|? ?]]|]; try contradiction. cbn [returns_frame] in Hret. inversion Hret as [|? ? Hs _]; subst.
  destruct Hs as (_ & Ho & _). destruct Hf5 as [F1 F2]. specialize (Ho F1). congruence.
Qed.

(** Exactly: a package with documented header values, whose subrecords' and
    records' headers are right or left to Encode and whose frame fits the length
    field, comes back with just the lengths and checksums filled in if and only
    if: without routing its routing fields are 0; its frame is of the announced
    type, not empty, and with the header below 65536 bytes; each record's flag
    strings have their documented widths; a number its flags announce as absent
    is 0; each subrecord is one that survives (C117); and a response has records
    or no record set at all. *)
Theorem C133_package_exactly : forall (E : go_env) p p1 b body spare, header_typed p ->
  (forall f, pSFRD p = Some f -> headed_frame f) ->
  pkg_encode p = (p1, Ok b) -> frame_encode (pSFRD p) = Ok body -> bytes_ok body = true -> blen body < 2 ^ 16 ->
  ((exists p', pkg_decode pkg0 (mkSlice b spare) = (p', DRet 0 false) /\ completed_pkg p p') <-> returns_pkg p).
Proof. exact @pkg_given. Qed.
(** The same for a set of records, without a package around it, and for a
    record's subrecords. *)
Theorem C133_records_exactly : forall (E : go_env) l b, Forall headed_sdr l -> sds_encode l = Ok b -> bytes_ok b = true ->
  ((exists l', sds_decode b = Ok l' /\ Forall2 completed_sdr l l') <-> Forall returns_sdr l).
Proof. exact @sds_given_decode. Qed.
Theorem C133_subrecords_exactly : forall (E : go_env) l b, Forall headed_rd l -> rds_encode l = Ok b -> bytes_ok b = true ->
  ((exists l', rds_decode b = Ok l' /\ Forall2 completed_rd l l') <-> Forall (fun rd => survives (SRD rd)) l).
Proof. exact @rds_given_decode. Qed.
(** The package of C14's example meets the hypotheses and the condition. *)
Example C133_example : forall E : go_env, header_typed ex_pkg /\ (forall f, pSFRD ex_pkg = Some f -> headed_frame f) /\
  returns_pkg ex_pkg /\ exists p1 b body, pkg_encode ex_pkg = (p1, Ok b) /\ frame_encode (pSFRD ex_pkg) = Ok body /\
    bytes_ok body = true /\ length body = 15%nat.
Proof.
  intros E. split; [unfold header_typed, ex_pkg; cbn; repeat split; auto; reflexivity|]. split.
  { intros f H. change (match Some f with Some f => headed_frame f | None => True end). rewrite <- H.
    cbn [pSFRD ex_pkg headed_frame]. constructor; [|constructor]. unfold headed_sdr, ex_rec. cbn [RN SST RST OID EVID TM RD RL].
    do 6 (split; [reflexivity|]). split.
    - constructor; [|constructor]. split; [right; split; [reflexivity|exact I]|]. eexists. split; [reflexivity|]. split; [reflexivity|]. left. reflexivity.
    - eexists. split; [vm_compute; reflexivity|]. split; [reflexivity|]. left. reflexivity. }
  split.
  { split; [discriminate|]. eexists _, _. split; [reflexivity|]. split; [vm_compute; reflexivity|]. split; [reflexivity|].
    split; [discriminate|]. split; [reflexivity|]. constructor; [|constructor].
    split; [repeat (constructor; [reflexivity|]); constructor|]. split; [discriminate|]. split; [reflexivity|]. split; [reflexivity|].
    constructor; [|constructor]. cbn. repeat split; reflexivity. }
  eexists _, _, _. split; [vm_compute; reflexivity|]. split; [vm_compute; reflexivity|]. split; reflexivity.
Qed.
Print Assumptions C133_decoded_as_given_refuted.
Print Assumptions C133_package_exactly.
Print Assumptions C133_records_exactly.
Print Assumptions C133_subrecords_exactly.
