(** * Prop_Package: C14, C33–C36 — whole packets. *)
From Coq Require Import Lia.
From Verif Require Import GoBase Crc Float64 SubRecords Records Package
  Spec_Bits Spec_Wf Spec_Rec Spec_Crc Spec_Pkg Spec_Go PkgFacts2 PkgFacts3 GluePkg Vectors.

(** ** C14: Encode then Decode, for every well-formed package: success, with the
    same fields and records, the header and frame lengths and both checksums
    filled in with the true values — whatever follows the packet in memory. *)
Theorem C14_package_roundtrip : forall (E : go_env) p, wf_pkg p ->
  exists p1 hdr body b, pkg_encode p = (p1, Ok b) /\ frame_encode (pSFRD p) = Ok body /\
    b = hdr ++ [crc8 hdr] ++ body ++ le_enc 2 (crc16 body) /\ bytes_ok b = true /\
    length hdr = (if is1 (pRTE p) then 15%nat else 10%nat) /\
    forall suffix spare, bytes_ok suffix = true ->
    exists p', pkg_decode pkg0 (mkSlice (b ++ suffix) spare) = (p', DRet 0 false) /\ filled_pkg p p' hdr body.
Proof. exact @pkg_roundtrip. Qed.
Definition ex_rec {E : go_env} : sdr :=
  {| RL := 0; RN := 97; SSOD := s1; RSOD := s0; GRP := s0; RPP := [ch1; ch1];
     TMFE := s0; EVFE := s0; OBFE := s1; OID := 133552; EVID := 0; TM := 0; SST := 2; RST := 2;
     RD := [{| SRT := 0; SRL := 0; SRD := SRResult 3 |}] |}.
Definition ex_pkg {E : go_env} : package :=
  {| pPRV := 1; pSKID := 0; pPRF := [ch0; ch0]; pRTE := s1; pENA := [ch0; ch0]; pCMP := s0; pPR := [ch1; ch1];
     pHL := 0; pHE := 0; pFDL := 0; pPID := 138; pPT := 1; pPRA := 65535; pRCA := 1; pTTL := 9; pHCS := 0;
     pSFRD := Some (FSds [ex_rec]); pSFRCS := 0 |}.
Example C14_example : forall E : go_env, wf_pkg ex_pkg.
Proof.
  intros E. unfold wf_pkg. do 9 (split; [vm_compute; reflexivity|]). split; [left; reflexivity|].
  split; [vm_compute; repeat split|]. eexists. split; [reflexivity|]. split.
  { constructor; [|constructor]. unfold wf_sdr. do 10 (split; [vm_compute; reflexivity|]). split.
    - constructor; [|constructor]. split; [vm_compute; reflexivity|]. split; [cbn; auto|].
      eexists. split; [reflexivity|]. split; [reflexivity|]. left. reflexivity.
    - eexists. split; [vm_compute; reflexivity|]. split; [vm_compute; reflexivity|]. left. reflexivity. }
  split; [reflexivity|]. eexists. split; [vm_compute; reflexivity|]. split; [discriminate|]. vm_compute. reflexivity.
Qed.

(** ** C33: whatever Decode accepts, Encode encodes (provided the protobuf
    library can marshal what it unmarshalled). *)
Theorem C33_decoded_encodes : forall (E : go_env) p data spare p', pb_total -> bytes_ok data = true ->
  pkg_decode p (mkSlice data spare) = (p', DRet 0 false) ->
  exists p1 b, pkg_encode p' = (p1, Ok b).
Proof. exact @accepted_encodes. Qed.
Example C33_example : @pb_total env0 /\ dec_ok vec_msg = true.
Proof. split; [intros b m Hb H; eexists; reflexivity|vm_compute; reflexivity]. Qed.

(** ** C34: Decode then Encode reproduces the bytes.  Refuted by the packet of
    the repository's own server test. *)
Theorem C34_reencode_identical_refuted : forall E : go_env, exists p p1 b',
  bytes_ok vec_msg = true /\
  pkg_decode pkg0 (mkSlice vec_msg []) = (p, DRet 0 false) /\ pkg_encode p = (p1, Ok b') /\ b' <> vec_msg.
Proof. exact @reencode_refuted. Qed.
(** Partial: true for every packet that this library encoded from a well-formed
    package whose positions are on the wire grid.  Missing: packets with
    non-canonical content (reserved bits, trailing bytes, short records) and
    positions moved by quantisation (see C20). *)
Theorem C34_reencode_identical_partial : forall (E : go_env) p p1 b, wf_pkg p ->
  (forall f, pSFRD p = Some f -> stable_frame f) ->
  pkg_encode p = (p1, Ok b) ->
  forall spare p' p2 r, pkg_decode pkg0 (mkSlice b spare) = (p', DRet 0 false) ->
  pkg_encode p' = (p2, r) -> r = Ok b.
Proof. exact @decode_encode_canonical. Qed.
Example C34_example : forall E : go_env, wf_pkg ex_pkg /\ (forall f, pSFRD ex_pkg = Some f -> stable_frame f).
Proof.
  intros E. split; [apply C14_example|]. intros f Hf. injection Hf as <-.
  constructor; [|constructor]. constructor; [exact I|constructor].
Qed.

(** ** C35: a second Encode of the same package gives the same outcome, and the
    lengths left in the package are those of the packet. *)
Theorem C35_encode_repeatable : forall (E : go_env) p,
  snd (pkg_encode (fst (pkg_encode p))) = snd (pkg_encode p).
Proof. exact @encode_repeat_all. Qed.
Theorem C35_lengths_left_behind : forall (E : go_env) p p1 b, pkg_encode p = (p1, Ok b) ->
  pkg_encode p1 = (p1, Ok b) /\ byte_at b 3 = pHL p1 /\ word_at b 5 = pFDL p1.
Proof. exact @encode_lengths. Qed.

(** ** C36: the declared body length is the true one.  Refuted: Encode succeeds
    on a body of 65546 bytes and declares 10; on one of 65536 bytes it declares
    0 and silently emits no body at all. *)
Theorem C36_declared_length_refuted : forall E : go_env, exists p p1 hdr body,
  frame_encode (pSFRD p) = Ok body /\ blen body = 65546 /\ length hdr = 11%nat /\
  pkg_encode p = (p1, Ok (hdr ++ body ++ le_enc 2 (crc16 body))) /\ word_at hdr 5 = 10 /\ pFDL p1 = 10.
Proof. exact @fdl_refuted. Qed.
Theorem C36_body_dropped_refuted : forall E : go_env, exists p p1 hdr body,
  frame_encode (pSFRD p) = Ok body /\ blen body = 65536 /\ length hdr = 11%nat /\
  pkg_encode p = (p1, Ok hdr) /\ word_at hdr 5 = 0.
Proof. exact @body_dropped. Qed.
(** Partial: true for every body below 2^16 bytes. *)
Theorem C36_declared_length_partial : forall (E : go_env) p p1 b, pkg_encode p = (p1, Ok b) ->
  exists hdr body, frame_encode (pSFRD p) = Ok body /\
    length hdr = (if is1 (pRTE p) then 16%nat else 11%nat) /\
    last hdr 0 = crc8 (removelast hdr) /\
    (blen body < 2 ^ 16 ->
     word_at hdr 5 = blen body /\ pFDL p1 = blen body /\
     b = hdr ++ (if blen body =? 0 then [] else body ++ le_enc 2 (crc16 body))).
Proof. exact @fdl_partial. Qed.
(** Exactly: the length is declared modulo 2^16, and a body whose length is a
    multiple of 2^16 is left out. *)
Theorem C36_declared_length_exactly : forall (E : go_env) p p1 b, pkg_encode p = (p1, Ok b) ->
  exists hdr body, frame_encode (pSFRD p) = Ok body /\
    length hdr = (if is1 (pRTE p) then 16%nat else 11%nat) /\
    word_at b 5 = blen body mod 2 ^ 16 /\ pFDL p1 = blen body mod 2 ^ 16 /\
    (word_at b 5 = blen body <-> blen body < 2 ^ 16) /\
    (blen body mod 2 ^ 16 <> 0 -> b = hdr ++ body ++ le_enc 2 (crc16 body)) /\
    (blen body mod 2 ^ 16 = 0 -> b = hdr).
Proof.
  intros E p p1 b H. destruct (encode_layout _ _ _ H) as (hdr & body & L1 & L2 & L3 & L4 & L5 & L6 & L7).
  exists hdr, body. split; [exact L1|]. split; [exact L2|]. unfold u16 in *. change (2 ^ 16) with 65536 in *.
  assert (W : word_at b 5 = blen body mod 65536).
  { rewrite <- L4, L7. unfold word_at. rewrite !app_nth1 by (rewrite L2; destruct (is1 (pRTE p)); lia). reflexivity. }
  split; [exact W|]. split; [exact L5|]. split.
  - rewrite W. split; intros G; [rewrite <- G; apply N.mod_lt; discriminate|apply N.mod_small, G].
  - rewrite L7. split; intros G; [apply N.eqb_neq in G|apply N.eqb_eq in G]; rewrite G; [reflexivity|apply app_nil_r].
Qed.

Print Assumptions C14_package_roundtrip.
Print Assumptions C33_decoded_encodes.
Print Assumptions C34_reencode_identical_refuted.
Print Assumptions C34_reencode_identical_partial.
Print Assumptions C35_encode_repeatable.
Print Assumptions C35_lengths_left_behind.
Print Assumptions C36_declared_length_refuted.
Print Assumptions C36_body_dropped_refuted.
Print Assumptions C36_declared_length_partial.
Print Assumptions C36_declared_length_exactly.
