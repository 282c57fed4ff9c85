(** * Prop_Decode: C03–C12 — Package.Decode and the record decoders on
    arbitrary bytes.  [E] ranges over every behaviour of the unmodelled library
    calls; a slice is given by its bytes and the [spare] bytes up to its
    capacity; a successful Decode is [DRet 0 false]. *)
From Verif Require Import GoBase Crc Float64 SubRecords Records Package
  Spec_Bits Spec_Wf Spec_Rec Spec_Crc Spec_Pkg BaseFacts CrcFacts SubFacts RecFacts DecFacts
  PkgFacts PkgFacts2 SuffixFacts PkgFacts3 Witness Glue Vectors TruncFacts.

(** The packet used in the examples: the repository's own PtResponse vector. *)
Definition ex_hdr : bytes := [1; 0; 3; 11; 0; 3; 0; 137; 0; 0; 74].
Definition ex_body : bytes := [21; 56; 0].
Definition ex_sum : bytes := [51; 232].
Example ex_accepted : exists p, bytes_ok (ex_hdr ++ ex_body ++ ex_sum) = true /\
  length ex_hdr = frame_pos ex_hdr /\ decl_hl ex_hdr = std_hl ex_hdr /\ decl_fdl ex_hdr = blen ex_body /\
  pkg_decode pkg0 (mkSlice (ex_hdr ++ ex_body ++ ex_sum) []) = (p, DRet 0 false).
Proof. eexists. do 4 (split; [vm_compute; reflexivity|]). vm_compute. reflexivity. Qed.

(** ** C03: a body damaged by a burst of at most 16 bits.
    Refuted: with a declared header length of 1 the checksum does not cover the
    body, and the damaged packet is accepted with different contents. *)
Theorem C03_body_burst_detected_refuted : forall E : go_env,
  exists hdr body body' rest p p',
  bytes_ok (hdr ++ body ++ rest) = true /\ bytes_ok body' = true /\
  length hdr = frame_pos hdr /\ decl_fdl hdr = blen body /\ length rest = 2%nat /\
  burst 16 body body' /\
  pkg_decode pkg0 (mkSlice (hdr ++ body ++ rest) []) = (p, DRet 0 false) /\
  pkg_decode pkg0 (mkSlice (hdr ++ body' ++ rest) []) = (p', DRet 0 false) /\
  pSFRD p <> pSFRD p'.
Proof. exact @body_burst_refuted. Qed.
(** Partial: true when the declared header length is the standard one (11, or 16
    with routing).  Missing: other header lengths, for which it is false. *)
Theorem C03_body_burst_detected_partial : forall (E : go_env) p q hdr body body' rest spare p' e,
  bytes_ok (hdr ++ body ++ rest) = true -> bytes_ok body' = true ->
  length hdr = frame_pos hdr -> decl_hl hdr = std_hl hdr -> decl_fdl hdr = blen body ->
  pkg_decode p (mkSlice (hdr ++ body ++ rest) spare) = (p', DRet 0 e) ->
  burst 16 body body' ->
  exists q' code, pkg_decode q (mkSlice (hdr ++ body' ++ rest) spare) = (q', DRet code true) /\ code <> 0.
Proof. exact @burst_rejected. Qed.
Example C03_example : burst 16 ex_body [21; 49; 128].
Proof. split; [reflexivity|]. exists 0x980, 0. vm_compute. split; [split|]; reflexivity. Qed.

(** ** C04: one damaged header byte (not the header-length byte, and not the
    RTE bit of the flags byte).  Refuted the same way. *)
Theorem C04_header_byte_detected_refuted : forall E : go_env,
  exists pre x y post rest p p',
  bytes_ok (pre ++ x :: post ++ rest) = true /\ byte_ok y = true /\ x <> y /\ length pre = 8%nat /\
  length (pre ++ x :: post) = frame_pos (pre ++ x :: post) /\
  pkg_decode pkg0 (mkSlice (pre ++ x :: post ++ rest) []) = (p, DRet 0 false) /\
  pkg_decode pkg0 (mkSlice (pre ++ y :: post ++ rest) []) = (p', DRet 0 false) /\
  pPID p <> pPID p'.
Proof. exact @header_byte_refuted. Qed.
Theorem C04_header_byte_detected_partial : forall (E : go_env) p q pre x y post rest spare p' e,
  bytes_ok (pre ++ x :: post) = true -> byte_ok y = true -> bytes_ok rest = true -> x <> y ->
  let hdr := pre ++ x :: post in let hdr' := pre ++ y :: post in
  length hdr = frame_pos hdr -> decl_hl hdr = std_hl hdr ->
  length pre <> 3%nat -> (length pre = 2%nat -> routed hdr' = routed hdr) ->
  pkg_decode p (mkSlice (hdr ++ rest) spare) = (p', DRet 0 e) ->
  snd (pkg_decode q (mkSlice (hdr' ++ rest) spare)) = DRet 137 true.
Proof. exact @header_rejected. Qed.
Example C04_example : exists pre x post, ex_hdr = pre ++ x :: post /\ length pre = 7%nat /\ x = 137.
Proof. exists [1; 0; 3; 11; 0; 3; 0], 137, [0; 0; 74]. repeat split. Qed.

(** ** C05: the code reported for a wrong body checksum should be 138.
    Refuted: a packet whose only defect is a wrong body checksum always gets
    137 (header checksum error), and no input whatsoever gets 138. *)
Theorem C05_body_crc_code_refuted : forall (E : go_env) p hdr body rest spare f,
  bytes_ok (hdr ++ body ++ rest) = true ->
  length hdr = frame_pos hdr -> decl_hl hdr = std_hl hdr -> decl_fdl hdr = blen body ->
  length rest = 2%nat -> blen hdr + blen body < 2 ^ 16 ->
  byte_at hdr (hcs_pos hdr) = crc8 (firstn (hcs_pos hdr) hdr) ->
  (byte_at hdr 9 = 0 \/ byte_at hdr 9 = 1) ->
  frame_decode (byte_at hdr 9) body = Ok f ->
  word_at rest 0 <> crc16 body ->
  snd (pkg_decode p (mkSlice (hdr ++ body ++ rest) spare)) = DRet 137 true.
Proof. exact @body_crc_code. Qed.
Theorem C05_138_never_reported : forall (E : go_env) p data spare e, bytes_ok data = true ->
  snd (pkg_decode p (mkSlice data spare)) <> DRet 138 e.
Proof. exact @never_138. Qed.
Example C05_example : forall E : go_env, exists hdr body rest f,
  bytes_ok (hdr ++ body ++ rest) = true /\ std_packet hdr body rest /\ length rest = 2%nat /\
  blen hdr + blen body < 2 ^ 16 /\
  byte_at hdr (hcs_pos hdr) = crc8 (firstn (hcs_pos hdr) hdr) /\
  byte_at hdr 9 = 0 /\ frame_decode (byte_at hdr 9) body = Ok f /\ word_at rest 0 <> crc16 body.
Proof. exact @wrong_body_witness. Qed.

(** ** C06: what success means, in terms of the bytes (the checksums are taken
    over the slice up to its capacity, at the declared header length). *)
Theorem C06_acceptance_sound : forall (E : go_env) p data spare p' e, bytes_ok data = true ->
  pkg_decode p (mkSlice data spare) = (p', DRet 0 e) ->
  let m := data ++ spare in
  e = false /\
  1 + N.of_nat (hcs_pos data) + decl_fdl data < blen data /\
  byte_at data (hcs_pos data) = crc8 (area m 0 (if decl_hl data =? 0 then 255 else decl_hl data - 1)) /\
  sfrcs_of data = crc16 (area m (decl_hl data) (decl_fdl data)) /\
  blen (area m (decl_hl data) (decl_fdl data)) = decl_fdl data /\
  (byte_at data 9 = 0 \/ byte_at data 9 = 1) /\
  header_agrees data p' /\
  exists f, pSFRD p' = Some f /\ frame_decode (byte_at data 9) (frame_of data) = Ok f.
Proof. exact @accept_sound. Qed.
(** ... and conversely these conditions suffice. *)
Theorem C06_acceptance_complete : forall (E : go_env) p data spare f, bytes_ok data = true ->
  let m := data ++ spare in
  1 + N.of_nat (hcs_pos data) + decl_fdl data < blen data ->
  1 <= decl_hl data -> decl_hl data - 1 <= blen m ->
  decl_hl data + decl_fdl data < 2 ^ 16 -> decl_hl data + decl_fdl data <= blen m ->
  byte_at data (hcs_pos data) = crc8 (area m 0 (decl_hl data - 1)) ->
  sfrcs_of data = crc16 (area m (decl_hl data) (decl_fdl data)) ->
  (byte_at data 9 = 0 \/ byte_at data 9 = 1) ->
  frame_decode (byte_at data 9) (frame_of data) = Ok f ->
  exists p', pkg_decode p (mkSlice data spare) = (p', DRet 0 false) /\ header_agrees data p' /\ pSFRD p' = Some f.
Proof. exact @accept_complete. Qed.

(** ** C07: every decoder returns (or panics) on every input: the recursion
    bound of the model is never reached, and is irrelevant to the result. *)
Theorem C07_decode_terminates : forall (E : go_env) p data spare, bytes_ok data = true ->
  exists p', (exists code e, pkg_decode p (mkSlice data spare) = (p', DRet code e)) \/
             pkg_decode p (mkSlice data spare) = (p', DPanic).
Proof. exact @decode_terminates. Qed.
Theorem C07_nesting_bounded_by_length : forall (E : go_env) d b, (length b < d)%nat ->
  sds_decode_d d b = sds_decode b /\ sds_decode b <> Fuel.
Proof. exact @nesting_bounded. Qed.

(** ** C08: Decode never panics.  Refuted: 12 bytes with header length 0, and a
    packet whose declared lengths exceed 2^16. *)
Theorem C08_never_panics_refuted : forall E : go_env,
  exists b, bytes_ok b = true /\ length b = 12%nat /\
    pkg_decode pkg0 (mkSlice b []) = (fst (pkg_decode pkg0 (mkSlice b [])), DPanic).
Proof. exact @panic_refuted. Qed.
(** The exact set of inputs on which it panics ... *)
Theorem C08_panics_exactly : forall (E : go_env) p data spare, bytes_ok data = true ->
  (snd (pkg_decode p (mkSlice data spare)) = DPanic <-> panics data spare).
Proof. exact @panic_iff. Qed.
(** ... none of which has a declared header length between 1 and the standard
    one and declared lengths that fit 16 bits. *)
Theorem C08_never_panics_partial : forall (E : go_env) p data spare, bytes_ok data = true ->
  1 <= decl_hl data <= std_hl data -> decl_hl data + decl_fdl data < 2 ^ 16 ->
  snd (pkg_decode p (mkSlice data spare)) <> DPanic.
Proof. exact @no_panic. Qed.
Example C08_example : 1 <= decl_hl ex_hdr <= std_hl ex_hdr /\ decl_hl ex_hdr + decl_fdl ex_hdr < 2 ^ 16.
Proof. vm_compute. repeat split; discriminate. Qed.

(** ** C09: the record-level decoders return a value or an error on every input. *)
Theorem C09_record_decoders_return : forall (E : go_env) b,
  (sds_decode b = Err \/ exists l, sds_decode b = Ok l) /\
  (rds_decode b = Err \/ exists l, rds_decode b = Ok l) /\
  (ptr_decode b = Err \/ exists l, ptr_decode b = Ok l) /\
  (srresp_decode b = Err \/ exists l, srresp_decode b = Ok l).
Proof. exact @record_decoders_return. Qed.
Theorem C09_subrecord_decoders_return : forall (E : go_env) t len b,
  sub_decode (depth_for b) t len b = Err \/ exists d, sub_decode (depth_for b) t len b = Ok d.
Proof. exact @subrecord_decoders_return. Qed.

(** ** C10: no proper prefix of an accepted packet is accepted.  Refuted: when
    the last checksum byte is zero it may be missing. *)
Theorem C10_truncation_detected_refuted : forall E : go_env,
  exists hdr body a p,
  bytes_ok (hdr ++ body ++ [a; 0]) = true /\ std_packet hdr body [a; 0] /\
  pkg_decode pkg0 (mkSlice (hdr ++ body ++ [a; 0]) []) = (p, DRet 0 false) /\
  pkg_decode pkg0 (mkSlice (hdr ++ body ++ [a]) []) = (p, DRet 0 false).
Proof. exact @prefix_refuted. Qed.
(** Partial: with a standard header length that is the only exception, and then
    the result is the same. *)
Theorem C10_truncation_detected_partial : forall (E : go_env) p hdr body a b spare p' e,
  bytes_ok (hdr ++ body ++ [a; b]) = true ->
  length hdr = frame_pos hdr -> decl_hl hdr = std_hl hdr -> decl_fdl hdr = blen body ->
  pkg_decode p (mkSlice (hdr ++ body ++ [a; b]) spare) = (p', DRet 0 e) ->
  forall k spare' q' e', (k < length (hdr ++ body ++ [a; b]))%nat ->
  pkg_decode p (mkSlice (firstn k (hdr ++ body ++ [a; b])) spare') = (q', DRet 0 e') ->
  b = 0 /\ firstn k (hdr ++ body ++ [a; b]) = hdr ++ body ++ [a] /\ q' = p'.
Proof. exact @prefix_cases. Qed.

(** Exactly: a proper prefix is accepted if and only if it lacks one zero. *)
Theorem C10_truncation_detected_exactly : forall (E : go_env) p hdr body a b spare p' e,
  bytes_ok (hdr ++ body ++ [a; b]) = true ->
  length hdr = frame_pos hdr -> decl_hl hdr = std_hl hdr -> decl_fdl hdr = blen body ->
  pkg_decode p (mkSlice (hdr ++ body ++ [a; b]) spare) = (p', DRet 0 e) ->
  forall k spare', (k < length (hdr ++ body ++ [a; b]))%nat ->
  ((exists q' e', pkg_decode p (mkSlice (firstn k (hdr ++ body ++ [a; b])) spare') = (q', DRet 0 e')) <->
   b = 0 /\ S k = length (hdr ++ body ++ [a; b])).
Proof. exact @prefix_exact. Qed.

(** ** C11: bytes after a complete packet have no influence.  Refuted: with a
    declared header length of 14 the byte after the packet decides between
    acceptance and rejection, and its absence makes Decode panic. *)
Theorem C11_suffix_irrelevant_refuted : forall E : go_env,
  exists b x y p,
  bytes_ok b = true /\ complete b /\
  snd (pkg_decode pkg0 (mkSlice (b ++ [x]) [])) = DRet 0 false /\
  pkg_decode pkg0 (mkSlice (b ++ [y]) []) = (p, DRet 137 true) /\
  snd (pkg_decode pkg0 (mkSlice b [])) = DPanic.
Proof. exact @suffix_refuted. Qed.
Theorem C11_suffix_irrelevant_partial : forall (E : go_env) p data suffix spare spare',
  bytes_ok data = true -> bytes_ok suffix = true ->
  complete data -> 1 <= decl_hl data <= std_hl data + 2 ->
  pkg_decode p (mkSlice (data ++ suffix) spare') = pkg_decode p (mkSlice data spare).
Proof. exact @suffix_ignored2. Qed.
(** Exactly: a packet that can be accepted is unaffected by what follows it if
    and only if the checksummed areas its header length declares lie inside it. *)
Theorem C11_suffix_irrelevant_exactly : forall (E : go_env) p data s0 spare0 p',
  bytes_ok data = true -> bytes_ok s0 = true ->
  length data = (frame_pos data + N.to_nat (decl_fdl data) + 2)%nat ->
  pkg_decode p (mkSlice (data ++ s0) spare0) = (p', DRet 0 false) ->
  ((forall suffix spare, bytes_ok suffix = true ->
      pkg_decode p (mkSlice (data ++ suffix) spare) = (p', DRet 0 false)) <->
   1 <= decl_hl data <= std_hl data + 2 \/ (decl_hl data = 0 /\ 255 <= blen data)).
Proof. exact @suffix_exactly. Qed.
Example C11_example : complete (ex_hdr ++ ex_body ++ ex_sum) /\
  1 <= decl_hl (ex_hdr ++ ex_body ++ ex_sum) <= std_hl (ex_hdr ++ ex_body ++ ex_sum).
Proof. vm_compute. repeat split; try discriminate. repeat constructor. Qed.

(** ** C12: the receiver's previous contents have no influence.  Refuted: the
    routing fields survive. *)
Theorem C12_receiver_irrelevant_refuted : forall E : go_env,
  exists routed_pkt pkt used fresh again,
  pkg_decode pkg0 (mkSlice routed_pkt []) = (used, DRet 0 false) /\
  pkg_decode pkg0 (mkSlice pkt []) = (fresh, DRet 0 false) /\
  pkg_decode used (mkSlice pkt []) = (again, DRet 0 false) /\
  pPRA fresh = 0 /\ pPRA again = 513.
Proof. exact @receiver_refuted. Qed.
(** Partial: the outcome is always the same, and so is everything but the
    routing fields of a packet without routing. *)
Theorem C12_receiver_irrelevant_partial : forall (E : go_env) p q data spare p' q', bytes_ok data = true ->
  pkg_decode p (mkSlice data spare) = (p', DRet 0 false) ->
  pkg_decode q (mkSlice data spare) = (q', DRet 0 false) ->
  set_PRA 0 (set_RCA 0 (set_TTL 0 p')) = set_PRA 0 (set_RCA 0 (set_TTL 0 q')) /\
  (routed data = true \/ (pPRA p = pPRA q /\ pRCA p = pRCA q /\ pTTL p = pTTL q) -> p' = q').
Proof. exact @receiver_partial. Qed.
(** Exactly: two receivers end up equal when the packet has routing, or their
    routing fields were equal before; otherwise each keeps its own. *)
Theorem C12_receiver_irrelevant_exactly : forall (E : go_env) p q data spare p' q', bytes_ok data = true ->
  pkg_decode p (mkSlice data spare) = (p', DRet 0 false) ->
  pkg_decode q (mkSlice data spare) = (q', DRet 0 false) ->
  (p' = q' <-> routed data = true \/ (pPRA p = pPRA q /\ pRCA p = pRCA q /\ pTTL p = pTTL q)) /\
  (routed data = false -> pPRA p' = pPRA p /\ pRCA p' = pRCA p /\ pTTL p' = pTTL p).
Proof.
  intros E p q data spare p' q' Hb Hp Hq. assert (K : forall p p', pkg_decode p (mkSlice data spare) = (p', DRet 0 false) ->
    routed data = false -> pPRA p' = pPRA p /\ pRCA p' = pRCA p /\ pTTL p' = pTTL p).
  { clear p p' q q' Hp Hq. intros p p' H Hr. exact (receiver_kept p p' data spare Hb Hr H). }
  split; [|exact (K p p' Hp)]. split; [|exact (proj2 (receiver_partial p q data spare p' q' Hb Hp Hq))].
  intros <-. destruct (routed data) eqn:Hr; [left; reflexivity|right].
  destruct (K p p' Hp eq_refl) as (P1 & P2 & P3). destruct (K q p' Hq eq_refl) as (Q1 & Q2 & Q3).
  split; [congruence|]. split; congruence.
Qed.
Theorem C12_outcome_independent : forall (E : go_env) p q data spare, bytes_ok data = true ->
  snd (pkg_decode p (mkSlice data spare)) = snd (pkg_decode q (mkSlice data spare)).
Proof. exact @receiver_outcome. Qed.

Print Assumptions C03_body_burst_detected_refuted.
Print Assumptions C03_body_burst_detected_partial.
Print Assumptions C04_header_byte_detected_refuted.
Print Assumptions C04_header_byte_detected_partial.
Print Assumptions C05_body_crc_code_refuted.
Print Assumptions C05_138_never_reported.
Print Assumptions C06_acceptance_sound.
Print Assumptions C06_acceptance_complete.
Print Assumptions C07_decode_terminates.
Print Assumptions C07_nesting_bounded_by_length.
Print Assumptions C08_never_panics_refuted.
Print Assumptions C08_panics_exactly.
Print Assumptions C08_never_panics_partial.
Print Assumptions C09_record_decoders_return.
Print Assumptions C09_subrecord_decoders_return.
Print Assumptions C10_truncation_detected_refuted.
Print Assumptions C10_truncation_detected_partial.
Print Assumptions C10_truncation_detected_exactly.
Print Assumptions C11_suffix_irrelevant_refuted.
Print Assumptions C11_suffix_irrelevant_partial.
Print Assumptions C11_suffix_irrelevant_exactly.
Print Assumptions C12_receiver_irrelevant_refuted.
Print Assumptions C12_receiver_irrelevant_partial.
Print Assumptions C12_outcome_independent.
Print Assumptions C12_receiver_irrelevant_exactly.
