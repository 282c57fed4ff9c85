(** * Witness: concrete packets that refute properties of Package.Decode.
    Each is checked by computation in every environment. *)
From Verif Require Import GoBase Crc Float64 SubRecords Records Package
  Spec_Bits Spec_Wf Spec_Rec Spec_Crc Spec_Pkg.

Section Witness.
Context {E : go_env}.

(** HL = 1: the checksummed parts are content[:0] and content[1:1+FDL], neither
    of which contains the identifier or the body. *)
Definition hl1_hdr (pid : N) : bytes := [1; 0; 0; 1; 0; 3; 0; pid; 0; 0; 255].
Definition hl1_rest : bytes := le_enc 2 56509.

Lemma body_burst_refuted : exists hdr body body' rest p p',
  bytes_ok (hdr ++ body ++ rest) = true /\ bytes_ok body' = true /\
  length hdr = frame_pos hdr /\ decl_fdl hdr = blen body /\ length rest = 2%nat /\
  burst 16 body body' /\
  pkg_decode pkg0 (mkSlice (hdr ++ body ++ rest) []) = (p, DRet 0 false) /\
  pkg_decode pkg0 (mkSlice (hdr ++ body' ++ rest) []) = (p', DRet 0 false) /\
  pSFRD p <> pSFRD p'.
Proof.
  exists (hl1_hdr 9), [7; 0; 0], [7; 0; 1], hl1_rest. do 2 eexists.
  split; [vm_compute; reflexivity|]. split; [vm_compute; reflexivity|].
  split; [vm_compute; reflexivity|]. split; [vm_compute; reflexivity|].
  split; [vm_compute; reflexivity|].
  split. { split; [reflexivity|]. exists 1, 0. vm_compute. split; [split|]; reflexivity. }
  split; [vm_compute; reflexivity|]. split; [vm_compute; reflexivity|].
  cbn. discriminate.
Qed.

(** offset 8 is the high byte of the packet identifier *)
Lemma header_byte_refuted : exists pre x y post rest p p',
  bytes_ok (pre ++ x :: post ++ rest) = true /\ byte_ok y = true /\ x <> y /\ length pre = 8%nat /\
  length (pre ++ x :: post) = frame_pos (pre ++ x :: post) /\
  pkg_decode pkg0 (mkSlice (pre ++ x :: post ++ rest) []) = (p, DRet 0 false) /\
  pkg_decode pkg0 (mkSlice (pre ++ y :: post ++ rest) []) = (p', DRet 0 false) /\
  pPID p <> pPID p'.
Proof.
  exists [1; 0; 0; 1; 0; 3; 0; 9], 0, 1, [0; 255], ([7; 0; 0] ++ hl1_rest). do 2 eexists.
  split; [vm_compute; reflexivity|]. split; [vm_compute; reflexivity|].
  split; [discriminate|]. split; [reflexivity|].
  split; [vm_compute; reflexivity|]. split; [vm_compute; reflexivity|]. split; [vm_compute; reflexivity|].
  vm_compute. discriminate.
Qed.

(** A standard packet with a wrong body checksum. *)
Lemma wrong_body_witness : exists hdr body rest f,
  bytes_ok (hdr ++ body ++ rest) = true /\ std_packet hdr body rest /\ length rest = 2%nat /\
  blen hdr + blen body < 2 ^ 16 /\
  byte_at hdr (hcs_pos hdr) = crc8 (firstn (hcs_pos hdr) hdr) /\
  byte_at hdr 9 = 0 /\ frame_decode (byte_at hdr 9) body = Ok f /\ word_at rest 0 <> crc16 body.
Proof.
  exists [1; 0; 3; 11; 0; 3; 0; 137; 0; 0; 74], [21; 56; 0], [51; 233]. eexists.
  split; [vm_compute; reflexivity|]. split; [vm_compute; repeat split|].
  split; [reflexivity|]. split; [vm_compute; reflexivity|]. split; [vm_compute; reflexivity|].
  split; [reflexivity|]. split; [vm_compute; reflexivity|]. vm_compute. discriminate.
Qed.

(** The high byte of the checksum of d8 00 00 is zero. *)
Lemma prefix_refuted : exists hdr body a p,
  bytes_ok (hdr ++ body ++ [a; 0]) = true /\ std_packet hdr body [a; 0] /\
  pkg_decode pkg0 (mkSlice (hdr ++ body ++ [a; 0]) []) = (p, DRet 0 false) /\
  pkg_decode pkg0 (mkSlice (hdr ++ body ++ [a]) []) = (p, DRet 0 false).
Proof.
  exists [1; 0; 3; 11; 0; 3; 0; 137; 0; 0; 74], [216; 0; 0], 169. eexists.
  split; [vm_compute; reflexivity|]. split; [vm_compute; repeat split|].
  split; vm_compute; reflexivity.
Qed.

(** HL = 14: the checksummed body is content[14:17], its last byte lies behind
    the packet. *)
Lemma suffix_refuted : exists b x y p,
  bytes_ok b = true /\ complete b /\
  snd (pkg_decode pkg0 (mkSlice (b ++ [x]) [])) = DRet 0 false /\
  pkg_decode pkg0 (mkSlice (b ++ [y]) []) = (p, DRet 137 true) /\
  snd (pkg_decode pkg0 (mkSlice b [])) = DPanic.
Proof.
  exists [1; 0; 0; 14; 0; 3; 0; 1; 0; 0; 118; 7; 0; 0; 60; 1], 250, 251. eexists.
  split; [reflexivity|]. split. { unfold complete. vm_compute. repeat constructor. }
  split; [vm_compute; reflexivity|]. split; vm_compute; reflexivity.
Qed.

(** A package decoded before from a routed packet keeps the route. *)
Lemma receiver_refuted : exists routed_pkt pkt used fresh again,
  pkg_decode pkg0 (mkSlice routed_pkt []) = (used, DRet 0 false) /\
  pkg_decode pkg0 (mkSlice pkt []) = (fresh, DRet 0 false) /\
  pkg_decode used (mkSlice pkt []) = (again, DRet 0 false) /\
  pPRA fresh = 0 /\ pPRA again = 513.
Proof.
  exists ([1; 0; 32; 16; 0; 3; 0; 137; 0; 0; 1; 2; 3; 4; 5]
          ++ [crc8 [1; 0; 32; 16; 0; 3; 0; 137; 0; 0; 1; 2; 3; 4; 5]] ++ [21; 56; 0; 51; 232]),
         [1; 0; 3; 11; 0; 3; 0; 137; 0; 0; 74; 21; 56; 0; 51; 232].
  do 3 eexists. split; [vm_compute; reflexivity|]. split; [vm_compute; reflexivity|].
  split; [vm_compute; reflexivity|]. split; reflexivity.
Qed.

(** HL = 0 on a slice shorter than 255 bytes; FDL so large that HL + FDL wraps. *)
Lemma panic_refuted :
  (exists b, bytes_ok b = true /\ length b = 12%nat /\ pkg_decode pkg0 (mkSlice b []) = (fst (pkg_decode pkg0 (mkSlice b [])), DPanic)).
Proof. exists [1;0;0;0;0;0;0;0;0;0;0;0]. split; [reflexivity|]. split; vm_compute; reflexivity. Qed.

End Witness.
