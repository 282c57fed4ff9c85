(** * Spec_Pkg: the wire layout of an EGTS packet, by byte offsets, and the
    outcome of decoding one, stated on the bytes. *)
From Verif Require Import GoBase Crc Float64 SubRecords Records Package Spec_Bits Spec_Wf Spec_Rec.

Section SpecPkg.
Context {E : go_env}.

Definition byte_at (b : bytes) (i : nat) : N := nth i b 0.
Definition word_at (b : bytes) (i : nat) : N := nth i b 0 + 256 * nth (S i) b 0.
(** "0" or "1" *)
Definition bit_str (x : bool) : gostr := if x then s1 else s0.

(** Bit 5 of the flags byte (RTE): the header carries PRA, RCA and TTL. *)
Definition routed (b : bytes) : bool := N.testbit (byte_at b 2) 5.
(** Offset of the header checksum byte. *)
Definition hcs_pos (b : bytes) : nat := if routed b then 15%nat else 10%nat.
(** Offset of the frame. *)
Definition frame_pos (b : bytes) : nat := S (hcs_pos b).
(** Declared header length and frame length. *)
Definition decl_hl (b : bytes) : N := byte_at b 3.
Definition decl_fdl (b : bytes) : N := word_at b 5.
(** The header length of the standard: 11, or 16 when routed. *)
Definition std_hl (b : bytes) : N := N.of_nat (frame_pos b).

(** The frame bytes. *)
Definition frame_of (b : bytes) : bytes := firstn (N.to_nat (decl_fdl b)) (skipn (frame_pos b) b).
(** The two bytes after the frame. *)
Definition sfrcs_of (b : bytes) : N := word_at b (frame_pos b + N.to_nat (decl_fdl b)).

(** [n] bytes of [m] from offset [i]. *)
Definition area (m : bytes) (i n : N) : bytes := firstn (N.to_nat n) (skipn (N.to_nat i) m).

(** The header fields of [p] are the ones at the documented offsets of [b]. *)
Definition header_agrees (b : bytes) (p : package) : Prop :=
  let fl := byte_at b 2 in
  pPRV p = byte_at b 0 /\ pSKID p = byte_at b 1 /\
  pPRF p = bit_str (N.testbit fl 7) ++ bit_str (N.testbit fl 6) /\
  pRTE p = bit_str (N.testbit fl 5) /\
  pENA p = bit_str (N.testbit fl 4) ++ bit_str (N.testbit fl 3) /\
  pCMP p = bit_str (N.testbit fl 2) /\
  pPR p = bit_str (N.testbit fl 1) ++ bit_str (N.testbit fl 0) /\
  pHL p = byte_at b 3 /\ pHE p = byte_at b 4 /\
  pFDL p = word_at b 5 /\ pPID p = word_at b 7 /\ pPT p = byte_at b 9 /\
  (routed b = true -> pPRA p = word_at b 10 /\ pRCA p = word_at b 12 /\ pTTL p = byte_at b 14) /\
  pHCS p = byte_at b (hcs_pos b) /\
  pSFRCS p = sfrcs_of b.

(** The packet at the start of [b] is present as a whole, with two checksum
    bytes. *)
Definition complete (b : bytes) : Prop :=
  (frame_pos b + N.to_nat (decl_fdl b) + 2 <= length b)%nat.

(** [p'] is [p] as received: every field of the header and every record kept,
    header length, frame length and both checksums filled in with the true
    values for the frame bytes [body] and the header bytes [hdr]. *)
Definition filled_pkg (p p' : package) (hdr body : bytes) : Prop :=
  pPRV p' = pPRV p /\ pSKID p' = pSKID p /\ pPRF p' = pPRF p /\ pRTE p' = pRTE p /\
  pENA p' = pENA p /\ pCMP p' = pCMP p /\ pPR p' = pPR p /\
  pHL p' = blen hdr + 1 /\ pHE p' = pHE p /\ pFDL p' = blen body /\
  pPID p' = pPID p /\ pPT p' = pPT p /\
  pPRA p' = pPRA p /\ pRCA p' = pRCA p /\ pTTL p' = pTTL p /\
  pHCS p' = crc8 hdr /\ pSFRCS p' = crc16 body /\
  exists f f', pSFRD p = Some f /\ pSFRD p' = Some f' /\ filled_frame f f'.

(** A packet given as header, frame and what follows, whose declared header
    length is the true one. *)
Definition std_packet (hdr body rest : bytes) : Prop :=
  length hdr = frame_pos hdr /\ decl_hl hdr = blen hdr /\ decl_fdl hdr = blen body.

(** The inputs on which Decode panics: [spare] are the bytes between the length
    and the capacity of the slice. *)
Definition panics (data spare : bytes) : Prop :=
  let m := data ++ spare in
  (hcs_pos data < length data)%nat /\
  (blen m < u8 (decl_hl data + 255)
   \/ (u8 (decl_hl data + 255) <= blen m /\
       byte_at data (hcs_pos data) = crc8 (area m 0 (u8 (decl_hl data + 255))) /\
       (frame_pos data + N.to_nat (decl_fdl data) < length data)%nat /\
       (byte_at data 9 = 0 \/ byte_at data 9 = 1) /\
       (exists f, frame_decode (byte_at data 9) (frame_of data) = Ok f) /\
       (2 ^ 16 <= decl_hl data + decl_fdl data \/ blen m < decl_hl data + decl_fdl data))).

End SpecPkg.
