(** * Spec_Verdict: what Package.Decode reports for each input, as a table on
    the bytes.  [spare] are the bytes between length and capacity. *)
From Verif Require Import GoBase Crc Float64 SubRecords Records Package Spec_Bits Spec_Wf Spec_Rec Spec_Pkg.

Section SpecVerdict.
Context {E : go_env}.

(** The bytes the header checksum is computed over: everything before offset
    (declared header length - 1), the subtraction being done in a byte. *)
Definition hdr_area_len (data : bytes) : N := if decl_hl data =? 0 then 255 else decl_hl data - 1.
Definition header_present (data : bytes) : Prop := (hcs_pos data < length data)%nat.
Definition header_valid (data spare : bytes) : Prop :=
  header_present data /\ hdr_area_len data <= blen (data ++ spare) /\
  byte_at data (hcs_pos data) = crc8 (area (data ++ spare) 0 (hdr_area_len data)).
(** One of the two packet types the library knows. *)
Definition known_type (data : bytes) : Prop := byte_at data 9 = 0 \/ byte_at data 9 = 1.
(** The declared frame is present, and something follows it. *)
Definition frame_present (data : bytes) : Prop :=
  (frame_pos data + N.to_nat (decl_fdl data) < length data)%nat.
Definition frame_valid (data : bytes) : Prop :=
  exists f, frame_decode (byte_at data 9) (frame_of data) = Ok f.
(** The bytes the body checksum is computed over exist. *)
Definition sum_area_inside (data spare : bytes) : Prop :=
  decl_hl data + decl_fdl data < 2 ^ 16 /\ decl_hl data + decl_fdl data <= blen (data ++ spare).
Definition sum_right (data spare : bytes) : Prop :=
  sfrcs_of data = crc16 (area (data ++ spare) (decl_hl data) (decl_fdl data)).

Inductive verdict (data spare : bytes) : dec_out -> Prop :=
| v_header_short : ~ header_present data -> verdict data spare (DRet 131 true)
| v_header_panic : header_present data -> blen (data ++ spare) < hdr_area_len data -> verdict data spare DPanic
| v_header_sum : header_present data -> hdr_area_len data <= blen (data ++ spare) ->
    byte_at data (hcs_pos data) <> crc8 (area (data ++ spare) 0 (hdr_area_len data)) ->
    verdict data spare (DRet 137 true)
| v_no_body : header_valid data spare -> length data = frame_pos data -> verdict data spare (DRet 132 true)
| v_type : header_valid data spare -> (frame_pos data < length data)%nat -> ~ known_type data ->
    verdict data spare (DRet 133 true)
| v_body : header_valid data spare -> (frame_pos data < length data)%nat -> known_type data ->
    ~ (frame_present data /\ frame_valid data) -> verdict data spare (DRet 129 true)
| v_sum_panic : header_valid data spare -> known_type data -> frame_present data -> frame_valid data ->
    ~ sum_area_inside data spare -> verdict data spare DPanic
| v_body_sum : header_valid data spare -> known_type data -> frame_present data -> frame_valid data ->
    sum_area_inside data spare -> ~ sum_right data spare -> verdict data spare (DRet 137 true)
| v_ok : header_valid data spare -> known_type data -> frame_present data -> frame_valid data ->
    sum_area_inside data spare -> sum_right data spare -> verdict data spare (DRet 0 false).

(** ** What can be told about Encode's result without decoding it. *)
(** The header fields hold what their Go types and their documentation allow:
    bit strings of the documented width, and the header length of the standard
    (or 0, which Encode replaces). *)
Definition header_typed (p : package) : Prop :=
  pPRV p < 256 /\ pSKID p < 256 /\ bits_ok 2 (pPRF p) = true /\ bits_ok 1 (pRTE p) = true /\
  bits_ok 2 (pENA p) = true /\ bits_ok 1 (pCMP p) = true /\ bits_ok 2 (pPR p) = true /\
  pHE p < 256 /\ pPID p < 2 ^ 16 /\ pPT p < 256 /\
  pPRA p < 2 ^ 16 /\ pRCA p < 2 ^ 16 /\ pTTL p < 256 /\
  (pHL p = 0 \/ pHL p = (if is1 (pRTE p) then 16 else 11)).

End SpecVerdict.
