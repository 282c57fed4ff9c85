(** * Prop_Crc: C01, C02 — the checksums. *)
From Coq Require Import NArith List.
From Verif Require Import GoBase Crc Spec_Crc CrcFacts.

(** C01: for every byte string, crc8 and crc16 are the remainders of the
    message polynomial divided by x^8+x^5+x^4+1 (initial register 0xFF) and
    x^16+x^12+x^5+1 (initial register 0xFFFF) ... *)
Theorem C01_crc8_is_polynomial_remainder : forall data, bytes_ok data = true ->
  is_crc 8 poly8 0xFF data (crc8 data).
Proof. exact crc8_is_crc. Qed.
Theorem C01_crc16_is_polynomial_remainder : forall data, bytes_ok data = true ->
  is_crc 16 poly16 0xFFFF data (crc16 data).
Proof. exact crc16_is_crc. Qed.
(** ... and a peer that computes such a remainder in any other way gets the
    same number. *)
Theorem C01_peers_agree8 : forall data c, bytes_ok data = true ->
  is_crc 8 poly8 0xFF data c -> c = crc8 data.
Proof. exact crc8_unique. Qed.
Theorem C01_peers_agree16 : forall data c, bytes_ok data = true ->
  is_crc 16 poly16 0xFFFF data c -> c = crc16 data.
Proof. exact crc16_unique. Qed.

(** The check values of the CRC catalogue for "123456789". *)
Example C01_check_values :
  bytes_ok [49;50;51;52;53;54;55;56;57] = true /\
  crc8 [49;50;51;52;53;54;55;56;57] = 0xF7 /\ crc16 [49;50;51;52;53;54;55;56;57] = 0x29B1.
Proof. vm_compute. repeat split. Qed.

(** C02: strings that differ by a burst of at most 16 (8) bits have different
    body (header) checksums. *)
Theorem C02_burst16_changes_crc16 : forall a b, bytes_ok a = true -> bytes_ok b = true ->
  burst 16 a b -> crc16 a <> crc16 b.
Proof. exact crc16_burst. Qed.
Theorem C02_burst8_changes_crc8 : forall a b, bytes_ok a = true -> bytes_ok b = true ->
  burst 8 a b -> crc8 a <> crc8 b.
Proof. exact crc8_burst. Qed.
(** In particular any change confined to two adjacent bytes (one byte). *)
Theorem C02_two_adjacent_bytes : forall p x y x' y' s,
  bytes_ok p = true -> bytes_ok [x; y] = true -> bytes_ok [x'; y'] = true -> bytes_ok s = true ->
  [x; y] <> [x'; y'] ->
  crc16 (p ++ [x; y] ++ s) <> crc16 (p ++ [x'; y'] ++ s).
Proof. exact crc16_two_bytes. Qed.
Theorem C02_one_byte : forall p x y s,
  bytes_ok p = true -> byte_ok x = true -> byte_ok y = true -> bytes_ok s = true -> x <> y ->
  crc8 (p ++ [x] ++ s) <> crc8 (p ++ [y] ++ s).
Proof. exact crc8_one_byte. Qed.

(** A burst of 16 bits that straddles three bytes. *)
Example C02_burst_exists : burst 16 [1;2;3;4;5] [1;15;252;244;5].
Proof.
  split; [reflexivity|].
  exists 0xDFFF, 12. vm_compute. split; [split|]; reflexivity.
Qed.

Print Assumptions C01_crc8_is_polynomial_remainder.
Print Assumptions C01_crc16_is_polynomial_remainder.
Print Assumptions C01_peers_agree8.
Print Assumptions C01_peers_agree16.
Print Assumptions C02_burst16_changes_crc16.
Print Assumptions C02_burst8_changes_crc8.
Print Assumptions C02_two_adjacent_bytes.
Print Assumptions C02_one_byte.
