(** * Crc: libs/egts/crc.go.  No proofs here. *)
From Verif Require Import GoBase.

(** crc.go:9-13: one shift of crc8 (crc<<1 wraps to 8 bits). *)
Definition crc8_shift (crc : N) : N :=
  if N.land crc 0x80 =? 0 then N.land (N.shiftl crc 1) 0xFF
  else N.lxor (N.land (N.shiftl crc 1) 0xFF) 0x31.

(** crc.go:5-15: the loop body for one byte. *)
Definition crc8_byte (crc b : N) : N :=
  Nat.iter 8 crc8_shift (N.lxor crc b).

(** crc.go:3-18 *)
Definition crc8 (data : bytes) : N := fold_left crc8_byte data 0xFF.

(** crc.go:26-30: one shift of crc16. *)
Definition crc16_shift (crc : N) : N :=
  if N.land crc 0x8000 =? 0 then N.land (N.shiftl crc 1) 0xFFFF
  else N.lxor (N.land (N.shiftl crc 1) 0xFFFF) 0x1021.

(** crc.go:22-32: the loop body for one byte. *)
Definition crc16_byte (crc b : N) : N :=
  Nat.iter 8 crc16_shift (N.lxor crc (N.land (N.shiftl b 8) 0xFFFF)).

(** crc.go:20-35 *)
Definition crc16 (data : bytes) : N := fold_left crc16_byte data 0xFFFF.
