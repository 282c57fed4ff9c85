(** * Float64: Go float64 arithmetic as IEEE-754 binary64 (SpecFloat), and Env:
    the oracles for behaviour defined outside the repository.  No proofs here. *)
From Coq Require Import Floats.SpecFloat.
From Verif Require Import GoBase.

Definition f64 := spec_float.
Definition prec := 53%Z.
Definition emax := 1024%Z.

(** float64(n) for a non-negative integer, and for a signed one. *)
Definition f_of_Z (z : Z) : f64 := binary_normalize prec emax z 0 false.
Definition f_of_N (n : N) : f64 := f_of_Z (Z.of_N n).
Definition f_mul (a b : f64) : f64 := SFmul prec emax a b.
Definition f_div (a b : f64) : f64 := SFdiv prec emax a b.
Definition f_add (a b : f64) : f64 := SFadd prec emax a b.

(** Truncation towards zero of a finite m*2^e. *)
Definition trunc_pos (m : positive) (e : Z) : N :=
  match e with
  | Z0 => Npos m
  | Zpos p => Npos m * 2 ^ Npos p
  | Zneg p => Npos m / 2 ^ Npos p
  end.

(** What the model does not know. *)
Class go_env := mkEnv {
  (** golang/protobuf: messages and (un)marshalling of StorageRecord
      (egts_sr_egtsplus_data.go:193-259 only delegates to the library). *)
  pb_msg : Type;
  pb_unmarshal : bytes -> option pb_msg;
  pb_marshal : pb_msg -> option bytes;
  (** uint32(f) when f is NaN or outside the range of uint32 is
      implementation-dependent in Go: an arbitrary function, reduced mod 2^32. *)
  f2u_other : f64 -> N;
  (** The bytes between len and cap of the slice append() returns for a packet
      of the given length: unspecified by Go. *)
  append_spare : nat -> bytes
}.

Section Conv.
Context {E : go_env}.

(** uint32(f), Go conversion. *)
Definition f_to_u32 (f : f64) : N :=
  match f with
  | S754_zero _ => 0
  | S754_finite s m e =>
      let t := trunc_pos m e in
      if (t <? 4294967296) && (negb s || (t =? 0)) then t
      else u32 (f2u_other f)
  | S754_infinity _ | S754_nan => u32 (f2u_other f)
  end.

(** egts_sr_pos_data.go:60 and :67, with full scale 90 or 180. *)
Definition coord_decode (full : N) (v : N) : f64 :=
  f_div (f_mul (f_of_N v) (f_of_N full)) (f_of_N 0xFFFFFFFF).

(** egts_sr_pos_data.go:148 and :153. *)
Definition coord_encode (full : N) (x : f64) : N :=
  f_to_u32 (f_mul (f_div x (f_of_N full)) (f_of_N 0xFFFFFFFF)).

(** A time.Time is the number of nanoseconds since 2010-01-01T00:00:00Z.
    egts_sr_pos_data.go:46-52: startDate.Add(preFieldVal * time.Second); the
    product is at most 4294967295e9 < 2^63, so there is no overflow. *)
Definition time_decode (v : N) : Z := (Z.of_N v * 1000000000)%Z.

(** time.Time.Sub saturates to the int64 range. *)
Definition time_sub (t : Z) : Z :=
  Z.max (- 2 ^ 63) (Z.min (2 ^ 63 - 1) t).

(** time.Duration.Seconds: float64(sec) + float64(nsec)/1e9. *)
Definition duration_seconds (d : Z) : f64 :=
  f_add (f_of_Z (Z.quot d 1000000000))
        (f_div (f_of_Z (Z.rem d 1000000000)) (f_of_N 1000000000)).

(** egts_sr_pos_data.go:142-143 *)
Definition time_encode (t : Z) : N := f_to_u32 (duration_seconds (time_sub t)).
End Conv.
