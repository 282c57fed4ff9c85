(** * Spec_Crc: what a CRC is, as polynomial division over GF(2).

    A polynomial is the number whose bit i is the coefficient of x^i; addition
    is [N.lxor] and multiplication by x^n is [N.shiftl _ n]. *)
From Coq Require Import List NArith.
Import ListNotations.
Open Scope N_scope.

(** Carry-less product. *)
Fixpoint clmul_pos (a : positive) (b : N) : N :=
  match a with
  | xH => b
  | xO a' => N.double (clmul_pos a' b)
  | xI a' => N.lxor b (N.double (clmul_pos a' b))
  end.
Definition clmul (a b : N) : N := match a with N0 => 0 | Npos p => clmul_pos p b end.

(** [r] is the remainder of [a] by the polynomial [g] of degree [w]. *)
Definition poly_rem (w : N) (g a r : N) : Prop :=
  r < 2 ^ w /\ exists q, a = N.lxor (clmul q g) r.

(** The message polynomial: bytes in transmission order, most significant bit
    first. *)
Definition msg_poly (data : list N) : N := fold_left (fun acc b => 256 * acc + b) data 0.

(** The dividend of a CRC of width [w] and initial register [init] (no
    reflection, no final xor): the message times x^w, plus the initial register
    placed over its first bits. *)
Definition crc_dividend (w init : N) (data : list N) : N :=
  N.lxor (N.shiftl init (8 * N.of_nat (length data))) (N.shiftl (msg_poly data) w).

Definition is_crc (w g init : N) (data : list N) (c : N) : Prop :=
  poly_rem w g (crc_dividend w init data) c.

(** x^8+x^5+x^4+1 and x^16+x^12+x^5+1 *)
Definition poly8 : N := 2^8 + 2^5 + 2^4 + 1.
Definition poly16 : N := 2^16 + 2^12 + 2^5 + 1.

(** Two byte strings of equal length that differ exactly by a burst of at most
    [w] consecutive bits: the difference of their polynomials is a non-zero
    pattern of at most [w] bits, at some bit position [k]. *)
Definition burst (w : N) (a b : list N) : Prop :=
  length a = length b /\
  exists e k, 0 < e < 2 ^ w /\ N.lxor (msg_poly a) (msg_poly b) = N.shiftl e k.
