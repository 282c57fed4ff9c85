(** * Spec_Float: float64 values as real numbers. *)
From Coq Require Import ZArith Reals.
From Coq Require Import Floats.SpecFloat.
From Flocq Require Import Core.Zaux IEEE754.BinarySingleNaN.
From Verif Require Import GoBase Float64.

(** the real number a float64 stands for (0 for infinities and NaN) *)
Definition real (x : f64) : R := SF2R radix2 x.
Definition finite (x : f64) : Prop := is_finite_SF x = true.
(** [x] is a finite IEEE-754 binary64 number in its unique representation *)
Definition float64 (x : f64) : Prop := valid_binary 53 1024 x = true /\ finite x.
