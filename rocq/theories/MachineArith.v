(** * IEEE-754 arithmetic on bit patterns, rounding to nearest even *)

From Coq Require Import ZArith.
From Flocq Require Import Core IEEE754.BinarySingleNaN IEEE754.Binary IEEE754.Bits.
From Verif Require Import Machine Model Spec.
Open Scope Z_scope.

(** the conversion of an integer *)
Definition of_integer (f : fmt) (n : Z) : Z :=
  match f with
  | Binary32 => bits_of_b32 (Binary.binary_normalize 24 128 eq_refl eq_refl mode_NE n 0 false)
  | Binary64 => bits_of_b64 (Binary.binary_normalize 53 1024 eq_refl eq_refl mode_NE n 0 false)
  end.
(** product and quotient *)
Definition times (f : fmt) (a b : Z) : Z :=
  match f with
  | Binary32 => bits_of_b32 (b32_mult mode_NE (b32_of_bits a) (b32_of_bits b))
  | Binary64 => bits_of_b64 (b64_mult mode_NE (b64_of_bits a) (b64_of_bits b))
  end.
Definition divided_by (f : fmt) (a b : Z) : Z :=
  match f with
  | Binary32 => bits_of_b32 (b32_div mode_NE (b32_of_bits a) (b32_of_bits b))
  | Binary64 => bits_of_b64 (b64_div mode_NE (b64_of_bits a) (b64_of_bits b))
  end.
(** the largest power of ten that is a number of the format, with its predecessors *)
Definition exact_powers (f : fmt) : Z := match f with Binary32 => 10 | Binary64 => 22 end.
(** s * 10^e by two conversions and one product or quotient *)
Definition put_back (f : fmt) (s e : Z) : Z :=
  if 0 <=? e then times f (of_integer f s) (of_integer f (10 ^ e)) else divided_by f (of_integer f s) (of_integer f (10 ^ (- e))).
