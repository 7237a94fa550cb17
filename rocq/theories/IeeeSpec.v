(** * Reading with an overflow threshold, as IEEE-754 arithmetic does *)

From Coq Require Import ZArith Reals Bool.
From Flocq Require Import Core.
From Verif Require Import Machine Model Spec.
Open Scope R_scope.

Definition top_exp (f : fmt) : Z := match f with Binary32 => 128 | Binary64 => 1024 end.
(** FLT_MAX, DBL_MAX *)
Definition largest_number (f : fmt) : R := IZR (2 ^ prec f - 1) * bpow radix2 (top_exp f - prec f).

Inductive number := Number (v : R) | Infinity (neg : bool).

(** The number is rounded with an unbounded exponent range.  If the magnitude reaches 2^top_exp, the modes
    that round this sign toward zero give the largest finite number, the others an infinity. *)
Definition ieee_read (f : fmt) (m : rounding_mode) (v : R) : number :=
  let neg := Rlt_bool v 0 in
  if Rlt_bool (Rabs (read f m v)) (bpow radix2 (top_exp f)) then Number (read f m v)
  else if rounds_inward m neg then Number (cond_Ropp neg (largest_number f))
  else Infinity neg.
