(** * More vocabulary for the properties C31-C38 *)

From Coq Require Import ZArith Reals Bool.
From Flocq Require Import Core.
From Verif Require Import Machine Model Spec.
Open Scope R_scope.

(** FLT_DIG and DBL_DIG: decimals with so many digits survive a conversion to binary and back *)
Definition dig (f : fmt) : Z := match f with Binary32 => 6 | Binary64 => 15 end.

(** the input is at least the smallest normal number *)
Definition normal (f : fmt) (x : Z) : Prop := bpow radix2 (emin f + prec f - 1) <= Rabs (value f x).

(** the modes and inputs for which the shortest decimal is returned *)
Definition minimal (m : rounding_mode) (f : fmt) (x : Z) : bool :=
  nearest_or_outward m (negative f x) || negb (halts f x || lengthened f x).
