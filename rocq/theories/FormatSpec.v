(** * Half way between two neighbouring numbers of a format *)

From Coq Require Import ZArith Reals.
From Verif Require Import Machine Model Spec.
Open Scope R_scope.

(** [v] is not a number of the format, and as far from the next one below as from the next one above *)
Definition midway (f : fmt) (v : R) : Prop :=
  read f toward_minus_infinity v < v /\ v - read f toward_minus_infinity v = read f toward_plus_infinity v - v.
