(** * Where the search of the modes rounding toward zero stops short of the closest decimal

    The search counts in units of 10^g, 10^g being the largest power of ten that is at most [near f] times the
    distance to the next number.  It subtracts the whole units in that distance from the whole units up to
    the next number; if what remains is a decimal of the exponent of the result, the search does not go down to it. *)

From Coq Require Import ZArith Reals.
From Flocq Require Import Core.
From Verif Require Import Machine Model Spec.
Open Scope R_scope.

(** 10^g is the largest power of ten up to [near f * spacing f x] *)
Definition counting_unit (f : fmt) (x g : Z) : Prop := bpow radix10 g <= near f * spacing f x < bpow radix10 (g + 1).
(** whole multiples of 10^g in [v] *)
Definition whole (g : Z) (v : R) : Z := Zfloor (v * bpow radix10 (- g)).
(** what is left of the whole units up to the next number is u * 10^E *)
Definition stop_point (f : fmt) (x u E : Z) : Prop := exists g, counting_unit f x g /\ (g <= E)%Z /\
  (whole g (Rabs (value f x) + spacing f x) - whole g (spacing f x) = u * 10 ^ (E - g))%Z.
(** the number of units of 10^E above the stop point u at which the search from s comes to an end *)
Definition above (s u : Z) : Z := Z.gcd (s mod 10 / 2) (s - u).
(** the search from s down to the closest decimal of exponent E ends too early *)
Definition ends_early (f : fmt) (m : rounding_mode) (x s E : Z) : Prop :=
  exists u, (u < s)%Z /\ stop_point f x u E /\ (reads_back f m x (cond_Zopp (negative f x) u) E \/ (1 < above s u)%Z).
