(** * Vocabulary for the properties C71-C73 *)

From Coq Require Import ZArith Reals Bool List.
From Flocq Require Import Core.
From Verif Require Import Machine Model Spec.
Import ListNotations.
Open Scope R_scope.

(** both neighbours of the number are equally far: it is not a power of two, or not above the smallest normal number *)
Definition even_gaps (f : fmt) (x : Z) : Prop := (fraction f x <> 0 \/ exponent_field f x <= 1)%Z.
(** the modes that treat both half-way points of a number alike *)
Definition alike (m : rounding_mode) : bool :=
  match m with
  | nearest_to_even | nearest_to_odd | nearest_to_even_static_boundary | nearest_to_odd_static_boundary => true
  | _ => false
  end.
(** which way a policy goes from half way between the integers z and z + 1: true for z + 1 *)
Definition upward (crs : crs_tag) (z : Z) : bool :=
  match crs with
  | tie_to_even => negb (Z.even z)
  | tie_to_odd => Z.even z
  | tie_to_up => true
  | tie_to_down => false
  | do_not_care => false
  end.
(** [s * 10^e] is a best approximation of the input with at most n digits: what printf gives for n digits *)
Definition best_of_digits (f : fmt) (x n s e : Z) : Prop :=
  (digits s <= n)%Z /\ forall s' e', (digits s' <= n)%Z -> error f x s e <= error f x s' e'.

(** the powers 2^q whose shortest decimals are not the power rounded to so many digits *)
Definition misrounded_powers (f : fmt) : list Z :=
  match f with
  | Binary32 => [-96; 87; 90]
  | Binary64 => [-1017; -1007; -957; -921; -808; -791; -788; -778; -705; -695; -662; -652; -549; -509; -496; -489; -383; -366; -296; -140;
                 -97; -77; -44; 89; 122; 132; 172; 182; 275; 305; 345; 378; 398; 405; 481; 534; 544; 554; 574; 594; 710; 803; 863; 896; 976]
  end%Z.
(** the input is such a power of two, or its negative *)
Definition misrounded (f : fmt) (x : Z) : Prop := exists q, In q (misrounded_powers f) /\ Rabs (value f x) = bpow radix2 q.

(** [v] is strictly between [a] and [b] *)
Definition strictly_between (a v b : R) : Prop := a < v < b \/ b < v < a.
(** a number of the format, with the exponent not bounded above *)
Definition of_format (f : fmt) (v : R) : Prop := generic_format radix2 (FLT_exp (emin f) (prec f)) v.
(** [y] is a faithful reading of [v]: a number of the format without another one strictly between them *)
Definition faithful (f : fmt) (v y : R) : Prop := of_format f y /\ forall w, of_format f w -> ~ strictly_between v w y.
