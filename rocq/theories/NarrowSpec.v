(** * Vocabulary for C74 *)

From Coq Require Import ZArith Reals List.
From Verif Require Import Machine Model Spec.
Import ListNotations.
Open Scope R_scope.

(** what a program gets that reads a decimal as a double and converts it to a float: strtod, then a cast *)
Definition float_by_way_of_double (v : R) : R := read Binary32 nearest_to_even (read Binary64 nearest_to_even v).
(** 7.038531E-26; and if the digits are not corrected also 9.3137999E-33, 3.5192655E-26, 1.4077062E-25, 2.8154124E-25, 5.6308248E-25,
    4.1358803E34 and 8.2717606E34 *)
Definition lost_magnitudes (crs : crs_tag) : list Z :=
  match crs with
  | do_not_care => [0x0a4170a7; 0x152e43fd; 0x15ae43fd; 0x162e43fd; 0x16ae43fd; 0x172e43fd; 0x78fee4af; 0x797ee4af]
  | _ => [0x15ae43fd]
  end%Z.
Definition lost_float (crs : crs_tag) (x : Z) : Prop := In x (lost_magnitudes crs) \/ In (x - 2 ^ 31)%Z (lost_magnitudes crs).
