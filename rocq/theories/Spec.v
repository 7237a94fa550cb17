(** * What the properties mean, stated without the algorithm

    Only the API enumerations of [Model.v] are used here ([fmt], [rounding_mode], [crs_tag], the
    result record [fp_t]); numbers are real numbers, formats and rounding come from Flocq. *)

From Coq Require Import ZArith Reals Bool List.
From Flocq Require Import Core IEEE754.Binary IEEE754.Bits.
From Verif Require Import Machine Model.
Import ListNotations.
Open Scope R_scope.

(** ** Inputs *)
Definition width (f : fmt) : Z := match f with Binary32 => 32 | Binary64 => 64 end.
Definition pattern (f : fmt) (x : Z) : Prop := (0 <= x < 2 ^ width f)%Z.

(** the real number, finiteness and sign that IEEE-754 assigns to a bit pattern *)
Definition value (f : fmt) (x : Z) : R :=
  match f with
  | Binary32 => B2R 24 128 (b32_of_bits x)
  | Binary64 => B2R 53 1024 (b64_of_bits x)
  end.
Definition finite (f : fmt) (x : Z) : bool :=
  match f with
  | Binary32 => Binary.is_finite 24 128 (b32_of_bits x)
  | Binary64 => Binary.is_finite 53 1024 (b64_of_bits x)
  end.
Definition nan (f : fmt) (x : Z) : bool :=
  match f with
  | Binary32 => Binary.is_nan 24 128 (b32_of_bits x)
  | Binary64 => Binary.is_nan 53 1024 (b64_of_bits x)
  end.
Definition infinite (f : fmt) (x : Z) : bool :=
  match f with
  | Binary32 => match b32_of_bits x with B754_infinity _ _ _ => true | _ => false end
  | Binary64 => match b64_of_bits x with B754_infinity _ _ _ => true | _ => false end
  end.
Definition negative (f : fmt) (x : Z) : bool :=
  match f with
  | Binary32 => Bsign 24 128 (b32_of_bits x)
  | Binary64 => Bsign 53 1024 (b64_of_bits x)
  end.

(** a finite nonzero input *)
Definition input (f : fmt) (x : Z) : Prop := pattern f x /\ finite f x = true /\ value f x <> 0.

(** ** Reading a number in a format under a rounding mode *)
Definition prec (f : fmt) : Z := match f with Binary32 => 24 | Binary64 => 53 end.
Definition emin (f : fmt) : Z := match f with Binary32 => -149 | Binary64 => -1074 end.

(** the textbook rounding of a real to an integer for each mode *)
Definition reading (m : rounding_mode) : R -> Z :=
  match m with
  | nearest_to_even | nearest_to_even_static_boundary => Znearest (fun t => negb (Z.even t))
  | nearest_to_odd | nearest_to_odd_static_boundary => Znearest Z.even
  | nearest_toward_plus_infinity | nearest_toward_plus_infinity_static_boundary => Znearest (fun _ => true)
  | nearest_toward_minus_infinity | nearest_toward_minus_infinity_static_boundary => Znearest (fun _ => false)
  | nearest_toward_zero => Znearest (fun t => t <? 0)%Z
  | nearest_away_from_zero => Znearest (fun t => 0 <=? t)%Z
  | toward_plus_infinity => Zceil
  | toward_minus_infinity => Zfloor
  | toward_zero => Ztrunc
  | away_from_zero => Zaway
  end.

(** Rounding to the format.  The exponent is not bounded above: a number at or beyond the overflow
    threshold reads as a number that is not a value of the format. *)
Definition read (f : fmt) (m : rounding_mode) (v : R) : R :=
  round radix2 (FLT_exp (emin f) (prec f)) (reading m) v.

Definition is_nearest (m : rounding_mode) : bool :=
  match m with
  | toward_plus_infinity | toward_minus_infinity | toward_zero | away_from_zero => false
  | _ => true
  end.
(** the directed modes that move a number of this sign away from zero / toward zero *)
Definition rounds_outward (m : rounding_mode) (neg : bool) : bool :=
  match m with
  | away_from_zero => true
  | toward_plus_infinity => negb neg
  | toward_minus_infinity => neg
  | _ => false
  end.
Definition rounds_inward (m : rounding_mode) (neg : bool) : bool :=
  match m with
  | toward_zero => true
  | toward_plus_infinity => neg
  | toward_minus_infinity => negb neg
  | _ => false
  end.

(** ** Decimals *)
Definition radix10 : radix := Build_radix 10 eq_refl.
(** s * 10^e *)
Definition decimal (s e : Z) : R := F2R (Float radix10 s e).
Definition digits (s : Z) : Z := Zdigits radix10 s.

(** the decimal denoted by a result for an input of the given sign *)
Definition denotes (neg : bool) (r : fp_t) : R :=
  decimal (cond_Zopp neg (fp_significand r)) (fp_exponent r).

(** The decimal s * 10^e reads back to the input. *)
Definition reads_back (f : fmt) (m : rounding_mode) (x s e : Z) : Prop :=
  read f m (decimal s e) = value f x.

(** The result reads back, and no decimal that reads back has fewer digits. *)
Definition shortest (f : fmt) (m : rounding_mode) (x : Z) (s e : Z) : Prop :=
  reads_back f m x s e /\ forall s' e', reads_back f m x s' e' -> (digits s <= digits s')%Z.

(** Distance of a decimal to the input. *)
Definition error (f : fmt) (x s e : Z) : R := Rabs (decimal s e - value f x).

(** No decimal of at most as many digits that reads back is closer. *)
Definition closest (f : fmt) (m : rounding_mode) (x : Z) (s e : Z) : Prop :=
  forall s' e', reads_back f m x s' e' -> (digits s' <= digits s)%Z -> error f x s e <= error f x s' e'.

(** No decimal of at most as many digits that reads back has a larger magnitude. *)
Definition largest (f : fmt) (m : rounding_mode) (x : Z) (s e : Z) : Prop :=
  forall s' e', reads_back f m x s' e' -> (digits s' <= digits s)%Z -> Rabs (decimal s' e') <= Rabs (decimal s e).

(** The tie-breaking rule of a policy against a different decimal at the same distance. *)
Definition wins_tie (crs : crs_tag) (s e s' e' : Z) : Prop :=
  match crs with
  | do_not_care => True
  | tie_to_even => Z.even s = true
  | tie_to_odd => Z.even s = false
  | tie_to_up => Rabs (decimal s' e') < Rabs (decimal s e)
  | tie_to_down => Rabs (decimal s e) < Rabs (decimal s' e')
  end.

(** Against every other decimal of at most as many digits that reads back and is equally close, the
    tie rule is obeyed. *)
Definition breaks_ties (crs : crs_tag) (f : fmt) (m : rounding_mode) (x : Z) (s e : Z) : Prop :=
  forall s' e', reads_back f m x s' e' -> (digits s' <= digits s)%Z ->
    error f x s' e' = error f x s e -> decimal s' e' <> decimal s e -> wins_tie crs s e s' e'.

(** ** Inputs on which the modes rounding toward zero go wrong

    All have a significand whose bits are all ones; the lists give their exponent fields. *)
Definition fraction (f : fmt) (x : Z) : Z := (x mod 2 ^ (prec f - 1))%Z.
Definition exponent_field (f : fmt) (x : Z) : Z := ((x / 2 ^ (prec f - 1)) mod 2 ^ (width f - prec f))%Z.
Definition all_ones (f : fmt) (x : Z) : bool :=
  ((fraction f x =? 2 ^ (prec f - 1) - 1) && negb (exponent_field f x =? 0))%Z.

Definition halting_fields (f : fmt) : list Z :=
  (match f with
  | Binary32 =>
      [1; 2; 3; 6; 13; 16; 26; 36; 40; 43; 49; 50; 53; 59; 63; 69; 83; 85; 86; 87; 88; 89; 96; 99;
       103; 109; 110; 115; 116; 117; 118; 119; 120; 121; 122; 123; 124; 125; 126; 127; 128; 129;
       130; 131; 132; 133; 134; 135; 136; 137; 138; 139; 140; 141; 142; 143; 144; 145; 146; 147]
  | Binary64 =>
      [176; 177; 204; 223; 267; 337; 446; 463; 483; 565; 566; 567; 568; 569; 615; 616; 645; 649;
       699; 748; 822; 881; 911; 968; 985; 999; 1000; 1001; 1002; 1003; 1004; 1005; 1006; 1007; 1008;
       1009; 1010; 1011; 1012; 1013; 1014; 1015; 1016; 1017; 1018; 1019; 1020; 1021; 1022; 1023;
       1024; 1025; 1026; 1027; 1028; 1029; 1030; 1031; 1032; 1033; 1034; 1035; 1036; 1037; 1038;
       1039; 1040; 1041; 1042; 1043; 1044; 1045; 1046; 1047; 1048; 1049; 1050; 1051; 1052; 1053;
       1054; 1055; 1056; 1057; 1058; 1059; 1060; 1061; 1062; 1063; 1064; 1065; 1066; 1067; 1068;
       1069; 1070; 1071]
  end)%Z.
Definition lengthened_fields (f : fmt) : list Z :=
  (match f with
  | Binary32 => [169; 176; 186; 187]
  | Binary64 => [1121]
  end)%Z.
Definition halts (f : fmt) (x : Z) : bool :=
  all_ones f x && existsb (Z.eqb (exponent_field f x)) (halting_fields f).
Definition lengthened (f : fmt) (x : Z) : bool :=
  all_ones f x && existsb (Z.eqb (exponent_field f x)) (lengthened_fields f).

(** the distance to the next representable number of larger magnitude *)
Definition spacing (f : fmt) (x : Z) : R := ulp radix2 (FLT_exp (emin f) (prec f)) (value f x).

(** ** Results of [grisu_exact] *)

(** the modes for which the conversion is claimed to be total *)
Definition nearest_or_outward (m : rounding_mode) (neg : bool) : bool := is_nearest m || rounds_outward m neg.
(** the inputs and modes for which a value is returned: all but the inputs of [halts] under a mode
    rounding them toward zero *)
Definition returns (m : rounding_mode) (f : fmt) (x : Z) : bool :=
  nearest_or_outward m (negative f x) || negb (halts f x).
(** the significand of a result, with the sign of the input *)
Definition signed (f : fmt) (x : Z) (r : fp_t) : Z := cond_Zopp (negative f x) (fp_significand r).
(** most digits a significand can need, and range of the scientific exponent *)
Definition max_digits (f : fmt) : Z := match f with Binary32 => 9 | Binary64 => 17 end.
Definition sci_min (f : fmt) : Z := match f with Binary32 => -46 | Binary64 => -324 end.
Definition sci_max (f : fmt) : Z := match f with Binary32 => 38 | Binary64 => 308 end.
(** Fraction of [spacing] within which a shorter grid point may make a mode rounding toward zero miss
    the closest decimal. *)
Definition near (f : fmt) : R := match f with Binary32 => / 4 | Binary64 => / 32 end.

(** ** Changing the sign *)

(** the pattern with its sign bit flipped *)
Definition negate (f : fmt) (x : Z) : Z :=
  (if x <? 2 ^ (width f - 1) then x + 2 ^ (width f - 1) else x - 2 ^ (width f - 1))%Z.
(** the mode that does to -v what [m] does to v *)
Definition mirror (m : rounding_mode) : rounding_mode :=
  match m with
  | nearest_toward_plus_infinity => nearest_toward_minus_infinity
  | nearest_toward_minus_infinity => nearest_toward_plus_infinity
  | nearest_toward_plus_infinity_static_boundary => nearest_toward_minus_infinity_static_boundary
  | nearest_toward_minus_infinity_static_boundary => nearest_toward_plus_infinity_static_boundary
  | toward_plus_infinity => toward_minus_infinity
  | toward_minus_infinity => toward_plus_infinity
  | m => m
  end.
(** the mode a static-boundary variant specialises *)
Definition plain (m : rounding_mode) : rounding_mode :=
  match m with
  | nearest_to_even_static_boundary => nearest_to_even
  | nearest_to_odd_static_boundary => nearest_to_odd
  | nearest_toward_plus_infinity_static_boundary => nearest_toward_plus_infinity
  | nearest_toward_minus_infinity_static_boundary => nearest_toward_minus_infinity
  | m => m
  end.
Definition map_outcome {A B : Type} (g : A -> B) (o : outcome A) : outcome B :=
  match o with
  | Ok a => Ok (g a)
  | AssertFailed => AssertFailed
  | Undefined => Undefined
  | Diverged => Diverged
  end.
Definition flip_sign (r : fp_t) : fp_t := mk_fp (fp_significand r) (fp_exponent r) (option_map negb (fp_is_negative r)).
Definition drop_sign (r : fp_t) : fp_t := mk_fp (fp_significand r) (fp_exponent r) None.

(** ** The number held by a cache entry *)
Definition entry_value (c : cache_entry) : Z :=
  match c with Cache64 v => v | Cache128 v => (u128_high v * 2 ^ 64 + u128_low v)%Z end.
(** the powers of ten held by the tables *)
Definition k_min (f : fmt) : Z := match f with Binary32 => -30 | Binary64 => -290 end.
Definition k_max (f : fmt) : Z := match f with Binary32 => 46 | Binary64 => 325 end.
(** number of entries of the divisibility table *)
Definition powers_of_5 (f : fmt) : Z := match f with Binary32 => 12 | Binary64 => 24 end.
