(** * Doubles read as floats, floats widened to doubles, and the nearest modes among each other *)

From Coq Require Import ZArith Reals List.
From Verif Require Import Machine Model Spec UserSpec FormatSpec Claims Formats.
Import ListNotations.
Open Scope R_scope.

(** ** C63: a double printed and read as a float *)
Theorem C63_narrowed : forall cfg m m' rs crs h x, input Binary64 x -> is_nearest m = true -> is_nearest m' = true ->
  ~ midway Binary32 (value Binary64 x) ->
  exists r, grisu_exact cfg Binary64 rs m crs h x = Ok r /\
    read Binary32 m' (decimal (signed Binary64 x r) (fp_exponent r)) = read Binary32 m' (value Binary64 x).
Proof. exact narrowed. Qed.
Print Assumptions C63_narrowed.
(** for a double half way between two floats, the side on which the printed decimal lies decides *)
Theorem C63_midway : forall cfg m m' rs crs h x, input Binary64 x -> is_nearest m = true -> is_nearest m' = true ->
  midway Binary32 (value Binary64 x) ->
  exists r d, grisu_exact cfg Binary64 rs m crs h x = Ok r /\ d = decimal (signed Binary64 x r) (fp_exponent r) /\
    (d = value Binary64 x \/
     d < value Binary64 x /\ read Binary32 m' d = read Binary32 toward_minus_infinity (value Binary64 x) \/
     value Binary64 x < d /\ read Binary32 m' d = read Binary32 toward_plus_infinity (value Binary64 x)).
Proof. exact narrowed_midway. Qed.
Print Assumptions C63_midway.
(** the directed modes have no such exception *)
Theorem C63_directed : forall cfg m rs crs h x r, input Binary64 x -> is_nearest m = false ->
  grisu_exact cfg Binary64 rs m crs h x = Ok r ->
  read Binary32 m (decimal (signed Binary64 x r) (fp_exponent r)) = read Binary32 m (value Binary64 x).
Proof. exact narrowed_directed. Qed.
Print Assumptions C63_directed.
(** which doubles lie half way, from the smallest normal float on: the last 29 bits are a one and zeros *)
Theorem C63_midway_bits : forall x, input Binary64 x -> (897 <= exponent_field Binary64 x)%Z ->
  (midway Binary32 (value Binary64 x) <-> x mod 2 ^ 29 = 2 ^ 28)%Z.
Proof. exact midway_pattern. Qed.
Print Assumptions C63_midway_bits.
(** 0.1 is not half way; 1 + 2^-24 is, is printed as 1.0000000596046448 and read back as the wrong one of the two neighbours *)
Example C63_example : input Binary64 0x3fb999999999999a /\ ~ midway Binary32 (value Binary64 0x3fb999999999999a).
Proof. exact not_half_way_example. Qed.
Example C63_example_midway :
  grisu_exact debug_build Binary64 false nearest_to_even tie_to_even assert_finite 0x3ff0000010000000 = Ok (mk_fp 10000000596046448 (-16) None) /\
  let x := 0x3ff0000010000000%Z in let d := decimal 10000000596046448 (-16) in
  input Binary64 x /\ midway Binary32 (value Binary64 x) /\ value Binary64 x < d /\
  read Binary32 nearest_to_even d = read Binary32 toward_plus_infinity (value Binary64 x) /\
  read Binary32 nearest_to_even (value Binary64 x) = read Binary32 toward_minus_infinity (value Binary64 x).
Proof. split; [vm_compute; reflexivity | exact half_way_example]. Qed.

(** ** C64: a float widened to a double *)
Theorem C64_widened : forall cfg m rs crs crs' h x y r, input Binary32 y -> input Binary64 x -> value Binary64 x = value Binary32 y ->
  minimal m Binary32 y = true -> grisu_exact cfg Binary64 rs m crs h x = Ok r ->
  reads_back Binary32 m y (signed Binary64 x r) (fp_exponent r) /\
  exists r', grisu_exact cfg Binary32 rs m crs' h y = Ok r' /\ (digits (fp_significand r') <= digits (fp_significand r))%Z.
Proof. exact widened. Qed.
Print Assumptions C64_widened.
(** 0.1f is 1E-1 as a float and 1.0000000149011612E-1 as a double *)
Example C64_example : (input Binary32 0x3dcccccd /\ input Binary64 0x3fb99999a0000000 /\ value Binary64 0x3fb99999a0000000 = value Binary32 0x3dcccccd) /\
  minimal nearest_to_even Binary32 0x3dcccccd = true /\
  grisu_exact debug_build Binary32 false nearest_to_even tie_to_even assert_finite 0x3dcccccd = Ok (mk_fp 1 (-1) None) /\
  grisu_exact debug_build Binary64 false nearest_to_even tie_to_even assert_finite 0x3fb99999a0000000 = Ok (mk_fp 10000000149011612 (-17) None).
Proof. split; [exact widened_example|]. repeat apply conj; vm_compute; reflexivity. Qed.

(** ** C65: two nearest modes give the same result, or one of the results is half way between two numbers of the format *)
Theorem C65_nearest_modes : forall cfg f rs m m' crs h x, input f x -> is_nearest m = true -> is_nearest m' = true ->
  exists r r', grisu_exact cfg f rs m crs h x = Ok r /\ grisu_exact cfg f rs m' crs h x = Ok r' /\
  (r = r' \/ midway f (decimal (signed f x r) (fp_exponent r)) \/ midway f (decimal (signed f x r') (fp_exponent r'))).
Proof. exact nearest_modes. Qed.
Print Assumptions C65_nearest_modes.
(** 2^54 + 8: half way to the number before it lies 1801439850948199E1 *)
Example C65_example : input Binary64 0x4350000000000002 /\
  map (fun m => grisu_exact debug_build Binary64 false m tie_to_even assert_finite 0x4350000000000002)
    [nearest_to_even; nearest_to_odd; nearest_toward_plus_infinity; nearest_toward_minus_infinity; nearest_toward_zero; nearest_away_from_zero]
  = [Ok (mk_fp 1801439850948199 1 None); Ok (mk_fp 18014398509481992 0 None); Ok (mk_fp 1801439850948199 1 None);
     Ok (mk_fp 18014398509481992 0 None); Ok (mk_fp 18014398509481992 0 None); Ok (mk_fp 1801439850948199 1 None)].
Proof. split; [apply input_check; reflexivity | vm_compute; reflexivity]. Qed.
