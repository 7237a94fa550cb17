(** * Consequences for users of the conversion *)

From Coq Require Import ZArith Reals List Bool.
From Flocq Require Import Core.
From Verif Require Import Machine Model Spec UserSpec IeeeSpec Claims Users Nearby Ieee.
Import ListNotations.
Open Scope R_scope.

(** ** C31: decimals of at most 6 (float) or 15 (double) digits survive *)
Theorem C31_short_decimals : forall cfg f rs m crs h x s e, input f x -> normal f x -> minimal m f x = true ->
  (digits s <= dig f)%Z -> read f m (decimal s e) = value f x ->
  exists r, grisu_exact cfg f rs m crs h x = Ok r /\ decimal (signed f x r) (fp_exponent r) = decimal s e.
Proof. exact short_survives. Qed.
Print Assumptions C31_short_decimals.
(** 123456789.012345 reads as 0x419d6f34540ca42b *)
Example C31_example : input Binary64 0x419d6f34540ca42b /\ normal Binary64 0x419d6f34540ca42b /\
  minimal toward_zero Binary64 0x419d6f34540ca42b = true /\ digits 123456789012345 = dig Binary64 /\
  read Binary64 nearest_to_even (decimal 123456789012345 (-6)) = value Binary64 0x419d6f34540ca42b /\
  grisu_exact debug_build Binary64 true nearest_to_even do_not_care assert_finite 0x419d6f34540ca42b
    = Ok (mk_fp 123456789012345 (-6) (Some false)).
Proof.
  assert (I : input Binary64 0x419d6f34540ca42b) by (apply input_check; reflexivity).
  assert (E : grisu_exact debug_build Binary64 true nearest_to_even do_not_care assert_finite 0x419d6f34540ca42b
    = Ok (mk_fp 123456789012345 (-6) (Some false))) by (vm_compute; reflexivity).
  split; [exact I|]. split; [apply normal_check; [exact I | vm_compute; discriminate]|].
  split; [vm_compute; reflexivity|]. split; [vm_compute; reflexivity|].
  split; [exact (reads_back_ok _ _ _ _ _ _ _ _ I E) | exact E].
Qed.

(** ** C32: integers below 2^24 (float) or 2^53 (double) are printed exactly, in every mode *)
Theorem C32_integers : forall cfg f rs m crs h x v, input f x -> value f x = IZR v -> (Z.abs v < 2 ^ prec f)%Z ->
  exists r, grisu_exact cfg f rs m crs h x = Ok r /\ (0 <= fp_exponent r)%Z /\ (signed f x r * 10 ^ fp_exponent r)%Z = v.
Proof. exact integers. Qed.
Print Assumptions C32_integers.
(** -1200.0f, and 2^53 - 1 under the mode that stops for other all-ones significands *)
Example C32_example : input Binary32 0xc4960000 /\ value Binary32 0xc4960000 = IZR (-1200) /\
  grisu_exact debug_build Binary32 true nearest_to_even tie_to_even assert_finite 0xc4960000 = Ok (mk_fp 12 2 (Some true)) /\
  all_ones Binary64 0x433fffffffffffff = true /\
  grisu_exact debug_build Binary64 true toward_zero tie_to_even assert_finite 0x433fffffffffffff
    = Ok (mk_fp 9007199254740991 0 (Some false)).
Proof.
  split; [apply input_check; reflexivity|]. split.
  - unfold value. unfold Binary.B2R. cbn. unfold F2R. cbn. Lra.lra.
  - repeat apply conj; vm_compute; reflexivity.
Qed.

(** ** C33: reading the decimal gives the input's bit pattern and no other *)
Theorem C33_same_bits : forall cfg f rs m crs h x r y, input f x -> grisu_exact cfg f rs m crs h x = Ok r ->
  pattern f y -> finite f y = true -> (value f y = read f m (decimal (signed f x r) (fp_exponent r)) <-> y = x).
Proof. exact same_bits. Qed.
Print Assumptions C33_same_bits.
Example C33_example : input Binary32 0x80000001 /\ pattern Binary32 0x80000002 /\ finite Binary32 0x80000002 = true /\
  grisu_exact debug_build Binary32 true nearest_to_even tie_to_even assert_finite 0x80000001 = Ok (mk_fp 1 (-45) (Some true)).
Proof. split; [apply input_check; reflexivity|]. split; [split; [discriminate | reflexivity]|]. split; vm_compute; reflexivity. Qed.

(** ** C34: distance to the input, and on which side of it the decimal lies *)
Theorem C34_half_spacing : forall cfg f rs m crs h x, input f x -> is_nearest m = true ->
  exists r, grisu_exact cfg f rs m crs h x = Ok r /\ error f x (signed f x r) (fp_exponent r) <= spacing f x / 2.
Proof. exact half_spacing. Qed.
Print Assumptions C34_half_spacing.
Theorem C34_sides : forall cfg f rs m crs h x r, input f x -> grisu_exact cfg f rs m crs h x = Ok r ->
  error f x (signed f x r) (fp_exponent r) < spacing f x /\
  (rounds_outward m (negative f x) = true -> Rabs (decimal (signed f x r) (fp_exponent r)) <= Rabs (value f x)) /\
  (rounds_inward m (negative f x) = true -> Rabs (value f x) <= Rabs (decimal (signed f x r) (fp_exponent r))).
Proof. exact directed_sides. Qed.
Print Assumptions C34_sides.
(** 0.1f is 0.100000001490116...: the mode decides the side *)
Example C34_example : input Binary32 0x3dcccccd /\ rounds_outward toward_plus_infinity (negative Binary32 0x3dcccccd) = true /\
  rounds_inward toward_minus_infinity (negative Binary32 0x3dcccccd) = true /\
  grisu_exact debug_build Binary32 true toward_plus_infinity tie_to_even assert_finite 0x3dcccccd = Ok (mk_fp 1 (-1) (Some false)) /\
  grisu_exact debug_build Binary32 true toward_minus_infinity tie_to_even assert_finite 0x3dcccccd = Ok (mk_fp 100000002 (-9) (Some false)).
Proof. split; [apply input_check; reflexivity|]. repeat apply conj; vm_compute; reflexivity. Qed.

(** ** C35: policies differ only on exact ties *)
Theorem C35_policies : forall cfg f rs m crs crs' h x, input f x -> nearest_or_outward m (negative f x) = true ->
  crs <> do_not_care -> crs' <> do_not_care ->
  exists r r', grisu_exact cfg f rs m crs h x = Ok r /\ grisu_exact cfg f rs m crs' h x = Ok r' /\
  (r = r' \/ value f x = (decimal (signed f x r) (fp_exponent r) + decimal (signed f x r') (fp_exponent r')) / 2).
Proof. exact policies. Qed.
Print Assumptions C35_policies.
Theorem C35_do_not_care : forall cfg f rs m crs h x, input f x -> nearest_or_outward m (negative f x) = true ->
  exists r r', grisu_exact cfg f rs m do_not_care h x = Ok r /\ grisu_exact cfg f rs m crs h x = Ok r' /\
  digits (fp_significand r) = digits (fp_significand r') /\
  Rabs (decimal (signed f x r') (fp_exponent r')) <= Rabs (decimal (signed f x r) (fp_exponent r)).
Proof. exact do_not_care_above. Qed.
Print Assumptions C35_do_not_care.
Example C35_example : input Binary32 0x4a000001 /\ input Binary64 0x4340000000000001 /\
  grisu_exact debug_build Binary32 true nearest_to_even tie_to_up assert_finite 0x4a000001 = Ok (mk_fp 20971523 (-1) (Some false)) /\
  grisu_exact debug_build Binary32 true nearest_to_even tie_to_down assert_finite 0x4a000001 = Ok (mk_fp 20971522 (-1) (Some false)).
Proof. split; [apply input_check; reflexivity|]. split; [apply input_check; reflexivity|]. split; vm_compute; reflexivity. Qed.

(** ** C36: C10 fails, but by at most four units of the last digit *)
Theorem C36_within_four : forall cfg f rs m crs h x, input f x -> rounds_inward m (negative f x) = true ->
  halts f x = false -> lengthened f x = false -> crs <> do_not_care ->
  exists r s, grisu_exact cfg f rs m crs h x = Ok r /\ (Z.abs (signed f x r - s) <= 4)%Z /\
  digits s = digits (fp_significand r) /\ reads_back f m x s (fp_exponent r) /\ closest f m x s (fp_exponent r).
Proof. exact within_four. Qed.
Print Assumptions C36_within_four.
(** An input that equals u units of the result's last digit is missed whenever u+1 units read back too. *)
Theorem C36_missed : forall cfg f rs m crs h x, input f x -> rounds_inward m (negative f x) = true ->
  forall r u, all_ones f x = false -> crs <> do_not_care -> grisu_exact cfg f rs m crs h x = Ok r ->
  value f x = decimal (cond_Zopp (negative f x) u) (fp_exponent r) ->
  reads_back f m x (cond_Zopp (negative f x) (u + 1)) (fp_exponent r) ->
  (u < fp_significand r)%Z /\ ~ closest f m x (signed f x r) (fp_exponent r).
Proof. exact missed. Qed.
Print Assumptions C36_missed.
Example C36_example : input Binary64 0x4340000000000001 /\ rounds_inward toward_zero (negative Binary64 0x4340000000000001) = true /\
  halts Binary64 0x4340000000000001 = false /\ lengthened Binary64 0x4340000000000001 = false /\ all_ones Binary64 0x4340000000000001 = false /\
  grisu_exact debug_build Binary64 true toward_zero tie_to_even assert_finite 0x4340000000000001
    = Ok (mk_fp 9007199254740995 0 (Some false)) /\
  value Binary64 0x4340000000000001 = decimal 9007199254740994 0 /\
  reads_back Binary64 toward_zero 0x4340000000000001 (9007199254740994 + 1) 0.
Proof.
  split; [apply input_check; reflexivity|]. split; [reflexivity|]. split; [reflexivity|]. split; [reflexivity|].
  split; [reflexivity|]. split; [vm_compute; reflexivity|]. split; [exact near_value | reads].
Qed.

(** ** C37: which calls have no result
    Builds with the intrinsic trailing-zero count, or with assertions on. *)
Theorem C37_no_result : forall cfg f rs m crs h x, input f x -> (cfg_ctz cfg <> CtzMask \/ cfg_ndebug cfg = false) ->
  ((exists r, grisu_exact cfg f rs m crs h x = Ok r) <->
   rounds_inward m (negative f x) = false \/ halts f x = false).
Proof. exact no_result. Qed.
Print Assumptions C37_no_result.
Theorem C37_outcome : forall cfg f rs m crs h x, input f x -> rounds_inward m (negative f x) = true -> halts f x = true ->
  (cfg_ndebug cfg = false -> grisu_exact cfg f rs m crs h x = AssertFailed) /\
  (cfg_ndebug cfg = true -> cfg_ctz cfg <> CtzMask -> grisu_exact cfg f rs m crs h x = Undefined).
Proof. exact inward_stops. Qed.
Print Assumptions C37_outcome.
Example C37_example : input Binary32 0x3f7fffff /\ halts Binary32 0x3f7fffff = true /\ cfg_ndebug debug_build = false /\
  cfg_ndebug release_build = true /\ cfg_ctz release_build <> CtzMask.
Proof. split; [apply input_check; reflexivity|]. repeat split; discriminate. Qed.

(** ** C38: the same with a reader that overflows as IEEE-754 prescribes *)
Theorem C38_round_trip : forall cfg f rs m crs h x, input f x -> forall r, grisu_exact cfg f rs m crs h x = Ok r ->
  ieee_read f m (decimal (signed f x r) (fp_exponent r)) = Number (value f x).
Proof. exact ieee_round_trip. Qed.
Print Assumptions C38_round_trip.
Theorem C38_shortest : forall cfg f rs m crs h x, input f x -> minimal m f x = true ->
  rounds_inward m (negative f x) = false \/ Rabs (value f x) <> largest_number f ->
  exists r, grisu_exact cfg f rs m crs h x = Ok r /\
  forall s e, ieee_read f m (decimal s e) = Number (value f x) -> (digits (fp_significand r) <= digits s)%Z.
Proof. exact ieee_shortest. Qed.
Print Assumptions C38_shortest.
Theorem C38_closest : forall cfg f rs m crs h x, input f x -> nearest_or_outward m (negative f x) = true -> crs <> do_not_care ->
  exists r, grisu_exact cfg f rs m crs h x = Ok r /\
  forall s e, ieee_read f m (decimal s e) = Number (value f x) -> (digits s <= digits (fp_significand r))%Z ->
    error f x (signed f x r) (fp_exponent r) <= error f x s e.
Proof. exact ieee_closest. Qed.
Print Assumptions C38_closest.
(** The one exception to [C38_shortest]: for the largest finite number a single digit would do. *)
Theorem C38_largest_number : forall f, exists cfg m crs h x r s e, input f x /\ rounds_inward m (negative f x) = true /\
  grisu_exact cfg f true m crs h x = Ok r /\ ieee_read f m (decimal s e) = Number (value f x) /\
  digits s = 1%Z /\ (6 < digits (fp_significand r))%Z.
Proof. exact max_long. Qed.
Print Assumptions C38_largest_number.
Example C38_example : input Binary64 0x7fefffffffffffff /\ nearest_or_outward nearest_to_even (negative Binary64 0x7fefffffffffffff) = true /\
  minimal nearest_to_even Binary64 0x7fefffffffffffff = true /\ rounds_inward nearest_to_even (negative Binary64 0x7fefffffffffffff) = false /\
  grisu_exact debug_build Binary64 true nearest_to_even tie_to_even assert_finite 0x7fefffffffffffff
    = Ok (mk_fp 17976931348623157 292 (Some false)).
Proof. split; [apply input_check; reflexivity|]. repeat apply conj; vm_compute; reflexivity. Qed.
