(** * The properties of properties.jsonl

    Every theorem is closed by [exact] of a lemma proved elsewhere; the assumptions of each are
    printed beneath it, and an [Example] beside it shows a concrete input meeting its hypotheses.
    [grisu_exact cfg f return_sign mode policy handler x] is the modelled call on the bit pattern [x];
    [input f x] says that [x] is a finite nonzero number of the format [f]. *)

From Coq Require Import ZArith Reals List Bool.
From Flocq Require Import Core.
From Verif Require Import Machine Model CharsModel Spec TextSpec Claims Signs Logs CacheFacts Outputs Unique.
Import ListNotations.
Open Scope R_scope.

(** ** C01 *)
Theorem C01_total : forall cfg f rs m crs h x, input f x -> nearest_or_outward m (negative f x) = true ->
  exists r, grisu_exact cfg f rs m crs h x = Ok r.
Proof. exact total. Qed.
Print Assumptions C01_total.
Example C01_example : input Binary64 0x3fd3333333333333 /\
  grisu_exact debug_build Binary64 true nearest_to_even tie_to_even assert_finite 0x3fd3333333333333 = Ok (mk_fp 3 (-1) (Some false)).
Proof. split; [apply input_check; reflexivity | vm_compute; reflexivity]. Qed.

(** ** C02 *)
Theorem C02_nearest_round_trip : forall cfg f rs m crs h x, input f x -> is_nearest m = true ->
  exists r, grisu_exact cfg f rs m crs h x = Ok r /\ reads_back f m x (signed f x r) (fp_exponent r).
Proof. exact nearest_round_trip. Qed.
Print Assumptions C02_nearest_round_trip.
(** the largest float is read back from 3.4028235E38 *)
Example C02_example : input Binary32 0x7f7fffff /\ is_nearest nearest_to_even = true /\
  grisu_exact debug_build Binary32 true nearest_to_even tie_to_even assert_finite 0x7f7fffff = Ok (mk_fp 34028235 31 (Some false)).
Proof. split; [apply input_check; reflexivity|]. split; vm_compute; reflexivity. Qed.

(** ** C03 *)
Theorem C03_nearest_shortest : forall cfg f rs m crs h x, input f x -> is_nearest m = true ->
  exists r, grisu_exact cfg f rs m crs h x = Ok r /\ reads_back f m x (signed f x r) (fp_exponent r) /\
  forall s e, reads_back f m x s e -> (digits (fp_significand r) <= digits s)%Z.
Proof. exact nearest_shortest. Qed.
Print Assumptions C03_nearest_shortest.
(** the smallest subnormal double is 5E-324 *)
Example C03_example : input Binary64 1 /\ is_nearest nearest_to_odd = true /\
  grisu_exact debug_build Binary64 true nearest_to_even tie_to_even assert_finite 1 = Ok (mk_fp 5 (-324) (Some false)).
Proof. split; [apply input_check; reflexivity|]. split; vm_compute; reflexivity. Qed.

(** ** C04 *)
Theorem C04_nearest_closest : forall cfg f rs m crs h x, input f x -> is_nearest m = true -> crs <> do_not_care ->
  exists r, grisu_exact cfg f rs m crs h x = Ok r /\ closest f m x (signed f x r) (fp_exponent r).
Proof. exact nearest_closest. Qed.
Print Assumptions C04_nearest_closest.
(** 2^-44: the closest 16-digit decimal 5.684341886080801E-14 does not read back, the next one does *)
Example C04_example : input Binary64 0x3d30000000000000 /\ is_nearest nearest_to_even = true /\ tie_to_even <> do_not_care /\
  grisu_exact debug_build Binary64 true nearest_to_even tie_to_even assert_finite 0x3d30000000000000
    = Ok (mk_fp 5684341886080802 (-29) (Some false)).
Proof. split; [apply input_check; reflexivity|]. split; [reflexivity|]. split; [discriminate | vm_compute; reflexivity]. Qed.

(** ** C05 *)
Theorem C05_ties : forall cfg f rs m crs h x, input f x -> is_nearest m = true -> crs <> do_not_care ->
  exists r, grisu_exact cfg f rs m crs h x = Ok r /\ breaks_ties crs f m x (signed f x r) (fp_exponent r).
Proof. exact nearest_ties. Qed.
Print Assumptions C05_ties.
(** 2097152.25 lies half way between two 8-digit decimals: the policies choose differently *)
Example C05_example : input Binary32 0x4a000001 /\
  map (fun crs => grisu_exact debug_build Binary32 false nearest_to_even crs assert_finite 0x4a000001)
    [tie_to_even; tie_to_odd; tie_to_up; tie_to_down]
  = [Ok (mk_fp 20971522 (-1) None); Ok (mk_fp 20971523 (-1) None);
     Ok (mk_fp 20971523 (-1) None); Ok (mk_fp 20971522 (-1) None)].
Proof. split; [apply input_check; reflexivity | vm_compute; reflexivity]. Qed.

(** ** C06 *)
Theorem C06_outward : forall cfg f rs m crs h x, input f x -> rounds_outward m (negative f x) = true ->
  exists r, grisu_exact cfg f rs m crs h x = Ok r /\
  shortest f m x (signed f x r) (fp_exponent r) /\ closest f m x (signed f x r) (fp_exponent r).
Proof. exact outward_all. Qed.
Print Assumptions C06_outward.
Example C06_example : input Binary64 0xbfd3333333333334 /\ rounds_outward toward_minus_infinity (negative Binary64 0xbfd3333333333334) = true /\
  grisu_exact debug_build Binary64 true toward_minus_infinity tie_to_even assert_finite 0xbfd3333333333334
    = Ok (mk_fp 3 (-1) (Some true)).
Proof. split; [apply input_check; reflexivity|]. split; vm_compute; reflexivity. Qed.

(** ** C07 *)
Theorem C07_inward_round_trip : forall cfg f rs m crs h x, input f x -> rounds_inward m (negative f x) = true ->
  (forall r, grisu_exact cfg f rs m crs h x = Ok r -> reads_back f m x (signed f x r) (fp_exponent r)) /\
  (all_ones f x = false -> exists r, grisu_exact cfg f rs m crs h x = Ok r).
Proof. exact inward_round_trip. Qed.
Print Assumptions C07_inward_round_trip.
Example C07_example : input Binary64 0x3fd3333333333333 /\ rounds_inward toward_zero (negative Binary64 0x3fd3333333333333) = true /\
  all_ones Binary64 0x3fd3333333333333 = false /\
  grisu_exact debug_build Binary64 true toward_zero tie_to_even assert_finite 0x3fd3333333333333 = Ok (mk_fp 3 (-1) (Some false)).
Proof. split; [apply input_check; reflexivity|]. repeat split; vm_compute; reflexivity. Qed.

(** ** C08: false as stated; the inputs on which it fails are exactly those of [halts] *)
Theorem C08_refuted : exists cfg f m crs h x, input f x /\ rounds_inward m (negative f x) = true /\
  forall rs, grisu_exact cfg f rs m crs h x = AssertFailed.
Proof. exact halting_witness. Qed.
Print Assumptions C08_refuted.
Theorem C08_undefined_refuted : exists cfg f m crs h x, input f x /\ rounds_inward m (negative f x) = true /\
  forall rs, grisu_exact cfg f rs m crs h x = Undefined.
Proof. exact undefined_witness. Qed.
Print Assumptions C08_undefined_refuted.
(** What is missing from the full claim: the inputs with [halts f x = true]. *)
Theorem C08_partial : forall cfg f rs m crs h x, input f x -> rounds_inward m (negative f x) = true ->
  halts f x = false -> exists r, grisu_exact cfg f rs m crs h x = Ok r.
Proof. exact inward_total. Qed.
Print Assumptions C08_partial.
Theorem C08_stops : forall cfg f rs m crs h x, input f x -> rounds_inward m (negative f x) = true -> halts f x = true ->
  (cfg_ndebug cfg = false -> grisu_exact cfg f rs m crs h x = AssertFailed) /\
  (cfg_ndebug cfg = true -> cfg_ctz cfg <> CtzMask -> grisu_exact cfg f rs m crs h x = Undefined).
Proof. exact inward_stops. Qed.
Print Assumptions C08_stops.
Example C08_example : input Binary32 0x3f7fffff /\ halts Binary32 0x3f7fffff = true /\
  input Binary32 0x3f7ffffe /\ halts Binary32 0x3f7ffffe = false.
Proof. repeat split; try reflexivity; try (apply input_check; reflexivity); discriminate. Qed.

(** ** C09: false as stated; it holds wherever [halts] and [lengthened] do not *)
Theorem C09_refuted : exists cfg f m crs h x r s e, input f x /\ rounds_inward m (negative f x) = true /\
  grisu_exact cfg f true m crs h x = Ok r /\ reads_back f m x s e /\ (digits s < digits (fp_significand r))%Z.
Proof. exact long_witness. Qed.
Print Assumptions C09_refuted.
(** What is missing from the full claim: all-ones significands with the exponent fields of
    [halting_fields] and [lengthened_fields]. *)
Theorem C09_partial : forall cfg f rs m crs h x, input f x -> rounds_inward m (negative f x) = true ->
  halts f x = false -> lengthened f x = false ->
  exists r, grisu_exact cfg f rs m crs h x = Ok r /\ shortest f m x (signed f x r) (fp_exponent r).
Proof. exact inward_shortest. Qed.
Print Assumptions C09_partial.
Theorem C09_exceptions : forall cfg f rs m crs h x, input f x -> rounds_inward m (negative f x) = true -> lengthened f x = true ->
  exists r s e, grisu_exact cfg f rs m crs h x = Ok r /\ reads_back f m x s e /\ (digits s < digits (fp_significand r))%Z.
Proof. exact not_shortest. Qed.
Print Assumptions C09_exceptions.
Example C09_example : input Binary32 0x7f7fffff /\ halts Binary32 0x7f7fffff = false /\ lengthened Binary32 0x7f7fffff = false /\
  rounds_inward toward_minus_infinity (negative Binary32 0x7f7fffff) = true /\ lengthened Binary32 0x54ffffff = true.
Proof. split; [apply input_check; reflexivity|]. repeat split. Qed.

(** ** C10: false as stated *)
Theorem C10_refuted : exists cfg f m crs h x r s e, input f x /\ rounds_inward m (negative f x) = true /\ crs <> do_not_care /\
  halts f x = false /\ lengthened f x = false /\
  grisu_exact cfg f true m crs h x = Ok r /\ reads_back f m x s e /\ (digits s <= digits (fp_significand r))%Z /\
  error f x s e < error f x (signed f x r) (fp_exponent r).
Proof. exact far_witness. Qed.
Print Assumptions C10_refuted.
(** What is missing from the full claim: the inputs of C09, and the inputs that have a decimal of the
    result's exponent within [near f] of the spacing. *)
Theorem C10_partial : forall cfg f rs m crs h x, input f x -> rounds_inward m (negative f x) = true ->
  halts f x = false -> lengthened f x = false -> crs <> do_not_care ->
  exists r, grisu_exact cfg f rs m crs h x = Ok r /\
  (closest f m x (signed f x r) (fp_exponent r) \/ exists u, error f x u (fp_exponent r) < near f * spacing f x).
Proof. exact inward_closest. Qed.
Print Assumptions C10_partial.
Example C10_example : input Binary64 0x3ff0000000000001 /\ rounds_inward toward_zero (negative Binary64 0x3ff0000000000001) = true /\
  halts Binary64 0x3ff0000000000001 = false /\ lengthened Binary64 0x3ff0000000000001 = false /\
  grisu_exact debug_build Binary64 true toward_zero tie_to_even assert_finite 0x3ff0000000000001
    = Ok (mk_fp 10000000000000003 (-16) (Some false)).
Proof. split; [apply input_check; reflexivity|]. repeat split; vm_compute; reflexivity. Qed.

(** ** C11 *)
Theorem C11_result_sign : forall cfg f m crs h x r, pattern f x -> grisu_exact cfg f true m crs h x = Ok r ->
  fp_is_negative r = Some (negative f x).
Proof. exact result_sign. Qed.
Print Assumptions C11_result_sign.
(** Whatever happens to [x] (a result, a failed assertion, undefined behaviour) happens to -[x] under
    the mirrored mode, with the sign flipped. *)
Theorem C11_mirror : forall cfg f rs m crs h x, pattern f x ->
  grisu_exact cfg f rs (mirror m) crs h (negate f x) = map_outcome flip_sign (grisu_exact cfg f rs m crs h x).
Proof. exact mirror_result. Qed.
Print Assumptions C11_mirror.
(** [negate] and [mirror] mean what they say *)
Theorem C11_negate : forall f x, pattern f x ->
  pattern f (negate f x) /\ value f (negate f x) = - value f x /\ finite f (negate f x) = finite f x /\
  negative f (negate f x) = negb (negative f x).
Proof. exact negate_meaning. Qed.
Print Assumptions C11_negate.
Theorem C11_mirror_reading : forall m v, reading (mirror m) (- v) = (- reading m v)%Z.
Proof. exact reading_mirror. Qed.
Print Assumptions C11_mirror_reading.
Example C11_example : pattern Binary64 0x3fd3333333333334 /\ negate Binary64 0x3fd3333333333334 = 0xbfd3333333333334%Z /\
  grisu_exact debug_build Binary64 true toward_plus_infinity tie_to_even assert_finite 0x3fd3333333333334
    = Ok (mk_fp 3 (-1) (Some false)) /\
  grisu_exact debug_build Binary64 true toward_minus_infinity tie_to_even assert_finite 0xbfd3333333333334
    = Ok (mk_fp 3 (-1) (Some true)).
Proof. repeat split; try discriminate; vm_compute; reflexivity. Qed.

(** ** C12 *)
Theorem C12_return_sign : forall cfg f m crs h x,
  grisu_exact cfg f false m crs h x = map_outcome drop_sign (grisu_exact cfg f true m crs h x).
Proof. exact drop_sign_result. Qed.
Print Assumptions C12_return_sign.
Example C12_example :
  grisu_exact debug_build Binary32 false nearest_to_even tie_to_even assert_finite 0xbf800000 = Ok (mk_fp 1 0 None) /\
  grisu_exact debug_build Binary32 true nearest_to_even tie_to_even assert_finite 0xbf800000 = Ok (mk_fp 1 0 (Some true)).
Proof. split; vm_compute; reflexivity. Qed.

(** ** C13 *)
Theorem C13_static_boundary : forall cfg f rs m crs h x,
  grisu_exact cfg f rs m crs h x = grisu_exact cfg f rs (plain m) crs h x.
Proof. exact static_result. Qed.
Print Assumptions C13_static_boundary.
Example C13_example : plain nearest_to_even_static_boundary = nearest_to_even /\
  grisu_exact debug_build Binary32 true nearest_to_even_static_boundary tie_to_even assert_finite 0x4b7fffff
    = Ok (mk_fp 16777215 0 (Some false)).
Proof. split; vm_compute; reflexivity. Qed.

(** ** C14 *)
Theorem C14_do_not_care : forall cfg f rs m crs h x, input f x -> nearest_or_outward m (negative f x) = true -> crs = do_not_care ->
  exists r, grisu_exact cfg f rs m crs h x = Ok r /\
  shortest f m x (signed f x r) (fp_exponent r) /\ largest f m x (signed f x r) (fp_exponent r).
Proof. exact do_not_care_largest. Qed.
Print Assumptions C14_do_not_care.
(** 2^-1074 is read back from every decimal between 3E-324 and 7E-324 *)
Example C14_example : input Binary64 1 /\ nearest_or_outward nearest_to_even (negative Binary64 1) = true /\
  grisu_exact debug_build Binary64 true nearest_to_even do_not_care assert_finite 1 = Ok (mk_fp 7 (-324) (Some false)).
Proof. split; [apply input_check; reflexivity|]. split; vm_compute; reflexivity. Qed.

(** ** C15 *)
Theorem C15_ranges : forall cfg f rs m crs h x, input f x -> returns m f x = true ->
  exists r, grisu_exact cfg f rs m crs h x = Ok r /\
  (0 < fp_significand r)%Z /\ (digits (fp_significand r) <= max_digits f)%Z /\
  (sci_min f <= fp_exponent r + digits (fp_significand r) - 1 <= sci_max f)%Z.
Proof. exact all_ranges. Qed.
Print Assumptions C15_ranges.
Example C15_example : input Binary64 0x7fefffffffffffff /\ returns nearest_to_even Binary64 0x7fefffffffffffff = true /\
  grisu_exact debug_build Binary64 true nearest_to_even tie_to_even assert_finite 0x7fefffffffffffff
    = Ok (mk_fp 17976931348623157 292 (Some false)).
Proof. split; [apply input_check; reflexivity|]. split; vm_compute; reflexivity. Qed.

(** ** C16 *)
Theorem C16_no_trailing_zero : forall cfg f rs m crs h x, input f x -> returns m f x = true ->
  exists r, grisu_exact cfg f rs m crs h x = Ok r /\ (fp_significand r mod 10 <> 0)%Z.
Proof. exact all_trimmed. Qed.
Print Assumptions C16_no_trailing_zero.
Example C16_example : input Binary32 0x49742400 /\ returns away_from_zero Binary32 0x49742400 = true /\
  grisu_exact debug_build Binary32 true away_from_zero tie_to_even assert_finite 0x49742400 = Ok (mk_fp 1 6 (Some false)).
Proof. split; [apply input_check; reflexivity|]. split; vm_compute; reflexivity. Qed.

(** ** C17 *)
Theorem C17_wide_mul : forall cfg x y, (0 <= x < 2 ^ 64 -> 0 <= y < 2 ^ 64 ->
  (exists r, umul128 cfg x y = r /\ 0 <= u128_high r < 2 ^ 64 /\ 0 <= u128_low r < 2 ^ 64 /\
     u128_high r * 2 ^ 64 + u128_low r = x * y) /\
  umul128_upper64 cfg x y = x * y / 2 ^ 64)%Z.
Proof. exact wide_mul. Qed.
Print Assumptions C17_wide_mul.
Theorem C17_wide_mul_128 : forall cfg x y, (0 <= x < 2 ^ 64 -> 0 <= u128_high y < 2 ^ 64 -> 0 <= u128_low y < 2 ^ 64 ->
  umul192_upper64 cfg x y = x * (u128_high y * 2 ^ 64 + u128_low y) / 2 ^ 128)%Z.
Proof. exact wide_mul_mixed. Qed.
Print Assumptions C17_wide_mul_128.
Theorem C17_wide_mul_96 : forall cfg x y, (0 <= x < 2 ^ 32 -> 0 <= y < 2 ^ 64 -> umul96_upper32 cfg x y = x * y / 2 ^ 64)%Z.
Proof. exact Arith.umul96_upper32_exact. Qed.
Print Assumptions C17_wide_mul_96.
(** operands with all carries, in the portable branch *)
Example C17_example : umul128_upper64 (mk_config MulPortable CtzMask false false) (2 ^ 64 - 1) (2 ^ 64 - 1) = (2 ^ 64 - 2)%Z /\
  umul192_upper64 (mk_config MulMsvc CtzMask false false) (2 ^ 64 - 1) (mk_uint128 (2 ^ 64 - 1) (2 ^ 64 - 1)) = (2 ^ 64 - 2)%Z.
Proof. split; vm_compute; reflexivity. Qed.

(** ** C18 *)
Theorem C18_power_of_2 : forall cfg f x e, (0 < x < 2 ^ width f -> 1 <= e ->
  exists b, divisible_by_power_of_2 cfg (width f) x e = Ok b /\ (b = true <-> (2 ^ e | x)))%Z.
Proof. exact divisible_2. Qed.
Print Assumptions C18_power_of_2.
Theorem C18_power_of_5 : forall cfg f x e, (0 <= x < 2 ^ width f -> 0 <= e < powers_of_5 f ->
  exists b, divisible_by_power_of_5 cfg f (width f) x e = Ok b /\ (b = true <-> (5 ^ e | x)))%Z.
Proof. exact divisible_5. Qed.
Print Assumptions C18_power_of_5.
Example C18_example : divisible_by_power_of_2 debug_build 64 (3 * 2 ^ 40) 40 = Ok true /\
  divisible_by_power_of_2 debug_build 64 (3 * 2 ^ 40) 41 = Ok false /\
  divisible_by_power_of_5 debug_build Binary64 64 (7 * 5 ^ 23) 23 = Ok true /\
  divisible_by_power_of_5 debug_build Binary64 64 (7 * 5 ^ 22) 23 = Ok false.
Proof. repeat split; vm_compute; reflexivity. Qed.

(** ** C19 *)
Theorem C19_log10_pow2 : forall cfg e, (-1650 <= e <= 1650)%Z ->
  floor_log10_pow2 cfg e = Ok (Zfloor (ln (bpow radix2 e) / ln 10)).
Proof. exact log10_pow2. Qed.
Print Assumptions C19_log10_pow2.
Theorem C19_log5_pow2 : forall cfg e, (-65536 <= e <= 65536)%Z ->
  floor_log5_pow2 cfg e = Ok (Zfloor (ln (bpow radix2 e) / ln 5)).
Proof. exact log5_pow2. Qed.
Print Assumptions C19_log5_pow2.
(** The comment and the assertion of the source admit |e| <= 642, but beyond 616 the 32-bit product
    overflows. *)
Theorem C19_log2_pow10_partial : forall cfg e, (-616 <= e <= 616)%Z ->
  floor_log2_pow10 cfg e = Ok (Zfloor (ln (bpow radix10 e) / ln 2)).
Proof. exact log2_pow10. Qed.
Print Assumptions C19_log2_pow10_partial.
Theorem C19_log2_pow10_refuted : forall cfg e, (616 < Z.abs e <= 642)%Z -> floor_log2_pow10 cfg e = Undefined.
Proof. exact log2_pow10_overflow. Qed.
Print Assumptions C19_log2_pow10_refuted.
Example C19_example : floor_log10_pow2 debug_build (-1650) = Ok (-497)%Z /\ floor_log5_pow2 debug_build 65536 = Ok 28224%Z /\
  floor_log2_pow10 debug_build 616 = Ok 2046%Z /\ (616 < Z.abs (-617) <= 642)%Z.
Proof. repeat split; try (vm_compute; reflexivity). discriminate. Qed.

(** ** C20 *)
Theorem C20_cache : forall cfg f k, (k_min f <= k <= k_max f)%Z ->
  let scaled := bpow radix10 k * bpow radix2 (2 * width f - mag radix2 (bpow radix10 k)) in
  exists c, get_cache cfg f k = Ok c /\
    entry_value c = (if (0 <=? k)%Z then Zfloor scaled else Zceil scaled) /\
    (2 ^ (2 * width f - 1) <= entry_value c < 2 ^ (2 * width f))%Z.
Proof. exact cache_exact. Qed.
Print Assumptions C20_cache.
Example C20_example : (k_min Binary32 <= -1 <= k_max Binary32)%Z /\
  get_cache debug_build Binary32 (-1) = Ok (Cache64 0xcccccccccccccccd).
Proof. repeat split; try discriminate; vm_compute; reflexivity. Qed.

(** ** C21 *)
Theorem C21_classification : forall f x, pattern f x ->
  (Model.is_finite f x = finite f x /\ Model.is_nan f x = nan f x /\ is_infinity f x = infinite f x /\
   is_negative f x = negative f x /\ is_positive f x = negb (negative f x) /\
   is_positive_infinity f x = infinite f x && negb (negative f x) /\
   is_negative_infinity f x = infinite f x && negative f x) /\
  ((finite f x = true -> (is_nonzero f x = true <-> value f x <> 0%R)) /\ (finite f x = false -> is_nonzero f x = true)) /\
  (is_subnormal f x = true <-> finite f x = true /\ (Rabs (value f x) < bpow radix2 (emin f + prec f - 1))%R) /\
  (is_quiet_nan f x = nan f x && Z.testbit x (prec f - 2) /\ is_signaling_nan f x = nan f x && negb (Z.testbit x (prec f - 2)) /\
   get_nan_payload f x = x mod 2 ^ (prec f - 2))%Z /\
  extract_significand_bits f x = fraction f x /\ extract_exponent_bits f x = exponent_field f x.
Proof. exact classification. Qed.
Print Assumptions C21_classification.
Theorem C21_one_kind : forall f x,
  ((if finite f x then 1 else 0) + (if infinite f x then 1 else 0) + (if nan f x then 1 else 0) = 1)%Z.
Proof. exact three_kinds. Qed.
Print Assumptions C21_one_kind.
Example C21_example : pattern Binary32 0x7f800001 /\ is_signaling_nan Binary32 0x7f800001 = true /\
  is_quiet_nan Binary32 0xffc00000 = true /\ is_negative_infinity Binary64 0xfff0000000000000 = true /\
  is_subnormal Binary64 0x000fffffffffffff = true.
Proof. repeat split; discriminate. Qed.

(** ** C22: the text is the scientific notation of the result, and reads as it *)
Theorem C22_text_denotes : forall cfg f m crs x, input f x -> returns m f x = true ->
  exists r t, grisu_exact cfg f false m crs assert_finite x = Ok r /\
    t = scientific (negative f x) (fp_significand r) (fp_exponent r) /\
    read_text t = Some (Number (negative f x) (fp_significand r) (fp_exponent r)) /\
    forall b, (text_length t <= capacity b)%Z ->
      exists b', fp_to_chars_n cfg f m crs x b = Ok (b', text_length t) /\ written b 0%Z t b'.
Proof. exact text_denotes. Qed.
Print Assumptions C22_text_denotes.
(** -1.5E-3, from 0xbf589374bc6a7efa *)
Example C22_example : input Binary64 0xbf589374bc6a7efa /\ returns nearest_to_even Binary64 0xbf589374bc6a7efa = true /\
  scientific true 15 (-4) = [45; 49; 46; 53; 69; 45; 51]%Z /\
  match fp_to_chars_n debug_build Binary64 nearest_to_even tie_to_even 0xbf589374bc6a7efa (mk_buffer 7 (fun _ => 0%Z)) with
  | Ok (b, n) => (map (byte_at b) [0; 1; 2; 3; 4; 5; 6; 7], n)%Z
  | _ => ([], 0%Z)
  end = ([45; 49; 46; 53; 69; 45; 51; 0], 7)%Z.
Proof. split; [apply input_check; reflexivity|]. repeat apply conj; vm_compute; reflexivity. Qed.

(** ** C23 *)
Theorem C23_text_round_trip : forall cfg f m crs x, pattern f x -> finite f x = true -> returns m f x = true ->
  exists t s e, read_text t = Some (Number (negative f x) s e) /\
    read f m (decimal (cond_Zopp (negative f x) s) e) = value f x /\
    forall b, (text_length t + 1 <= capacity b)%Z ->
      exists b', fp_to_chars cfg f m crs x b = Ok (b', text_length t) /\ written b 0%Z (t ++ [0%Z]) b'.
Proof. exact text_round_trip. Qed.
Print Assumptions C23_text_round_trip.
Example C23_example : pattern Binary32 0x80000000 /\ finite Binary32 0x80000000 = true /\
  returns toward_zero Binary32 0x80000000 = true /\ read_text [45; 48; 69; 48]%Z = Some (Number true 0 0).
Proof. repeat split; discriminate. Qed.

(** ** C24: the texts 0E0, -0E0, Infinity, -Infinity and NaN *)
Theorem C24_special : forall cfg f m crs x, pattern f x ->
  forall t, (finite f x = true /\ value f x = 0%R /\ t = (if negative f x then [45] else []) ++ [48; 69; 48])%Z \/
    (infinite f x = true /\ t = (if negative f x then [45] else []) ++ [73; 110; 102; 105; 110; 105; 116; 121])%Z \/
    (nan f x = true /\ t = [78; 97; 78])%Z ->
  forall b, (text_length t <= capacity b)%Z ->
  exists b', fp_to_chars_n cfg f m crs x b = Ok (b', text_length t) /\ written b 0%Z t b'.
Proof. exact text_special. Qed.
Print Assumptions C24_special.
Theorem C24_read : forall neg : bool,
  read_text ((if neg then [45] else []) ++ [48; 69; 48])%Z = Some (Number neg 0 0) /\
  read_text ((if neg then [45] else []) ++ [73; 110; 102; 105; 110; 105; 116; 121])%Z = Some (Infinity neg) /\
  read_text [78; 97; 78]%Z = Some NaN.
Proof. exact special_read. Qed.
Print Assumptions C24_read.
Example C24_example : nan Binary32 0xff800001 = true /\ infinite Binary64 0xfff0000000000000 = true /\
  negative Binary64 0xfff0000000000000 = true /\
  fp_to_chars_n debug_build Binary32 nearest_to_even tie_to_even 0xff800001 (mk_buffer 2 (fun _ => 0%Z)) = Undefined.
Proof. repeat apply conj; vm_compute; reflexivity. Qed.

(** ** C25: what is written does not depend on the buffer and nothing else is touched *)
Theorem C25_buffer : forall cfg f m crs x, pattern f x -> (input f x -> returns m f x = true) ->
  exists t, (text_length t <= max_text f)%Z /\
    (forall b, (text_length t <= capacity b)%Z ->
       exists b', fp_to_chars_n cfg f m crs x b = Ok (b', text_length t) /\ written b 0%Z t b') /\
    (forall b, (text_length t + 1 <= capacity b)%Z ->
       exists b', fp_to_chars cfg f m crs x b = Ok (b', text_length t) /\ written b 0%Z (t ++ [0%Z]) b').
Proof. exact text_safe. Qed.
Print Assumptions C25_buffer.
(** the longest texts: -1.40308534E-14 and -2.2250738585072014E-308 *)
Example C25_example : returns nearest_to_even Binary64 0x8010000000000000 = true /\
  text_length (scientific true 22250738585072014 (-324)) = max_text Binary64 /\
  text_length (scientific true 140308534 (-22)) = max_text Binary32 /\
  grisu_exact debug_build Binary32 false nearest_to_even tie_to_even assert_finite 0xa87cc1e4 = Ok (mk_fp 140308534 (-22) None) /\
  grisu_exact debug_build Binary64 false nearest_to_even tie_to_even assert_finite 0x8010000000000000
    = Ok (mk_fp 22250738585072014 (-324) None).
Proof. repeat apply conj; vm_compute; reflexivity. Qed.

(** ** C26 *)
Theorem C26_decimal_length : forall cfg f v, (0 < v < 10 ^ max_digits f)%Z ->
  exists n, decimal_length cfg f v = Ok n /\ (10 ^ (n - 1) <= v < 10 ^ n)%Z.
Proof. exact length_counts. Qed.
Print Assumptions C26_decimal_length.
Theorem C26_calls : forall cfg f m crs x, input f x -> returns m f x = true ->
  exists r, grisu_exact cfg f false m crs assert_finite x = Ok r /\
    decimal_length cfg f (fp_significand r) = Ok (digits (fp_significand r)).
Proof. exact length_call. Qed.
Print Assumptions C26_calls.
Example C26_example : decimal_length debug_build Binary64 99999999999999999 = Ok 17%Z /\
  decimal_length debug_build Binary64 100000000000000000 = AssertFailed /\ decimal_length debug_build Binary32 10 = Ok 2%Z.
Proof. repeat apply conj; vm_compute; reflexivity. Qed.

(** ** C27 *)
Theorem C27_builds : forall f rs m crs h x, input f x -> returns m f x = true ->
  exists r, forall cfg, grisu_exact cfg f rs m crs h x = Ok r.
Proof. exact same_result. Qed.
Print Assumptions C27_builds.
(** Whatever the input, a value returned by a build with assertions is returned by every build. *)
Theorem C27_debug : forall cfg cfg' f rs m crs h x r, cfg_ndebug cfg = false ->
  grisu_exact cfg f rs m crs h x = Ok r -> grisu_exact cfg' f rs m crs h x = Ok r.
Proof. exact debug_decides. Qed.
Print Assumptions C27_debug.
Example C27_example : input Binary32 0x3f7ffffe /\ returns toward_zero Binary32 0x3f7ffffe = true /\
  returns toward_zero Binary32 0x3f7fffff = false /\ cfg_ndebug debug_build = false /\
  grisu_exact debug_build Binary32 true toward_zero tie_to_even assert_finite 0x3f7ffffe = Ok (mk_fp 9999999 (-7) (Some false)).
Proof. split; [apply input_check; reflexivity|]. repeat apply conj; vm_compute; reflexivity. Qed.

(** ** C28: the decimals of two inputs are ordered as the inputs are (hence distinct for distinct values) *)
Theorem C28_monotone : forall cfg cfg' f rs m crs crs' h h' x y, input f x -> input f y ->
  returns m f x = true -> returns m f y = true -> value f x < value f y ->
  exists r r', grisu_exact cfg f rs m crs h x = Ok r /\ grisu_exact cfg' f rs m crs' h' y = Ok r' /\
    decimal (signed f x r) (fp_exponent r) < decimal (signed f y r') (fp_exponent r').
Proof. exact monotone. Qed.
Print Assumptions C28_monotone.
Example C28_example : input Binary32 0x3f800000 /\ input Binary32 0x3f800001 /\
  grisu_exact debug_build Binary32 true nearest_to_even tie_to_even assert_finite 0x3f800000 = Ok (mk_fp 1 0 (Some false)) /\
  grisu_exact debug_build Binary32 true nearest_to_even tie_to_even assert_finite 0x3f800001 = Ok (mk_fp 10000001 (-7) (Some false)).
Proof. split; [apply input_check; reflexivity|]. split; [apply input_check; reflexivity|]. split; vm_compute; reflexivity. Qed.

(** ** C29: exactly one decimal satisfies the specification, and it is the one returned *)
Theorem C29_unique : forall cfg f rs m crs h x, input f x -> nearest_or_outward m (negative f x) = true -> crs <> do_not_care ->
  exists r, grisu_exact cfg f rs m crs h x = Ok r /\
  forall s e, shortest f m x s e /\ closest f m x s e /\ breaks_ties crs f m x s e <-> s = signed f x r /\ e = fp_exponent r.
Proof. exact unique. Qed.
Print Assumptions C29_unique.
Theorem C29_unique_do_not_care : forall cfg f rs m h x, input f x -> nearest_or_outward m (negative f x) = true ->
  exists r, grisu_exact cfg f rs m do_not_care h x = Ok r /\
  forall s e, shortest f m x s e /\ largest f m x s e <-> s = signed f x r /\ e = fp_exponent r.
Proof. exact unique_largest. Qed.
Print Assumptions C29_unique_do_not_care.
Example C29_example : input Binary64 0x4340000000000001 /\ nearest_or_outward nearest_to_odd (negative Binary64 0x4340000000000001) = true /\
  grisu_exact debug_build Binary64 true nearest_to_odd tie_to_odd assert_finite 0x4340000000000001
    = Ok (mk_fp 9007199254740994 0 (Some false)).
Proof. split; [apply input_check; reflexivity|]. split; vm_compute; reflexivity. Qed.

(** ** C30 *)
Theorem C30_rejects : forall cfg f rs m crs x, finite f x = false -> cfg_ndebug cfg = false ->
  grisu_exact cfg f rs m crs assert_finite x = AssertFailed.
Proof. exact handler_rejects. Qed.
Print Assumptions C30_rejects.
Theorem C30_passes : forall cfg f rs m crs x, finite f x = true ->
  grisu_exact cfg f rs m crs assert_finite x = grisu_exact cfg f rs m crs ignore_special_cases x.
Proof. exact handler_passes. Qed.
Print Assumptions C30_passes.
Example C30_example : finite Binary32 0x7f800000 = false /\ finite Binary64 0x7ff8000000000000 = false /\ finite Binary32 0x7f7fffff = true.
Proof. repeat split. Qed.
