(** * Executable model of grisu_exact.h

    Every definition cites the lines of /repo/grisu_exact.h it models.  C++ templates over [Float]
    become functions of [fmt]; tag types become constructors; mutable variables become values passed
    on; [goto] targets become functions.  Unsigned arithmetic wraps explicitly ([wrap]). *)

From Coq Require Import ZArith List Bool.
From Verif Require Import Machine Tables.
Import ListNotations.
Open Scope Z_scope.

(** ** Formats: the two values of the template parameter [Float] (grisu_exact.h:356-359) *)
Inductive fmt := Binary32 | Binary64.

(** ** 128-bit arithmetic *)

(** grisu_exact.h:53-84.  Both representations of the class hold a (high, low) pair; in the
    [__int128] branch [internal_] is [low | high << 64]. *)
Record uint128 := mk_uint128 { u128_high : Z; u128_low : Z }.
Definition u128_internal (v : uint128) : Z := Z.lor (u128_low v) (Z.shiftl (u128_high v) 64).
(** grisu_exact.h:62-69: construction from an [unsigned __int128], [high()], [low()]. *)
Definition u128_of_internal (u : Z) : uint128 := mk_uint128 (wrap 64 (Z.shiftr u 64)) (wrap 64 u).

(** grisu_exact.h:86-92 (both branches compute the full 64-bit product). *)
Definition umul64 (x y : Z) : Z := wrap 64 (wrap 64 x * wrap 64 y).

(** grisu_exact.h:103-113: the four partial products and [intermediate] of the portable branch. *)
Definition portable_intermediate (x y : Z) : Z * Z * Z * Z * Z :=
  let a := wrap 32 (Z.shiftr x 32) in
  let b := wrap 32 x in
  let c := wrap 32 (Z.shiftr y 32) in
  let d := wrap 32 y in
  let ac := umul64 a c in
  let bc := umul64 b c in
  let ad := umul64 a d in
  let bd := umul64 b d in
  let intermediate := wrap 64 (wrap 64 (Z.shiftr bd 32 + wrap 32 ad) + wrap 32 bc) in
  (ac, bc, ad, bd, intermediate).

(** grisu_exact.h:95-118. [_umul128] of the MSVC branch is the 128-bit product. *)
Definition umul128 (cfg : config) (x y : Z) : uint128 :=
  match cfg_mul cfg with
  | MulInt128 => u128_of_internal (wrap 128 (x * y))
  | MulMsvc => mk_uint128 (wrap 64 (Z.shiftr (x * y) 64)) (wrap 64 (x * y))
  | MulPortable =>
      let '(ac, bc, ad, bd, intermediate) := portable_intermediate x y in
      mk_uint128
        (wrap 64 (wrap 64 (wrap 64 (ac + Z.shiftr intermediate 32) + Z.shiftr ad 32) + Z.shiftr bc 32))
        (wrap 64 (wrap 64 (Z.shiftl intermediate 32) + wrap 32 bd))
  end.

(** grisu_exact.h:120-142. *)
Definition umul128_upper64 (cfg : config) (x y : Z) : Z :=
  match cfg_mul cfg with
  | MulInt128 => wrap 64 (Z.shiftr (wrap 128 (x * y)) 64)
  | MulMsvc => wrap 64 (Z.shiftr (x * y) 64)
  | MulPortable =>
      let '(ac, bc, ad, bd, intermediate) := portable_intermediate x y in
      wrap 64 (wrap 64 (wrap 64 (ac + Z.shiftr intermediate 32) + Z.shiftr ad 32) + Z.shiftr bc 32)
  end.

(** grisu_exact.h:144-161. *)
Definition umul192_upper64 (cfg : config) (x : Z) (y : uint128) : Z :=
  let g0 := umul128 cfg x (u128_high y) in
  let g10 := umul128_upper64 cfg x (u128_low y) in
  match cfg_mul cfg with
  | MulInt128 => u128_high (u128_of_internal (wrap 128 (u128_internal g0 + g10)))
  | MulMsvc =>
      (* _addcarry_u64(0, g0.low(), g10, &low); _addcarry_u64(carry, g0.high(), 0, &high) *)
      let carry := Z.shiftr (u128_low g0 + g10) 64 in
      wrap 64 (u128_high g0 + carry)
  | MulPortable =>
      let intermediate := wrap 64 (u128_low g0 + g10) in
      wrap 64 (u128_high g0 + (if intermediate <? g10 then 1 else 0))
  end.

(** grisu_exact.h:163-181. *)
Definition umul96_upper32 (cfg : config) (x y : Z) : Z :=
  if cfg_x64 cfg then wrap 32 (umul128_upper64 cfg x y)
  else
    let c := wrap 32 (Z.shiftr y 32) in
    let d := wrap 32 y in
    let bc := umul64 x c in
    let bd := umul64 x d in
    let intermediate := wrap 64 (Z.shiftr bd 32 + bc) in
    wrap 32 (Z.shiftr intermediate 32).

(** ** Powers and divisibility *)

(** grisu_exact.h:183-191: [r *= b] executed [e] times on a [w]-bit unsigned. *)
Fixpoint compute_power (w b : Z) (e : nat) : Z :=
  match e with
  | O => wrap w 1
  | S e' => wrap w (compute_power w b e' * b)
  end.

(** grisu_exact.h:193-233. *)
Definition divisible_by_power_of_2 (cfg : config) (w x exp : Z) : outcome bool :=
  cassert cfg (1 <=? exp) ;;;
  cassert cfg (negb (x =? 0)) ;;;
  match cfg_ctz cfg with
  | CtzBuiltin | CtzBitScan =>
      (* the result of ctz(0) and the index left by a failed bit scan are undefined *)
      if x =? 0 then Undefined else Ok (exp <=? ctz x)
  | CtzMask =>
      if w <=? exp then Ok false
      else
        one <- shl w 1 exp ;;
        let mask := wrap w (one - 1) in
        Ok (Z.land x mask =? 0)
  end.

(** grisu_exact.h:237-250: [r = 5 * r * r] executed n - 2 times, n the width. *)
Fixpoint modular_inverse_of_5_loop (w : Z) (steps : nat) : Z :=
  match steps with
  | O => wrap w 5
  | S steps' =>
      let r := modular_inverse_of_5_loop w steps' in
      wrap w (wrap w (5 * r) * r)
  end.
(** grisu_exact.h:237-250 *)
Definition compute_modular_inverse_of_5 (w : Z) : Z :=
  modular_inverse_of_5_loop w (Z.to_nat (w - 2)).

(** grisu_exact.h:262-275: (max_quotient, mod_inv) for exponents 0 .. size-1. *)
Definition generate_divisibility_test_table (w : Z) (size : nat) : list (Z * Z) :=
  let inv := compute_modular_inverse_of_5 w in
  map (fun i => ((2 ^ w - 1) / compute_power w 5 i, compute_power w inv i)) (seq 0 size).

(** grisu_exact.h:276-280. *)
Definition divisibility_table_size (f : fmt) : nat :=
  match f with Binary32 => 12 | Binary64 => 24 end.

(** grisu_exact.h:281-286.  [exp] is [unsigned int]. *)
Definition divisible_by_power_of_5 (cfg : config) (f : fmt) (w x exp : Z) : outcome bool :=
  let e := wrap 32 exp in
  cassert cfg (e <? Z.of_nat (divisibility_table_size f)) ;;;
  entry <- read_array (generate_divisibility_test_table w (divisibility_table_size f)) e ;;
  Ok (wrap w (x * snd entry) <=? fst entry).

(** ** Logarithm floors *)

(** grisu_exact.h:293-308. [>>] on a negative value is the arithmetic shift (source comment). *)
Definition floor_log10_pow2 (cfg : config) (e : Z) : outcome Z :=
  cassert cfg ((-1650 <=? e) && (e <=? 1650)) ;;;
  m <- i32 (e * 0x4d104) ;;
  Ok (Z.shiftr m 20).

(** grisu_exact.h:310-325. *)
Definition floor_log2_pow10 (cfg : config) (e : Z) : outcome Z :=
  cassert cfg ((-642 <=? e) && (e <=? 642)) ;;;
  m <- i32 (e * 0x35269e) ;;
  Ok (Z.shiftr m 20).

(** grisu_exact.h:328-345. *)
Definition floor_log5_pow2 (cfg : config) (e : Z) : outcome Z :=
  cassert cfg ((-65536 <=? e) && (e <=? 65536)) ;;;
  m <- i64 (e * 0x6e40d1a4) ;;
  Ok (Z.shiftr m 32).

(** The same three functions where the source evaluates them at compile time (static constexpr
    members of [common_info]): a failing assertion or an overflow would be a compilation error, so
    they are plain values there. *)
(** grisu_exact.h:293-308 *)
Definition c_floor_log10_pow2 (e : Z) : Z := Z.shiftr (e * 0x4d104) 20.
(** grisu_exact.h:310-328 *)
Definition c_floor_log2_pow10 (e : Z) : Z := Z.shiftr (e * 0x35269e) 20.
(** grisu_exact.h:330-345 *)
Definition c_floor_log5_pow2 (e : Z) : Z := Z.shiftr (e * 0x6e40d1a4) 32.

(** ** common_info<Float> (grisu_exact.h:352-458) *)

(** sizeof(Float), grisu_exact.h:364 *)
Definition sizeof (f : fmt) : Z := match f with Binary32 => 4 | Binary64 => 8 end.
(** numeric_limits<Float>::digits - 1 *)
(** grisu_exact.h:361 *)
Definition precision (f : fmt) : Z := match f with Binary32 => 23 | Binary64 => 52 end.
(** grisu_exact.h:370-371 *)
Definition extended_precision (f : fmt) : Z := sizeof f * 8.
(** grisu_exact.h:373-374 *)
Definition sign_bit_mask (f : fmt) : Z := Z.shiftl 1 (extended_precision f - 1).
(** grisu_exact.h:375-376 *)
Definition exponent_bits (f : fmt) : Z := extended_precision f - precision f - 1.
(** grisu_exact.h:377 *)
Definition exponent_bias (f : fmt) : Z := 1 - Z.shiftl 1 (exponent_bits f - 1).
(** grisu_exact.h:378-379 *)
Definition exponent_bits_mask (f : fmt) : Z :=
  Z.shiftl (Z.shiftl 1 (exponent_bits f) - 1) (precision f).
(** grisu_exact.h:381-382 *)
Definition boundary_bit (f : fmt) : Z := Z.shiftl 1 (extended_precision f - precision f - 2).
(** grisu_exact.h:383 *)
Definition normal_interval_length (f : fmt) : Z := Z.shiftl (boundary_bit f) 1.
(** grisu_exact.h:384 *)
Definition edge_case_boundary_bit (f : fmt) : Z := Z.shiftr (boundary_bit f) 1.
(** numeric_limits<Float>::min_exponent / max_exponent minus extended_precision *)
(** grisu_exact.h:386-387 *)
Definition min_exponent (f : fmt) : Z :=
  (match f with Binary32 => -125 | Binary64 => -1021 end) - extended_precision f.
(** grisu_exact.h:388-389 *)
Definition max_exponent (f : fmt) : Z :=
  (match f with Binary32 => 128 | Binary64 => 1024 end) - extended_precision f.
(** grisu_exact.h:393 *)
Definition alpha (f : fmt) : Z := match f with Binary32 => -5 | Binary64 => -5 end.
(** grisu_exact.h:394 *)
Definition gamma (f : fmt) : Z := alpha f + 3.
(** int(extended_precision - precision), as at grisu_exact.h:398 *)
Definition q_mp (f : fmt) : Z := extended_precision f - precision f.
(** grisu_exact.h:397-398 *)
Definition min_kappa (f : fmt) : Z := - c_floor_log10_pow2 (- (q_mp f - 3 + alpha f)) - 1.
(** grisu_exact.h:399-400 *)
Definition max_kappa (f : fmt) : Z := - c_floor_log10_pow2 (- (extended_precision f + gamma f)) - 1.
(** grisu_exact.h:403 *)
Definition initial_kappa (f : fmt) : Z := match f with Binary32 => 2 | Binary64 => 3 end.
(** grisu_exact.h:414 *)
Definition min_k (f : fmt) : Z := - c_floor_log10_pow2 (max_exponent f + 1 - alpha f).
(** grisu_exact.h:415 *)
Definition max_k (f : fmt) : Z := - c_floor_log10_pow2 (min_exponent f + 1 - alpha f).
(** grisu_exact.h:417 *)
Definition cache_precision (f : fmt) : Z := extended_precision f * 2.
(** grisu_exact.h:424-426 *)
Definition integer_check_exponent_lower_bound_for_q_mp_m3 (f : fmt) : Z :=
  c_floor_log5_pow2 (- (q_mp f - 3 + alpha f)) - (q_mp f - 3).
(** grisu_exact.h:427-429 *)
Definition integer_check_exponent_lower_bound_for_q_mp_m2 (f : fmt) : Z :=
  c_floor_log5_pow2 (- (q_mp f - 2 + alpha f)) - (q_mp f - 2).
(** grisu_exact.h:430-432 *)
Definition integer_check_exponent_lower_bound_for_q_mp_m1 (f : fmt) : Z :=
  c_floor_log5_pow2 (- (q_mp f - 1 + alpha f)) - (q_mp f - 1).
(** grisu_exact.h:433-435 *)
Definition integer_check_exponent_lower_bound_for_q_mp (f : fmt) : Z :=
  c_floor_log5_pow2 (- (q_mp f + alpha f)) - q_mp f.
(** grisu_exact.h:436 *)
Definition max_exponent_for_k_geq_0 (f : fmt) : Z := alpha f + 2.
(** grisu_exact.h:437 *)
Definition max_exponent_for_k_geq_m1 (f : fmt) : Z := alpha f + 5.
(** grisu_exact.h:438-439 *)
Definition integer_check_exponent_upper_bound_for_p_p2 (f : fmt) : Z :=
  (alpha f - 2) - c_floor_log2_pow10 (- c_floor_log5_pow2 (precision f + 2) - 1).
(** grisu_exact.h:440-441 *)
Definition integer_check_exponent_upper_bound_for_p_p1 (f : fmt) : Z :=
  (alpha f - 2) - c_floor_log2_pow10 (- c_floor_log5_pow2 (precision f + 1) - 1).
(** The static_asserts of grisu_exact.h:390-391, 395, 401, 404, 409-410, 412, 444, 1896, 1978, 1989. *)
Definition static_asserts (f : fmt) : bool :=
  (min_exponent f <? 0) && (0 <? max_exponent f) && (max_exponent f <=? - min_exponent f) &&
  (min_exponent f =? 1 + exponent_bias f - extended_precision f + 1) &&
  (- (q_mp f - 4) <=? alpha f) && (gamma f <=? 0) &&
  (0 <=? min_kappa f) && (min_kappa f <=? max_kappa f) &&
  (min_kappa f <=? initial_kappa f) && (initial_kappa f <=? max_kappa f) &&
  (c_floor_log2_pow10 (initial_kappa f - min_kappa f - 1) <? 32 - (q_mp f - 1) - gamma f) &&
  (initial_kappa f <? c_floor_log10_pow2 32) &&
  (min_exponent f <? integer_check_exponent_lower_bound_for_q_mp_m3 f) &&
  (initial_kappa f - min_kappa f <=? 2) &&
  (max_kappa f - initial_kappa f <? match f with Binary32 => 8 | Binary64 => 16 end).

(** ** The cache (grisu_exact.h:466-1178) *)

(** cache_entry_type, grisu_exact.h:419-422. *)
Inductive cache_entry := Cache64 (v : Z) | Cache128 (v : uint128).

(** grisu_exact.h:1174-1178. *)
Definition get_cache (cfg : config) (f : fmt) (k : Z) : outcome cache_entry :=
  cassert cfg ((min_k f <=? k) && (k <=? max_k f)) ;;;
  match f with
  | Binary32 => v <- read_array cache_float (k - min_k f) ;; Ok (Cache64 v)
  | Binary64 => v <- read_array cache_double (k - min_k f) ;;
                Ok (Cache128 (mk_uint128 (fst v) (snd v)))
  end.

(** ** fp_t (grisu_exact.h:1189-1209); [fp_is_negative] is [None] for fp_t<Float, false>. *)
Record fp_t := mk_fp {
  fp_significand : Z;
  fp_exponent : Z;
  fp_is_negative : option bool
}.

(** ** bit_representation_t (grisu_exact.h:1221-1344).
    A bit representation is its member [f], an unsigned of width [extended_precision];
    [get_bit_representation] (1339-1344) and [as_ieee754] (1241-1245) copy the bits and are the identity here. *)

(** grisu_exact.h:1247-1251 *)
Definition extract_significand_bits (f : fmt) (br : Z) : Z :=
  Z.land br (Z.shiftl 1 (precision f) - 1).
(** grisu_exact.h:1253-1257 *)
Definition extract_exponent_bits (f : fmt) (br : Z) : Z :=
  Z.land (wrap 32 (Z.shiftr br (precision f))) (Z.shiftl 1 (exponent_bits f) - 1).
(** grisu_exact.h:1259-1261 *)
Definition is_finite (f : fmt) (br : Z) : bool :=
  negb (Z.land br (exponent_bits_mask f) =? exponent_bits_mask f).
(** grisu_exact.h:1263-1269 *)
Definition is_nonzero (f : fmt) (br : Z) : bool :=
  negb (wrap (extended_precision f) (Z.shiftl br 1) =? 0).
(** grisu_exact.h:1271-1274 *)
Definition is_subnormal (f : fmt) (br : Z) : bool := Z.land br (exponent_bits_mask f) =? 0.
(** grisu_exact.h:1276-1283 *)
Definition is_negative (f : fmt) (br : Z) : bool :=
  negb (Z.shiftr br (extended_precision f - 1) =? 0).
(** grisu_exact.h:1285-1290 *)
Definition is_positive (f : fmt) (br : Z) : bool :=
  Z.shiftr br (extended_precision f - 1) =? 0.
(** grisu_exact.h:1292-1295 *)
Definition is_positive_infinity (f : fmt) (br : Z) : bool := br =? exponent_bits_mask f.
(** grisu_exact.h:1297-1300 *)
Definition is_negative_infinity (f : fmt) (br : Z) : bool :=
  br =? Z.lor (exponent_bits_mask f) (sign_bit_mask f).
(** grisu_exact.h:1302-1305 *)
Definition is_infinity (f : fmt) (br : Z) : bool :=
  is_positive_infinity f br || is_negative_infinity f br.
(** grisu_exact.h:1307-1309 *)
Definition is_nan (f : fmt) (br : Z) : bool :=
  negb (is_finite f br) && negb (extract_significand_bits f br =? 0).
(** numeric_limits<Float>::quiet_NaN() as a bit pattern (1319-1321): its quiet bit is set on every
    platform this library targets (IEEE 754-2008); only that bit is used. *)
Definition a_quiet_nan_bit_representation (f : fmt) : Z :=
  Z.lor (exponent_bits_mask f) (Z.shiftl 1 (precision f - 1)).
(** grisu_exact.h:1311-1325 *)
Definition is_quiet_nan (f : fmt) (br : Z) : bool :=
  if negb (is_nan f br) then false
  else
    let indicator := Z.shiftl 1 (precision f - 1) in
    Z.land (a_quiet_nan_bit_representation f) indicator =? Z.land br indicator.
(** grisu_exact.h:1327-1329 *)
Definition is_signaling_nan (f : fmt) (br : Z) : bool := is_nan f br && negb (is_quiet_nan f br).
(** grisu_exact.h:1331-1336: the payload bitset as the integer it encodes. *)
Definition get_nan_payload (f : fmt) (br : Z) : Z :=
  Z.land br (Z.shiftl 1 (precision f - 1) - 1).

(** ** Correct rounding policies (grisu_exact.h:1347-1415) *)
Inductive crs_tag := do_not_care | tie_to_even | tie_to_odd | tie_to_up | tie_to_down.
(** tag != do_not_care_tag, as at grisu_exact.h:1941-1942 *)
Definition cares (c : crs_tag) : bool := match c with do_not_care => false | _ => true end.

(** ** Rounding modes (grisu_exact.h:1418-1732) *)

(** grisu_exact.h:1419-1423 *)
Inductive mode_tag := to_nearest_tag | left_closed_directed_tag | right_closed_directed_tag.

(** grisu_exact.h:1424-1482 *)
Inductive interval_type :=
| symmetric_boundary (is_closed : bool)
| asymmetric_boundary (is_left_closed : bool)
| closed
| open
| left_closed_right_open
| right_closed_left_open.
(** grisu_exact.h:1429, 1439, 1448, 1457, 1466, 1475 *)
Definition include_left_endpoint (i : interval_type) : bool :=
  match i with
  | symmetric_boundary c => c
  | asymmetric_boundary l => l
  | closed => true
  | open => false
  | left_closed_right_open => true
  | right_closed_left_open => false
  end.
(** grisu_exact.h:1432, 1442, 1451, 1460, 1469, 1478 *)
Definition include_right_endpoint (i : interval_type) : bool :=
  match i with
  | symmetric_boundary c => c
  | asymmetric_boundary l => negb l
  | closed => true
  | open => false
  | left_closed_right_open => false
  | right_closed_left_open => true
  end.
(** grisu_exact.h:1426, 1437, 1447, 1456, 1465, 1474 *)
Definition is_symmetric (i : interval_type) : bool :=
  match i with
  | symmetric_boundary _ | closed | open => true
  | asymmetric_boundary _ | left_closed_right_open | right_closed_left_open => false
  end.

(** The interval type providers that [compute] is instantiated with: 1484-1593 and 1664-1681. *)
Inductive provider :=
| p_nearest_to_even
| p_nearest_to_odd
| p_nearest_toward_plus_infinity
| p_nearest_toward_minus_infinity
| p_nearest_toward_zero
| p_nearest_away_from_zero
| p_nearest_always_closed
| p_nearest_always_open
| p_left_closed_directed
| p_right_closed_directed.
(** grisu_exact.h:1485, 1500, 1515, 1530, 1546, 1561, 1578, 1586, 1666, 1674 *)
Definition provider_tag (p : provider) : mode_tag :=
  match p with
  | p_left_closed_directed => left_closed_directed_tag
  | p_right_closed_directed => right_closed_directed_tag
  | _ => to_nearest_tag
  end.
(** The call operators: 1495-1497, 1510-1512, 1525-1527, 1540-1542, 1556-1558, 1571-1573, 1581-1583,
    1589-1591, 1669-1671, 1677-1679. *)
Definition provider_call (f : fmt) (p : provider) (br : Z) : interval_type :=
  match p with
  | p_nearest_to_even => symmetric_boundary (br mod 2 =? 0)
  | p_nearest_to_odd => symmetric_boundary (negb (br mod 2 =? 0))
  | p_nearest_toward_plus_infinity => asymmetric_boundary (negb (is_negative f br))
  | p_nearest_toward_minus_infinity => asymmetric_boundary (is_negative f br)
  | p_nearest_toward_zero => right_closed_left_open
  | p_nearest_away_from_zero => left_closed_right_open
  | p_nearest_always_closed => closed
  | p_nearest_always_open => open
  | p_left_closed_directed => left_closed_right_open
  | p_right_closed_directed => right_closed_left_open
  end.

(** The rounding modes a user can pass: 1484-1574, 1595-1662, 1683-1731. *)
Inductive rounding_mode :=
| nearest_to_even
| nearest_to_odd
| nearest_toward_plus_infinity
| nearest_toward_minus_infinity
| nearest_toward_zero
| nearest_away_from_zero
| nearest_to_even_static_boundary
| nearest_to_odd_static_boundary
| nearest_toward_plus_infinity_static_boundary
| nearest_toward_minus_infinity_static_boundary
| toward_plus_infinity
| toward_minus_infinity
| toward_zero
| away_from_zero.

(** The [delegate] members (same lines): which provider [compute] is run with. *)
(** grisu_exact.h:1488-1567, 1599-1658, 1685-1728 *)
Definition delegate (f : fmt) (m : rounding_mode) (br : Z) : provider :=
  match m with
  | nearest_to_even => p_nearest_to_even
  | nearest_to_odd => p_nearest_to_odd
  | nearest_toward_plus_infinity => p_nearest_toward_plus_infinity
  | nearest_toward_minus_infinity => p_nearest_toward_minus_infinity
  | nearest_toward_zero => p_nearest_toward_zero
  | nearest_away_from_zero => p_nearest_away_from_zero
  | nearest_to_even_static_boundary =>
      if br mod 2 =? 0 then p_nearest_always_closed else p_nearest_always_open
  | nearest_to_odd_static_boundary =>
      if br mod 2 =? 0 then p_nearest_always_open else p_nearest_always_closed
  | nearest_toward_plus_infinity_static_boundary =>
      if is_negative f br then p_nearest_toward_zero else p_nearest_away_from_zero
  | nearest_toward_minus_infinity_static_boundary =>
      if is_negative f br then p_nearest_away_from_zero else p_nearest_toward_zero
  | toward_plus_infinity =>
      if is_negative f br then p_left_closed_directed else p_right_closed_directed
  | toward_minus_infinity =>
      if is_negative f br then p_right_closed_directed else p_left_closed_directed
  | toward_zero => p_left_closed_directed
  | away_from_zero => p_right_closed_directed
  end.

(** ** grisu_exact_impl<Float> (grisu_exact.h:1741-2646) *)

(** grisu_exact.h:1774-1775: power_of_10<e> in the extended significand type. *)
Definition power_of_10 (f : fmt) (e : Z) : Z :=
  compute_power (extended_precision f) 10 (Z.to_nat e).

(** grisu_exact.h:2367-2376 *)
Definition compute_mul (cfg : config) (f : fmt) (x : Z) (cache : cache_entry) (minus_beta : Z)
  : outcome Z :=
  match cache with
  | Cache64 v => shr 32 (umul96_upper32 cfg x v) minus_beta
  | Cache128 v => shr 64 (umul192_upper64 cfg x v) minus_beta
  end.

(** grisu_exact.h:2378-2419.  [intermediate_precision] is 64 for both formats (cache_precision for float,
    extended_precision for double); [r] is a 64-bit unsigned in both. *)
Definition compute_delta (f : fmt) (tag : mode_tag) (is_edge_case : bool) (cache : cache_entry)
  (minus_beta : Z) : outcome Z :=
  let q_mp_m1 := extended_precision f - precision f - 1 in
  let intermediate_precision :=
    match f with Binary32 => cache_precision f | Binary64 => extended_precision f end in
  let r := match cache with Cache64 v => v | Cache128 v => u128_high v end in
  let shift := intermediate_precision - q_mp_m1 + minus_beta in
  d <- match tag with
       | to_nearest_tag =>
           let r := if is_edge_case then wrap 64 (Z.shiftr r 1 + Z.shiftr r 2) else r in
           shr 64 r shift
       | left_closed_directed_tag => shr 64 r shift
       | right_closed_directed_tag =>
           if is_edge_case
           then shr 64 r (intermediate_precision - (q_mp_m1 - 1) + minus_beta)
           else shr 64 r shift
       end ;;
  Ok (wrap 32 d).

(** grisu_exact.h:2422-2428 *)
Definition is_zf_strictly_smaller_than_deltaf (cfg : config) (f : fmt) (fl minus_beta : Z)
  (cache : cache_entry) : outcome bool :=
  mul <- compute_mul cfg f fl cache minus_beta ;;
  Ok (negb (Z.land mul 1 =? 0)).

(** grisu_exact.h:2430-2436 *)
Inductive integer_check_case_id :=
| fc_minus_2_to_the_q_mp_m3_edge
| fc_pm_2_to_the_q_mp_m2_generic
| fc_pm_2_to_the_q_mp_m2_edge
| two_times_fc
| other.

(** grisu_exact.h:2437-2508.  (fc_pm_2_to_the_q_mp_m2_edge is never instantiated by the library, it is kept.) *)
Definition is_product_integer (cfg : config) (f : fmt) (case_id : integer_check_case_id)
  (x exponent minus_k : Z) : outcome bool :=
  let w := extended_precision f in
  match case_id with
  | fc_minus_2_to_the_q_mp_m3_edge =>
      Ok ((integer_check_exponent_lower_bound_for_q_mp_m3 f <=? exponent) &&
          (exponent <=? max_exponent_for_k_geq_0 f))
  | fc_pm_2_to_the_q_mp_m2_generic =>
      if exponent <? integer_check_exponent_lower_bound_for_q_mp_m2 f then Ok false
      else if exponent <=? max_exponent_for_k_geq_0 f then Ok true
      else if exponent <=? integer_check_exponent_upper_bound_for_p_p2 f then
        cassert cfg (match f with
                     | Binary32 => (1 <=? minus_k) && (minus_k <=? 10)
                     | Binary64 => (1 <=? minus_k) && (minus_k <=? 23)
                     end) ;;;
        divisible_by_power_of_5 cfg f w x minus_k
      else Ok false
  | fc_pm_2_to_the_q_mp_m2_edge =>
      Ok ((integer_check_exponent_lower_bound_for_q_mp_m2 f <=? exponent) &&
          (exponent <=? match f with
                        | Binary32 => max_exponent_for_k_geq_m1 f
                        | Binary64 => max_exponent_for_k_geq_0 f
                        end))
  | _ =>
      let two := match case_id with two_times_fc => true | _ => false end in
      let exp_2_upper_bound :=
        if two then integer_check_exponent_lower_bound_for_q_mp f
        else integer_check_exponent_lower_bound_for_q_mp_m1 f in
      if exponent <? exp_2_upper_bound then
        let exp_2 := if two then minus_k - exponent - 1 else minus_k - exponent in
        divisible_by_power_of_2 cfg w x exp_2
      else if exponent <=? max_exponent_for_k_geq_0 f then Ok true
      else if exponent <=? integer_check_exponent_upper_bound_for_p_p1 f then
        cassert cfg (match f with
                     | Binary32 => (1 <=? minus_k) && (minus_k <=? 10)
                     | Binary64 => (1 <=? minus_k) && (minus_k <=? 22)
                     end) ;;;
        divisible_by_power_of_5 cfg f w x minus_k
      else Ok false
  end.

(** grisu_exact.h:2510-2514 *)
Inductive zf_vs_deltaf_t := not_compared_yet | zf_larger | zf_smaller.

(** grisu_exact.h:2516-2547 *)
Definition equal_fractional_parts (cfg : config) (f : fmt) (tag : mode_tag) (fl exponent minus_k : Z)
  : outcome bool :=
  match tag with
  | to_nearest_tag =>
      if negb (fl =? sign_bit_mask f - edge_case_boundary_bit f)
      then is_product_integer cfg f fc_pm_2_to_the_q_mp_m2_generic fl exponent minus_k
      else is_product_integer cfg f fc_minus_2_to_the_q_mp_m3_edge fl exponent minus_k
  | left_closed_directed_tag => is_product_integer cfg f other fl exponent minus_k
  | right_closed_directed_tag => Ok false
  end.

(** grisu_exact.h:2554-2572: the left endpoint [fl]. *)
Definition left_endpoint (f : fmt) (tag : mode_tag) (fc exponent : Z) : Z :=
  let w := extended_precision f in
  let edge := (fc =? sign_bit_mask f) && negb (exponent =? min_exponent f) in
  match tag with
  | to_nearest_tag =>
      if edge then wrap w (sign_bit_mask f - edge_case_boundary_bit f)
      else wrap w (fc - boundary_bit f)
  | left_closed_directed_tag => fc
  | right_closed_directed_tag =>
      if edge then wrap w (sign_bit_mask f - boundary_bit f)
      else wrap w (fc - normal_interval_length f)
  end.

(** grisu_exact.h:2549-2577; [||] and [&&] short-circuit. *)
Definition is_zf_smaller_than_deltaf (cfg : config) (f : fmt) (tag : mode_tag) (fc minus_beta : Z)
  (cache : cache_entry) (interval : interval_type) (exponent minus_k : Z) : outcome bool :=
  let fl := left_endpoint f tag fc exponent in
  strict <- is_zf_strictly_smaller_than_deltaf cfg f fl minus_beta cache ;;
  if strict then Ok true
  else if include_left_endpoint interval then equal_fractional_parts cfg f tag fl exponent minus_k
  else Ok false.

(** The variables of [compute] that are never modified after step 1 (1784-1857). *)
Record compute_ctx := mk_ctx {
  cx_tag : mode_tag;             (* IntervalTypeProvider::tag *)
  cx_crs : crs_tag;              (* CorrectRoundingSearch::tag *)
  cx_interval : interval_type;
  cx_significand : Z;            (* fc *)
  cx_exponent : Z;
  cx_fr : Z;
  cx_minus_k : Z;
  cx_minus_beta : Z;
  cx_cache : cache_entry;
  cx_zi : Z
}.

(** The variables modified by steps 2-4. *)
Record compute_state := mk_state {
  st_significand : Z;            (* ret_value.significand *)
  st_exponent : Z;               (* ret_value.exponent *)
  st_r : Z;
  st_divisor : Z;
  st_deltai : Z;                 (* std::uint32_t *)
  st_zf_vs_deltaf : zf_vs_deltaf_t
}.

(** is_zf_smaller_than_deltaf applied to the variables of [compute] *)
(** as at grisu_exact.h:1879-1882, 1912-1915 *)
Definition ctx_zf_smaller (cfg : config) (f : fmt) (cx : compute_ctx) : outcome bool :=
  is_zf_smaller_than_deltaf cfg f (cx_tag cx) (cx_significand cx) (cx_minus_beta cx) (cx_cache cx)
    (cx_interval cx) (cx_exponent cx) (cx_minus_k cx).

(** grisu_exact.h:2579-2645.  The Boolean result of the source function is never used by its callers and is
    dropped; the state is returned unchanged except for [zf_vs_deltaf] when the source returns false. *)
Definition increasing_search (cfg : config) (f : fmt) (lambda : Z) (is_initial_search : bool)
  (cx : compute_ctx) (st : compute_state) : outcome compute_state :=
  let w := extended_precision f in
  let quotient := st_significand st / power_of_10 f lambda in
  let new_r :=
    wrap w (st_r st + wrap w (st_divisor st * (st_significand st mod power_of_10 f lambda))) in
  let with_zf z := mk_state (st_significand st) (st_exponent st) (st_r st) (st_divisor st)
                     (st_deltai st) z in
  (* Update kappa; [exponent += lambda] is evaluated in the unsigned type of lambda and converted back *)
  let update z := mk_state quotient (to_int (wrap w (wrap w (st_exponent st) + lambda))) new_r
                    (wrap w (st_divisor st * power_of_10 f lambda)) (st_deltai st) z in
  if st_deltai st <? new_r then Ok st
  else if new_r =? st_deltai st then
    match st_zf_vs_deltaf st with
    | not_compared_yet =>
        smaller <- ctx_zf_smaller cfg f cx ;;
        if smaller then Ok (update zf_smaller) else Ok (with_zf zf_larger)
    | zf_larger =>
        if is_initial_search then Ok (update zf_larger) else Ok st
    | zf_smaller => Ok (update zf_smaller)
    end
  else Ok (update (st_zf_vs_deltaf st)).

(** return_label, 2363-2364 *)
Definition return_label (st : compute_state) : outcome (Z * Z) :=
  Ok (st_significand st, st_exponent st).

(** correct_rounding_search_when_kappa_is_0_label, 2307-2361 *)
Definition correct_rounding_search_when_kappa_is_0_label (cfg : config) (f : fmt) (cx : compute_ctx)
  (st : compute_state) : outcome (Z * Z) :=
  let w := extended_precision f in
  let ret s := Ok (s, st_exponent st) in
  two_yi <- compute_mul cfg f (cx_significand cx) (cx_cache cx) (cx_minus_beta cx - 1) ;;
  let integer_check :=
    is_product_integer cfg f two_times_fc (cx_significand cx) (cx_exponent cx) (cx_minus_k cx) in
  match cx_crs cx with
  | tie_to_even =>
      b <- integer_check ;;
      if b then
        ret (if (two_yi / 2) mod 2 =? 1 then wrap w (two_yi + 1) / 2 else two_yi / 2)
      else ret (wrap w (two_yi + 1) / 2)
  | tie_to_odd =>
      b <- integer_check ;;
      if b then
        ret (if (two_yi / 2) mod 2 =? 0 then wrap w (two_yi + 1) / 2 else two_yi / 2)
      else ret (wrap w (two_yi + 1) / 2)
  | tie_to_up => ret (wrap w (two_yi + 1) / 2)
  | tie_to_down =>
      b <- integer_check ;;
      let two_yi := if b then two_yi else wrap w (two_yi + 1) in
      ret (two_yi / 2)
  | do_not_care => return_label st
  end.

(** grisu_exact.h:2099-2142: the while loop of the left-closed directed search.  [fuel] bounds the iterations.
    Note that at 2106-2136 [steps] is adjusted and then the function returns without using it. *)
Fixpoint left_closed_search (fuel : nat) (cfg : config) (f : fmt) (cx : compute_ctx)
  (approx_x steps : Z) (st : compute_state) : outcome (Z * Z) :=
  match fuel with
  | O => Diverged
  | S fuel' =>
      let w := extended_precision f in
      if steps =? 0 then return_label st
      else
        let displacement := wrap w (steps * st_divisor st) in
        if st_deltai st <? displacement then
          left_closed_search fuel' cfg f cx approx_x (steps / 2) st
        else if displacement =? st_deltai st then
          match st_zf_vs_deltaf st with
          | not_compared_yet =>
              xi <- compute_mul cfg f (cx_significand cx) (cx_cache cx) (cx_minus_beta cx) ;;
              if Z.land xi 1 =? Z.land approx_x 1 then
                equal_fractional_parts cfg f (cx_tag cx) (cx_significand cx) (cx_exponent cx)
                  (cx_minus_k cx) ;;;
                return_label st
              else return_label st
          | zf_larger => return_label st
          | zf_smaller => return_label st
          end
        else
          left_closed_search fuel' cfg f cx approx_x steps
            (mk_state (wrap w (st_significand st - steps)) (st_exponent st) (st_r st) (st_divisor st)
               (wrap 32 (st_deltai st - wrap 32 displacement)) (st_zf_vs_deltaf st))
  end.

(** grisu_exact.h:2177-2228: the decision tree computing [steps]; returns (steps, remaining epsiloni). *)
Definition count_steps (f : fmt) (divisor32 epsiloni : Z) : Z * Z :=
  let sub x y := wrap 32 (x - y) in
  let twice := wrap 32 (2 * divisor32) in
  if divisor32 <=? epsiloni then
    let epsiloni := sub epsiloni divisor32 in
    if twice <=? epsiloni then
      let epsiloni := sub epsiloni twice in
      if divisor32 <=? epsiloni then
        let epsiloni := sub epsiloni divisor32 in
        match f with
        | Binary32 => (5, epsiloni)
        | Binary64 =>
            if divisor32 <=? epsiloni then (6, sub epsiloni divisor32) else (5, epsiloni)
        end
      else (4, epsiloni)
    else if divisor32 <=? epsiloni then (3, sub epsiloni divisor32)
    else (2, epsiloni)
  else (1, epsiloni).

(** grisu_exact.h:2230-2275: the fractional check; [steps] is a std::uint8_t. *)
Definition adjust_steps (cfg : config) (f : fmt) (cx : compute_ctx) (st : compute_state)
  (approx_y steps epsiloni : Z) : outcome Z :=
  if epsiloni =? 0 then
    yi <- compute_mul cfg f (cx_significand cx) (cx_cache cx) (cx_minus_beta cx) ;;
    if yi =? approx_y then
      let integer_check :=
        is_product_integer cfg f other (cx_significand cx) (cx_exponent cx) (cx_minus_k cx) in
      let dec := wrap 8 (steps - 1) in
      match cx_crs cx with
      | tie_to_even =>
          b <- integer_check ;;
          if b then
            Ok (if negb (Z.land (st_significand st) 1 =? Z.land steps 1) then dec else steps)
          else Ok dec
      | tie_to_odd =>
          b <- integer_check ;;
          if b then
            Ok (if Z.land (st_significand st) 1 =? Z.land steps 1 then dec else steps)
          else Ok dec
      | tie_to_up => Ok dec
      | _ =>
          b <- integer_check ;;
          if b then Ok steps else Ok dec
      end
    else Ok steps
  else Ok steps.

(** correct_rounding_search_label, 2087-2303 *)
Definition correct_rounding_search_label (cfg : config) (f : fmt) (cx : compute_ctx)
  (st : compute_state) : outcome (Z * Z) :=
  let w := extended_precision f in
  if cares (cx_crs cx) then
    match cx_tag cx with
    | left_closed_directed_tag =>
        let deltai := wrap 32 (st_deltai st - wrap 32 (st_r st)) in
        let approx_x := wrap w (cx_zi cx - deltai) in
        let current_digit := st_significand st mod 10 in
        left_closed_search 64 cfg f cx approx_x (current_digit / 2)
          (mk_state (st_significand st) (st_exponent st) (st_r st) (st_divisor st) deltai
             (st_zf_vs_deltaf st))
    | to_nearest_tag =>
        cassert cfg (negb (st_exponent st =? cx_minus_k cx)) ;;;
        let displacement := wrap w (st_divisor st / 2 + st_r st) in
        epsiloni <- compute_delta f left_closed_directed_tag false (cx_cache cx)
                      (cx_minus_beta cx + 1) ;;
        if displacement <=? epsiloni then
          let approx_y := wrap w (cx_zi cx - epsiloni) in
          let epsiloni := wrap 32 (epsiloni - wrap 32 displacement) in
          let divisor32 := wrap 32 (st_divisor st) in
          let '(steps, epsiloni) := count_steps f divisor32 epsiloni in
          steps <- adjust_steps cfg f cx st approx_y steps epsiloni ;;
          let subtract_steps := Ok (wrap w (st_significand st - steps), st_exponent st) in
          (* 2277-2297 *)
          if (steps =? 1) && (cx_significand cx =? sign_bit_mask f) then
            let deltai := wrap 32 (st_deltai st - wrap 32 (st_r st)) in
            if deltai <? st_divisor st then return_label st
            else if st_divisor st =? deltai then
              if cx_exponent cx =? match f with Binary32 => 59 | Binary64 => -203 end
              then return_label st
              else subtract_steps
            else subtract_steps
          else subtract_steps
        else return_label st
    | right_closed_directed_tag => return_label st
    end
  else return_label st.

(** grisu_exact.h:2017-2049: the while (true) loop of the right-endpoint adjustment. *)
Fixpoint boundary_adjustment_loop (fuel : nat) (f : fmt) (cx : compute_ctx) (st : compute_state)
  : outcome compute_state :=
  match fuel with
  | O => Diverged
  | S fuel' =>
      let w := extended_precision f in
      let lower := mk_state (wrap w (st_significand st * 10)) (st_exponent st - 1) (st_r st)
                     (st_divisor st / 10) (st_deltai st) (st_zf_vs_deltaf st) in
      if st_divisor st <? st_deltai st then Ok st
      else if st_divisor st =? st_deltai st then
        match cx_tag cx with
        | to_nearest_tag =>
            if is_symmetric (cx_interval cx) then
              if cx_exponent cx =? - (extended_precision f - precision f - 1) then Ok lower else Ok st
            else Ok st
        | _ => Ok st
        end
      else boundary_adjustment_loop fuel' f cx lower
  end.

(** boundary_adjustment_label, 2006-2079 *)
Definition boundary_adjustment_label (cfg : config) (f : fmt) (cx : compute_ctx)
  (st : compute_state) : outcome (Z * Z) :=
  let w := extended_precision f in
  if negb (include_right_endpoint (cx_interval cx)) && (st_r st =? 0) then
    let case_id :=
      match cx_tag cx with to_nearest_tag => fc_pm_2_to_the_q_mp_m2_generic | _ => other end in
    b <- is_product_integer cfg f case_id (cx_fr cx) (cx_exponent cx) (cx_minus_k cx) ;;
    if b then
      st <- boundary_adjustment_loop 64 f cx st ;;
      (* 2051-2057 *)
      let s := match cx_tag cx with
               | to_nearest_tag =>
                   if cares (cx_crs cx) then st_significand st else wrap w (st_significand st - 1)
               | _ => wrap w (st_significand st - 1)
               end in
      (* 2059-2065 *)
      let r := match cx_tag cx with
               | left_closed_directed_tag => if cares (cx_crs cx) then st_divisor st else st_r st
               | _ => st_r st
               end in
      let st := mk_state s (st_exponent st) r (st_divisor st) (st_deltai st) (st_zf_vs_deltaf st) in
      (* 2067-2077 *)
      if cares (cx_crs cx) && (match cx_tag cx with to_nearest_tag => true | _ => false end) &&
         (min_kappa f =? 0) && (st_exponent st =? cx_minus_k cx)
      then correct_rounding_search_when_kappa_is_0_label cfg f cx st
      else correct_rounding_search_label cfg f cx st
    else correct_rounding_search_label cfg f cx st
  else correct_rounding_search_label cfg f cx st.

(** increasing_search_label, 1972-1999 *)
Definition increasing_search_label (cfg : config) (f : fmt) (cx : compute_ctx) (st : compute_state)
  : outcome (Z * Z) :=
  let st := mk_state (st_significand st) (st_exponent st) (st_r st) (power_of_10 f (initial_kappa f))
              (st_deltai st) (st_zf_vs_deltaf st) in
  st <- match f with
        | Binary32 =>
            st <- increasing_search cfg f 4 true cx st ;;
            st <- increasing_search cfg f 2 false cx st ;;
            increasing_search cfg f 1 false cx st
        | Binary64 =>
            st <- increasing_search cfg f 8 true cx st ;;
            st <- increasing_search cfg f 4 false cx st ;;
            st <- increasing_search cfg f 2 false cx st ;;
            increasing_search cfg f 1 false cx st
        end ;;
  boundary_adjustment_label cfg f cx st.

(** grisu_exact.h:1894-1970: the decreasing search, with decrease_kappa_by_1_label. [divisor] is not yet
    assigned on entry; [st_divisor] is ignored. *)
Definition decreasing_search (cfg : config) (f : fmt) (cx : compute_ctx) (st : compute_state)
  : outcome (Z * Z) :=
  let w := extended_precision f in
  let p := wrap 32 (power_of_10 f (initial_kappa f - 1)) in
  let quotient := wrap 32 (st_r st) / p in
  let new_r := wrap 32 (st_r st) mod p in
  (* 1961-1969 *)
  let decrease_kappa_by_1_label z :=
    boundary_adjustment_label cfg f cx
      (mk_state (wrap w (wrap w (st_significand st * 10) + quotient)) (st_exponent st - 1) new_r
         (power_of_10 f (initial_kappa f - 1)) (st_deltai st) z) in
  (* 1922-1959 *)
  let decrease_kappa_by_2 z :=
    let '(s, r) :=
      match f with
      | Binary32 => (cx_zi cx, 0)
      | Binary64 =>
          (wrap w (wrap w (st_significand st * 100) + wrap 32 (wrap 32 (10 * quotient) + new_r / 10)),
           new_r mod 10)
      end in
    let st' := mk_state s (st_exponent st - 2) r (power_of_10 f (initial_kappa f - 2))
                 (st_deltai st) z in
    if cares (cx_crs cx) && (match cx_tag cx with to_nearest_tag => true | _ => false end) then
      if min_kappa f =? 0
      then correct_rounding_search_when_kappa_is_0_label cfg f cx st'
      else correct_rounding_search_label cfg f cx st'
    else boundary_adjustment_label cfg f cx st' in
  if new_r <? st_deltai st then decrease_kappa_by_1_label (st_zf_vs_deltaf st)
  else if new_r =? st_deltai st then
    match st_zf_vs_deltaf st with
    | not_compared_yet =>
        smaller <- ctx_zf_smaller cfg f cx ;;
        if smaller then decrease_kappa_by_1_label zf_smaller else decrease_kappa_by_2 zf_larger
    | z => decrease_kappa_by_2 z
    end
  else decrease_kappa_by_2 (st_zf_vs_deltaf st).

(** grisu_exact.h:1795-1805: significand and exponent of the input. *)
Definition decompose (f : fmt) (br : Z) : Z * Z :=
  let w := extended_precision f in
  let significand := wrap w (Z.shiftl br (exponent_bits f)) in
  let exponent := Z.land (Z.shiftr br (precision f))
                    (Z.shiftr (exponent_bits_mask f) (precision f)) in
  if negb (exponent =? 0)
  then (Z.lor significand (sign_bit_mask f), exponent + exponent_bias f - extended_precision f + 1)
  else (significand, min_exponent f).

(** grisu_exact.h:1807-1824: the right endpoint. *)
Definition right_endpoint (f : fmt) (tag : mode_tag) (significand : Z) : Z :=
  match tag with
  | to_nearest_tag => Z.lor significand (boundary_bit f)
  | left_closed_directed_tag =>
      wrap (extended_precision f) (significand + normal_interval_length f)
  | right_closed_directed_tag => significand
  end.

(** grisu_exact.h:1834-1854 *)
Definition compute_zi (cfg : config) (f : fmt) (tag : mode_tag) (fr : Z) (cache : cache_entry)
  (minus_beta : Z) : outcome Z :=
  match tag with
  | left_closed_directed_tag =>
      if fr =? 0 then
        match cache with
        | Cache64 v =>
            hi <- shr 64 v (extended_precision f) ;;
            z <- shr 64 hi minus_beta ;;
            Ok (wrap (extended_precision f) z)
        | Cache128 v => shr 64 (u128_high v) minus_beta
        end
      else compute_mul cfg f fr cache minus_beta
  | _ => compute_mul cfg f fr cache minus_beta
  end.

(** grisu_exact.h:1780-2365: [compute]; the result is (ret_value.significand, ret_value.exponent). *)
Definition compute (cfg : config) (f : fmt) (p : provider) (crs : crs_tag) (br : Z)
  : outcome (Z * Z) :=
  let tag := provider_tag p in
  let interval := provider_call f p br in
  let '(significand, exponent) := decompose f br in
  let fr := right_endpoint f tag significand in
  (* 1826-1829 *)
  minus_k <- floor_log10_pow2 cfg (exponent + 1 - alpha f) ;;
  l <- floor_log2_pow10 cfg (- minus_k) ;;
  minus_beta <- i32 (- (exponent + l + 1)) ;;
  cassert cfg ((alpha f <=? - minus_beta) && (- minus_beta <=? gamma f)) ;;;
  cache <- get_cache cfg f (- minus_k) ;;
  zi <- compute_zi cfg f tag fr cache minus_beta ;;
  (* 1856-1857 *)
  deltai <- compute_delta f tag
              ((significand =? sign_bit_mask f) && negb (exponent =? min_exponent f))
              cache minus_beta ;;
  let cx := mk_ctx tag crs interval significand exponent fr minus_k minus_beta cache zi in
  (* 1865-1886 *)
  let s := zi / power_of_10 f (initial_kappa f) in
  let r := zi mod power_of_10 f (initial_kappa f) in
  let st z := mk_state s (initial_kappa f + minus_k) r 0 deltai z in
  if r <? deltai then increasing_search_label cfg f cx (st not_compared_yet)
  else if r =? deltai then
    smaller <- ctx_zf_smaller cfg f cx ;;
    if smaller then increasing_search_label cfg f cx (st zf_smaller)
    else decreasing_search cfg f cx (st zf_larger)
  else decreasing_search cfg f cx (st not_compared_yet).

(** ** Case handlers and the entry point (grisu_exact.h:2649-2682) *)
Inductive case_handler := assert_finite | ignore_special_cases.
(** grisu_exact.h:2651-2666 *)
Definition run_case_handler (cfg : config) (f : fmt) (h : case_handler) (br : Z) : outcome unit :=
  match h with
  | assert_finite => cassert cfg (is_finite f br)
  | ignore_special_cases => Ok tt
  end.

(** grisu_exact.h:2668-2682, with the [delegate] chain 1359-1413 inlined: the policy's [delegate] calls
    [compute] with the provider chosen by the rounding mode. [is_negative] is set at 1792-1794. *)
Definition grisu_exact (cfg : config) (f : fmt) (return_sign : bool) (m : rounding_mode)
  (crs : crs_tag) (h : case_handler) (x : Z) : outcome fp_t :=
  run_case_handler cfg f h x ;;;
  se <- compute cfg f (delegate f m x) crs x ;;
  Ok (mk_fp (fst se) (snd se) (if return_sign then Some (is_negative f x) else None)).
