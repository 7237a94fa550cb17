(** * Model of tests/verify_cache_length.cpp, after minmax_euclid

    The rows written to the files and the maxima written to the console are returned; std::ofstream and
    std::cout are not modelled.  std::size_t is taken to have 64 bits: sums that involve one are reduced
    modulo 2^64.  [junk e place turn site] are the contents of the uninitialised arrays of the temporaries
    made for the exponent [e] (the place numbers the temporary in the source; turn and site are used inside
    minmax_euclid). *)

From Coq Require Import ZArith List Bool Lia.
From Verif Require Import Machine Model BigintModel DivModel EuclidModel.
Import ListNotations.
Open Scope Z_scope.

(** verify_cache_length.cpp:142-145, 159-163, 167-170 *)
Definition negative_k_max_bits (f : fmt) : Z := Z.max (extended_precision f + 2) (2 - alpha f) + max_exponent f + min_k f.
(** verify_cache_length.cpp:159-163 *)
Definition positive_k_max_bits (f : fmt) : Z :=
  wrap 64 (precision f + Z.max (- (extended_precision f - 4)) (5 + alpha f) - min_exponent f - max_k f).
(** verify_cache_length.cpp:167-168 *)
Definition range (f : fmt) : Z := Z.shiftl 1 (precision f + 2).
(** verify_cache_length.cpp:169-170 *)
Definition q_mp_m2 (f : fmt) : Z := extended_precision f - precision f - 2.

(** leading_one_pos.element_pos * element_number_of_bits + leading_one_pos.bit_pos, as on lines 201, 218, 236 *)
Definition leading_position (b : big) : Z := wrap 64 (Z.of_nat (element_pos b) * element_number_of_bits + bit_pos b).

Section Lengths.
Variables (cfg : config) (f : fmt) (junk : Z -> nat -> nat -> nat -> nat -> Z).

(** ** Negative k *)
Section Negative.
Let M : nat := array_size_of (negative_k_max_bits f).

(** verify_cache_length.cpp:196-202, 213-219, 231-237: divisor = power_of_5 - x, and the position of the leading bit of power_of_5 / divisor *)
Definition quotient_position (j : nat -> nat -> Z) (power_of_5 x : big) : outcome Z :=
  divisor <- sub_assign cfg M power_of_5 x ;;
  r <- long_division cfg M (j 0%nat) (j 1%nat) power_of_5 divisor ;;
  Ok (leading_position (snd r)).

(** verify_cache_length.cpp:190-243: required_bits for one exponent *)
Definition negative_k_row (e k : Z) (power_of_5 : big) : outcome Z :=
  a <- power_of_2 cfg M (junk e 0 0 0) (wrap 64 (q_mp_m2 f + e + k)) ;;
  mod_minmax <- minmax_euclid cfg M (junk e 1) (range f) a power_of_5 ;;
  log2_res_p1 <- quotient_position (junk e 2 0) power_of_5 (e_max mod_minmax) ;;
  l <- floor_log2_pow10 cfg k ;;
  let required_bits := wrap 64 (extended_precision f + e + l + 1 + log2_res_p1) in
  a <- power_of_2 cfg M (junk e 3 0 0) (wrap 64 (q_mp_m2 f + e + k + 2)) ;;
  mod_minmax <- minmax_euclid cfg M (junk e 4) (range f / 2) a power_of_5 ;;
  log2_res_p1 <- quotient_position (junk e 5 0) power_of_5 (e_max mod_minmax) ;;
  l <- floor_log2_pow10 cfg k ;;
  let two_y_result := wrap 64 (extended_precision f + e + l + 1 + log2_res_p1) in
  let required_bits := if required_bits <? two_y_result then two_y_result else required_bits in
  edge_case_a <- power_of_2 cfg M (junk e 6 0 0) (wrap 64 (q_mp_m2 f + e + k - 1)) ;;
  edge_case_a <- mul_assign_element cfg M edge_case_a (range f - 1) ;;
  r <- long_division cfg M (junk e 7 0 0) (junk e 7 0 1) edge_case_a power_of_5 ;;
  log2_res_p1 <- quotient_position (junk e 8 0) power_of_5 (fst r) ;;
  l <- floor_log2_pow10 cfg k ;;
  let edge_case_result := wrap 64 (extended_precision f + e + l + log2_res_p1) in
  Ok (if required_bits <? edge_case_result then edge_case_result else required_bits).

(** verify_cache_length.cpp:182-249; [fuel] bounds the number of turns *)
Fixpoint negative_k_loop (fuel : nat) (e prev_k : Z) (power_of_5 : big) (max_required_bits : Z) : outcome (list (Z * Z) * Z) :=
  match fuel with
  | O => Diverged
  | S fuel' =>
      if e <=? max_exponent f then
        l <- floor_log10_pow2 cfg (e + 1 - alpha f) ;;
        let k := - l in
        power_of_5 <- (if negb (k =? prev_k) then
                         cassert cfg (k =? prev_k - 1) ;;;
                         multiply_5 cfg M (junk e 9 0 0) power_of_5
                       else Ok power_of_5) ;;
        required_bits <- negative_k_row e k power_of_5 ;;
        r <- negative_k_loop fuel' (e + 1) k power_of_5
               (if max_required_bits <? required_bits then required_bits else max_required_bits) ;;
        Ok ((e, required_bits) :: fst r, snd r)
      else Ok ([], max_required_bits)
  end.

(** verify_cache_length.cpp:173-252: the arguments of on_each, and the one of on_max *)
Definition negative_k : outcome (list (Z * Z) * Z) :=
  power_of_5 <- big_of M (junk (alpha f + 3) 10 0 0) 1 ;;
  negative_k_loop 2000 (alpha f + 3) 0 power_of_5 0.
End Negative.

(** ** Positive k *)
Section Positive.
Let M : nat := array_size_of (positive_k_max_bits f).

(** verify_cache_length.cpp:282-285, 300-303, 320-323: the position of the leading bit, unless the number is 0 *)
Definition leading_bit (b : big) : option Z :=
  if negb (bit_pos b =? 0) then Some (wrap 64 (Z.of_nat (element_pos b) * element_number_of_bits + bit_pos b - 1)) else None.

(** verify_cache_length.cpp:271-331: required_bits for one exponent *)
Definition positive_k_row (e k : Z) (power_of_5 : big) : outcome Z :=
  l <- floor_log2_pow10 cfg k ;;
  let required_bits_base := wrap 64 (l - k + 1) in
  let required_bits := required_bits_base in
  let exp_of_2 := - e - k - q_mp_m2 f in
  required_bits <-
    (if 0 <? exp_of_2 then
       b <- power_of_2 cfg M (junk e 0 0 0) exp_of_2 ;;
       mod_minmax <- minmax_euclid cfg M (junk e 1) (range f) power_of_5 b ;;
       Ok (match leading_bit (e_min mod_minmax) with
           | Some log2_res => if precision f + 2 <? log2_res then wrap 64 (required_bits - (log2_res - precision f - 2)) else required_bits
           | None => required_bits
           end)
     else Ok required_bits) ;;
  let exp_of_2 := exp_of_2 - 2 in
  required_bits <-
    (if 0 <? exp_of_2 then
       b <- power_of_2 cfg M (junk e 2 0 0) exp_of_2 ;;
       mod_minmax <- minmax_euclid cfg M (junk e 3) (range f / 2) power_of_5 b ;;
       Ok (match leading_bit (e_min mod_minmax) with
           | Some log2_res =>
               if precision f + 1 <? log2_res then
                 let two_y_result := wrap 64 (required_bits_base - log2_res + precision f + 1) in
                 if required_bits <? two_y_result then two_y_result else required_bits
               else required_bits
           | None => required_bits
           end)
     else Ok required_bits) ;;
  let exp_of_2 := exp_of_2 + 3 in
  if 0 <? exp_of_2 then
    edge_case_a <- mul_assign_element cfg M power_of_5 (range f - 1) ;;
    b <- power_of_2 cfg M (junk e 4 0 0) exp_of_2 ;;
    r <- long_division cfg M (junk e 5 0 0) (junk e 5 0 1) edge_case_a b ;;
    Ok (match leading_bit (fst r) with
        | Some log2_res =>
            if precision f + 2 <? log2_res then
              let edge_case_result := wrap 64 (required_bits_base - log2_res + precision f + 2) in
              if required_bits <? edge_case_result then edge_case_result else required_bits
            else required_bits
        | None => required_bits
        end)
  else Ok required_bits.

(** verify_cache_length.cpp:263-337; [fuel] bounds the number of turns *)
Fixpoint positive_k_loop (fuel : nat) (e prev_k : Z) (power_of_5 : big) (max_required_bits : Z) : outcome (list (Z * Z) * Z) :=
  match fuel with
  | O => Diverged
  | S fuel' =>
      if min_exponent f <=? e then
        l <- floor_log10_pow2 cfg (e + 1 - alpha f) ;;
        let k := - l in
        power_of_5 <- (if negb (k =? prev_k) then
                         cassert cfg (k =? prev_k + 1) ;;;
                         multiply_5 cfg M (junk e 6 0 0) power_of_5
                       else Ok power_of_5) ;;
        required_bits <- positive_k_row e k power_of_5 ;;
        r <- positive_k_loop fuel' (e - 1) k power_of_5
               (if max_required_bits <? required_bits then required_bits else max_required_bits) ;;
        Ok ((e, required_bits) :: fst r, snd r)
      else Ok ([], max_required_bits)
  end.

(** verify_cache_length.cpp:254-340 *)
Definition positive_k : outcome (list (Z * Z) * Z) :=
  power_of_5 <- big_of M (junk (alpha f + 2) 7 0 0) 1 ;;
  positive_k_loop 2000 (alpha f + 2) 0 power_of_5 0.
End Positive.
End Lengths.

(** verify_cache_length.cpp:347-384: the rows of the four files (without the line "e,required_bits"), each with
    the maximum reported; [junk] has one more argument, the number of the call *)
Definition verify_cache_length (cfg : config) (junk : nat -> Z -> nat -> nat -> nat -> nat -> Z) : outcome (list (list (Z * Z) * Z)) :=
  r1 <- negative_k cfg Binary32 (junk 0%nat) ;;
  r2 <- positive_k cfg Binary32 (junk 1%nat) ;;
  r3 <- negative_k cfg Binary64 (junk 2%nat) ;;
  r4 <- positive_k cfg Binary64 (junk 3%nat) ;;
  Ok [r1; r2; r3; r4].
