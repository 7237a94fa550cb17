(** * Model of tests/verify_delta_computation.cpp, verify_correct_rounding_bound.cpp, verify_incorrect_rounding_removal.cpp
    and verify_log_computation.cpp, and of decompose_float of tests/live_test.cpp

    Of the first three programs the lambda verify_single_type is modelled, without the text it prints: a result is the
    value returned and the list of the numbers reported on the way.  Of the fourth the three numbers reported are kept. *)

From Coq Require Import ZArith List Bool.
From Verif Require Import Machine Model BigintModel DivModel.
Import ListNotations.
Open Scope Z_scope.

(** for (int i = first; i < first + count; ++i): the body returns [inl s] to go on and [inr r] to return [r] *)
(** as at verify_correct_rounding_bound.cpp:37, verify_delta_computation.cpp:35, verify_log_computation.cpp:33 *)
Fixpoint int_loop {S R : Type} (body : Z -> S -> outcome (S + R)) (first : Z) (count : nat) (s : S) : outcome (S + R) :=
  match count with
  | O => Ok (inl s)
  | Datatypes.S count' =>
      r <- body first s ;;
      match r with
      | inl s => int_loop body (first + 1) count' s
      | inr r => Ok (inr r)
      end
  end.

(** ** tests/verify_delta_computation.cpp *)

(** verify_delta_computation.cpp:31-33: fdelta *)
Definition fdelta (f : fmt) : Z := wrap (extended_precision f) (Z.shiftl 3 (extended_precision f - precision f - 3)).
(** verify_delta_computation.cpp:38-45: the two values compared for one k *)
Definition two_deltas (cfg : config) (f : fmt) (k : Z) : outcome (Z * Z) :=
  cache <- get_cache cfg f k ;;
  orthodox <- compute_mul cfg f (fdelta f) cache (- gamma f) ;;
  fast <- compute_delta f to_nearest_tag true cache (- gamma f) ;;
  Ok (orthodox, fast).
(** verify_delta_computation.cpp:28-58 *)
Definition verify_delta (cfg : config) (f : fmt) : outcome bool :=
  r <- int_loop (fun k (_ : unit) =>
         d <- two_deltas cfg f k ;;
         Ok (if negb (fst d =? snd d) then inr false else inl tt))
       (min_k f) (Z.to_nat (max_k f + 1 - min_k f)) tt ;;
  Ok (match r with inl _ => true | inr r => r end).

(** ** The part shared by the other two programs *)

(** verify_correct_rounding_bound.cpp:39-74, verify_incorrect_rounding_removal.cpp:39-74: the number x = 2^(e + q - 1) with
    exponent field [e_shifted]; [None] stands for "Detected mismatch".  The result is (e, k, beta, kappa, divisor, cache). *)
Definition examine (cfg : config) (f : fmt) (e_shifted : Z) : outcome (option (Z * Z * Z * Z * Z * cache_entry)) :=
  let w := extended_precision f in
  let bit_rep := wrap w (Z.shiftl e_shifted (precision f)) in
  let e := e_shifted + exponent_bias f - extended_precision f + 1 in
  l <- floor_log10_pow2 cfg (e + 1 - alpha f) ;;
  let k := - l in
  l <- floor_log2_pow10 cfg k ;;
  let beta := e + l + 1 in
  harsh <- grisu_exact cfg f true nearest_to_odd do_not_care assert_finite bit_rep ;;
  generous <- grisu_exact cfg f true nearest_to_even do_not_care assert_finite bit_rep ;;
  let kappa_min := fp_exponent harsh + k in
  let kappa_max := fp_exponent generous + k in
  if negb (kappa_min =? kappa_max) then Ok None else
  let kappa := kappa_min in
  let divisor := compute_power w 10 (Z.to_nat kappa) in
  cache <- get_cache cfg f k ;;
  cassert cfg (wrap 64 (- beta) <? extended_precision f) ;;;  (* extended_precision is a std::size_t *)
  Ok (Some (e, k, beta, kappa, divisor, cache)).

(** unsigned [/], as at verify_correct_rounding_bound.cpp:90 and verify_incorrect_rounding_removal.cpp:95 *)
Definition dividing (a b : Z) : outcome Z := if b =? 0 then Undefined else Ok (a / b).
(** unsigned [%], as at verify_correct_rounding_bound.cpp:83 and verify_incorrect_rounding_removal.cpp:96 *)
Definition remaining (a b : Z) : outcome Z := if b =? 0 then Undefined else Ok (a mod b).

(** ** tests/verify_correct_rounding_bound.cpp *)

(** verify_correct_rounding_bound.cpp:76-91: n' *)
Definition n_prime (cfg : config) (f : fmt) (beta divisor : Z) (cache : cache_entry) : outcome Z :=
  let fr := Z.lor (sign_bit_mask f) (boundary_bit f) in
  zi <- compute_mul cfg f fr cache (- beta) ;;
  epsiloni <- compute_delta f left_closed_directed_tag false cache (- beta + 1) ;;
  r <- remaining zi divisor ;; half <- dividing divisor 2 ;;
  let displacement := wrap (extended_precision f) (r + half) in
  if epsiloni <? displacement then Ok (-1)
  else q <- dividing (wrap (extended_precision f) (epsiloni - displacement)) divisor ;; Ok (to_int q).
(** verify_correct_rounding_bound.cpp:33-114: success, and the pairs (n', e) printed, the last one first *)
Definition verify_bound (cfg : config) (f : fmt) : outcome (bool * list (Z * Z)) :=
  r <- int_loop (fun e_shifted (st : bool * list (Z * Z)) =>
         x <- examine cfg f e_shifted ;;
         match x with
         | None => Ok (inr (false, snd st))
         | Some (e, _, beta, kappa, divisor, cache) =>
             np <- n_prime cfg f beta divisor cache ;;
             Ok (inl (if (5 <=? np) && negb (kappa =? 0) then
                        (match f with Binary32 => false | Binary64 => if 6 <=? np then false else fst st end, (np, e) :: snd st)
                      else st))
         end)
       1 (Z.to_nat (Z.shiftl 1 (exponent_bits f) - 2)) (true, []) ;;
  Ok (match r with inl r => r | inr r => r end).

(** ** tests/verify_incorrect_rounding_removal.cpp *)

(** verify_incorrect_rounding_removal.cpp:76-119: two_yi and rounded_down *)
Definition rounded_down (f : fmt) (e k beta divisor : Z) (cache : cache_entry) : outcome Z :=
  let w := extended_precision f in
  two_yi <- match cache with
            | Cache64 v => v <- shr 64 v (extended_precision f - beta) ;; Ok (wrap w v)
            | Cache128 v => shr 64 (u128_high v) (- beta)
            end ;;
  a <- dividing two_yi divisor ;; bi <- remaining two_yi divisor ;;
  let a1 := wrap w (a - 1) in
  if a1 mod 2 =? 1 then Ok (wrap w (a1 / 2 + 1))
  else if negb (bi =? 0) then Ok (wrap w (a1 / 2 + 1))
  else if (0 <=? wrap 64 (e + extended_precision f + k)) && (0 <=? k) then Ok (a1 / 2)  (* extended_precision is a std::size_t: the first comparison is always true *)
  else Ok (wrap w (a1 / 2 + 1)).
(** the three outcomes printed at verify_incorrect_rounding_removal.cpp:154, 170 and 185 *)
Inductive comparison_of_fractions := fraction_smaller | fraction_equal | fraction_larger.
(** verify_incorrect_rounding_removal.cpp:121-152, 167-168: the comparison of fractional parts, when there is one *)
Definition coincidence (cfg : config) (f : fmt) (e k beta divisor : Z) (cache : cache_entry) : outcome (option comparison_of_fractions) :=
  let w := extended_precision f in
  rounded_down <- rounded_down f e k beta divisor cache ;;
  let fr := Z.lor (sign_bit_mask f) (boundary_bit f) in
  zi <- compute_mul cfg f fr cache (- beta) ;;
  deltai <- compute_delta f to_nearest_tag true cache (- beta) ;;
  let approx_x := wrap w (zi - deltai) in
  right_bdy <- dividing zi divisor ;;
  r <- remaining zi divisor ;;
  if right_bdy =? wrap w (rounded_down + 1) then
    let distancei := wrap w (r + divisor) in
    if distancei =? deltai then
      let fl := sign_bit_mask f - edge_case_boundary_bit f in
      m <- compute_mul cfg f fl cache (- beta) ;;
      if negb (Z.land m 1 =? Z.land approx_x 1) then Ok (Some fraction_smaller)
      else equal <- equal_fractional_parts cfg f to_nearest_tag fl e (- k) ;;
           Ok (Some (if equal : bool then fraction_equal else fraction_larger))
    else Ok None
  else Ok None.
(** verify_incorrect_rounding_removal.cpp:33-202: success, and the pairs (e, comparison) printed, the last one first *)
Definition verify_removal (cfg : config) (f : fmt) : outcome (bool * list (Z * comparison_of_fractions)) :=
  let special := match f with Binary32 => 59 | Binary64 => -203 end in
  r <- int_loop (fun e_shifted (st : bool * list (Z * comparison_of_fractions)) =>
         x <- examine cfg f e_shifted ;;
         match x with
         | None => Ok (inr (false, snd st))
         | Some (e, k, beta, _, divisor, cache) =>
             c <- coincidence cfg f e k beta divisor cache ;;
             Ok (inl (match c with
                      | None => st
                      | Some c =>
                          let ok := match c with fraction_larger => e =? special | _ => negb (e =? special) end in
                          (if ok then fst st else false, (e, c) :: snd st)
                      end))
         end)
       1 (Z.to_nat (Z.shiftl 1 (exponent_bits f) - 2)) (true, []) ;;
  Ok (match r with inl r => r | inr r => r end).

(** ** tests/verify_log_computation.cpp

    [junk] is the contents of the uninitialised arrays, by exponent, turn and place. *)
Section Logs.
Variables (cfg : config) (junk : Z -> nat -> nat -> nat -> Z).

(** grisu_exact.h:293-345 with should_assert = false *)
Definition unchecked_log10_pow2 (e : Z) : outcome Z := m <- i32 (e * 0x4d104) ;; Ok (Z.shiftr m 20).
(** grisu_exact.h:310-328 with should_assert = false *)
Definition unchecked_log2_pow10 (e : Z) : outcome Z := m <- i32 (e * 0x35269e) ;; Ok (Z.shiftr m 20).
(** grisu_exact.h:330-345 with should_assert = false *)
Definition unchecked_log5_pow2 (e : Z) : outcome Z := m <- i64 (e * 0x6e40d1a4) ;; Ok (Z.shiftr m 32).

(** verify_log_computation.cpp:44-47, 130-133: how often [number] can be divided by [d]; [fuel] bounds the number of turns *)
Fixpoint count_divisions (N : nat) (d : Z) (fuel : nat) (number : big) (e : Z) (true_value : Z) : outcome Z :=
  match fuel with
  | O => Diverged
  | S fuel' =>
      more <- big_ge_element N number d ;;
      if more : bool then
        divisor <- big_of N (junk e fuel' 0%nat) d ;;
        r <- long_division cfg N (junk e fuel' 1%nat) (junk e fuel' 2%nat) number divisor ;;
        count_divisions N d fuel' (snd r) e (true_value + 1)
      else Ok true_value
  end.
(** the loop of 33-69, 76-112 and 119-155: [low] gives the lower bits, [large] whether they may overflow, [exact] the
    value computed directly and [computed] the function under test; the result is maximum_valid_exp *)
Definition log_section (low : Z -> outcome Z) (large : Z -> bool) (exact : Z -> outcome Z) (computed : Z -> outcome Z) (limit : Z) : outcome Z :=
  r <- int_loop (R := unit) (fun e (st : bool * Z) =>
         let '(succeeded, maximum_valid_exp) := st in
         lower <- low e ;;
         succeeded <- (if large lower then
                         true_value <- exact e ;;
                         c <- computed e ;;
                         let succeeded := if negb (c =? true_value) then false else succeeded in
                         c <- computed (- e) ;;
                         Ok (if negb (c =? - true_value - 1) then false else succeeded)
                       else Ok succeeded) ;;
         Ok (inl (succeeded, if succeeded : bool then e else maximum_valid_exp)))
       1 (Z.to_nat limit) (true, 0) ;;
  Ok (match r with inl st => snd st | inr _ => 0 end).
(** verify_log_computation.cpp:30-70 *)
Definition log10_pow2_section : outcome Z :=
  log_section (fun e => m <- i32 (e * 0x4d104) ;; Ok (Z.land m 0xfffff)) (fun lower => 0x100000 <=? lower + 0xd28)
    (fun e => let N := array_size_of 4097 in
              number <- power_of_2 cfg N (junk e 0%nat 3%nat) e ;; count_divisions N 10 (S (Z.to_nat e)) number e 0)
    unchecked_log10_pow2 4096.
(** verify_log_computation.cpp:73-113 *)
Definition log2_pow10_section : outcome Z :=
  log_section (fun e => m <- i32 (e * 0x35269e) ;; Ok (Z.land m 0xfffff)) (fun lower => 0x100000 <=? lower + 0x130)
    (fun e => let N := array_size_of (4 * 4096) in
              number <- power_of_2 cfg N (junk e 0%nat 3%nat) e ;;
              number <- up_loop (fun i number => multiply_5 cfg N (junk e i 4%nat) number) 0 (Z.to_nat e) number ;;
              Ok (to_int (wrap 64 (Z.of_nat (element_pos number) * element_number_of_bits + bit_pos number - 1))))
    unchecked_log2_pow10 1024.
(** verify_log_computation.cpp:116-156 *)
Definition log5_pow2_section : outcome Z :=
  log_section (fun e => m <- i64 (e * 0x6e40d1a4) ;; Ok (Z.land m 0xffffffff)) (fun lower => 0x100000000 <=? lower + 0x143e)
    (fun e => let N := array_size_of 65537 in
              number <- power_of_2 cfg N (junk e 0%nat 3%nat) e ;; count_divisions N 5 (S (Z.to_nat e)) number e 0)
    unchecked_log5_pow2 65536.
(** verify_log_computation.cpp:24-158: the three bounds reported *)
Definition verify_log_computation : outcome (Z * Z * Z) :=
  a <- log10_pow2_section ;; b <- log2_pow10_section ;; c <- log5_pow2_section ;; Ok (a, b, c).
End Logs.

(** ** decompose_float, tests/live_test.cpp:20-41.  The conversion of the sum of line 35, a std::size_t, to int is exact here. *)
Definition decompose_float (cfg : config) (f : fmt) (x : Z) : outcome fp_t :=
  let w := extended_precision f in
  let significand := x in
  let is_negative := negb (Z.land significand (sign_bit_mask f) =? 0) in
  let exponent := Z.shiftr (wrap w (Z.shiftl significand 1)) (precision f + 1) in
  let significand := wrap w (Z.shiftl significand (extended_precision f - precision f - 1)) in
  let significand := Z.lor significand (if exponent =? 0 then 0 else sign_bit_mask f) in
  let exponent := to_int (wrap 64 (exponent + (exponent_bias f - extended_precision f + 1))) in
  cassert cfg (negb (exponent =? 1 - exponent_bias f)) ;;;
  Ok (mk_fp significand exponent (Some is_negative)).
