(** * Executable model of benchmark/ryu: f2s_buffered and d2s_buffered

    The copy of Ryu that tests/uniform_random_test.cpp compares the library with.  Every definition cites the
    lines of /repo/benchmark/ryu it models.  C integers are mathematical integers; unsigned results are wrapped,
    signed results are checked ([i32]).  The buffer and its primitives are those of [CharsModel]. *)

From Coq Require Import ZArith List Bool.
From Verif Require Import Machine Model CharsModel RyuTables.
Import ListNotations.
Open Scope Z_scope.

(** Which parts are compiled in.
    - [cfg_mul] of [ry_config]: d2s_intrinsics.h:28-32, HAS_UINT128 ([MulInt128]), HAS_64_BIT_INTRINSICS
      ([MulMsvc]) or neither ([MulPortable]); [cfg_ndebug]: whether assert does nothing.
    - [ry_32]: RYU_32_BIT_PLATFORM (common.h:24-26).
    - [ry_float_table]: RYU_FLOAT_FULL_TABLE (f2s_intrinsics.h:23-37), off unless the user defines it.
    RYU_OPTIMIZE_SIZE cannot be compiled (ryu/d2s_small_table.h does not exist here); RYU_DEBUG only prints. *)
Record ryu_config := mk_ryu { ry_config : config; ry_32 : bool; ry_float_table : bool }.

(** the implicit conversion of bool to an integer, as at d2s.c:112, 260 *)
Definition b2z (b : bool) : Z := if b then 1 else 0.
(** a sum of [int]s, from left to right *)
(** as at f2s.c:55, 58 *)
Fixpoint int_sum (acc : Z) (l : list Z) : outcome Z :=
  match l with
  | [] => Ok acc
  | x :: l => s <- i32 (acc + x) ;; int_sum s l
  end.

(** ** common.h *)

(** common.h:56-63 *)
Definition pow5bits (cfg : config) (e : Z) : outcome Z :=
  cassert cfg (0 <=? e) ;;;
  cassert cfg (e <=? 3528) ;;;
  Ok (to_int (wrap 32 (Z.shiftr (wrap 32 (wrap 32 e * 1217359)) 19 + 1))).
(** common.h:71-76 *)
Definition log10Pow2 (cfg : config) (e : Z) : outcome Z :=
  cassert cfg (0 <=? e) ;;;
  cassert cfg (e <=? 1650) ;;;
  Ok (Z.shiftr (wrap 32 (wrap 32 e * 78913)) 18).
(** common.h:79-84 *)
Definition log10Pow5 (cfg : config) (e : Z) : outcome Z :=
  cassert cfg (0 <=? e) ;;;
  cassert cfg (e <=? 2620) ;;;
  Ok (Z.shiftr (wrap 32 (wrap 32 e * 732923)) 20).

(** common.h:86-100; the result is the buffer and the returned length *)
Definition copy_special_str (b : buffer) (sign exponent mantissa : bool) : outcome (buffer * Z) :=
  if mantissa then b <- memcpy b 0 [78; 97; 78] ;; Ok (b, 3)
  else
    b <- (if sign then store b 0 45 else Ok b) ;;
    p <- ptr b 0 (b2z sign) ;;
    if exponent then
      b <- memcpy b p [73; 110; 102; 105; 110; 105; 116; 121] ;; Ok (b, b2z sign + 8)
    else
      b <- memcpy b p [48; 69; 48] ;; Ok (b, b2z sign + 3).

(** ** d2s_intrinsics.h *)

(** d2s_intrinsics.h:42-44, 64-92: (high, low) of the product *)
Definition ryu_umul128 (rc : ryu_config) (a b : Z) : Z * Z :=
  match cfg_mul (ry_config rc) with
  | MulMsvc => (wrap 64 (Z.shiftr (a * b) 64), wrap 64 (a * b))
  | _ =>
      let aLo := wrap 32 a in
      let aHi := wrap 32 (Z.shiftr a 32) in
      let bLo := wrap 32 b in
      let bHi := wrap 32 (Z.shiftr b 32) in
      let b00 := wrap 64 (aLo * bLo) in
      let b01 := wrap 64 (aLo * bHi) in
      let b10 := wrap 64 (aHi * bLo) in
      let b11 := wrap 64 (aHi * bHi) in
      let b00Lo := wrap 32 b00 in
      let b00Hi := wrap 32 (Z.shiftr b00 32) in
      let mid1 := wrap 64 (b10 + b00Hi) in
      let mid1Lo := wrap 32 mid1 in
      let mid1Hi := wrap 32 (Z.shiftr mid1 32) in
      let mid2 := wrap 64 (b01 + mid1Lo) in
      let mid2Lo := wrap 32 mid2 in
      let mid2Hi := wrap 32 (Z.shiftr mid2 32) in
      let pHi := wrap 64 (wrap 64 (b11 + mid1Hi) + mid2Hi) in
      let pLo := Z.lor (wrap 64 (Z.shiftl mid2Lo 32)) b00Lo in
      (pHi, pLo)
  end.
(** d2s_intrinsics.h:47-60, 94-99; [dist] is a uint32_t; __shiftright128 uses it modulo 64 *)
Definition shiftright128 (rc : ryu_config) (lo hi dist : Z) : outcome Z :=
  match cfg_mul (ry_config rc) with
  | MulMsvc =>
      cassert (ry_config rc) (dist <? 64) ;;;
      Ok (wrap 64 (Z.shiftr (hi * 2 ^ 64 + lo) (wrap 8 dist mod 64)))
  | _ =>
      cassert (ry_config rc) (dist <? 64) ;;;
      cassert (ry_config rc) (0 <? dist) ;;;
      h <- shl 64 hi (wrap 32 (64 - dist)) ;;
      l <- shr 64 lo dist ;;
      Ok (Z.lor h l)
  end.
(** d2s_intrinsics.h:106-113 *)
Definition umulh (rc : ryu_config) (a b : Z) : Z := fst (ryu_umul128 rc a b).
(** d2s_intrinsics.h:130-144 and 165-179 *)
Definition div5 (rc : ryu_config) (x : Z) : Z :=
  if ry_32 rc then Z.shiftr (umulh rc x 0xCCCCCCCCCCCCCCCD) 2 else x / 5.
(** d2s_intrinsics.h:134-136, 169-171 *)
Definition div10 (rc : ryu_config) (x : Z) : Z :=
  if ry_32 rc then Z.shiftr (umulh rc x 0xCCCCCCCCCCCCCCCD) 3 else x / 10.
(** d2s_intrinsics.h:138-140, 173-175 *)
Definition div100 (rc : ryu_config) (x : Z) : Z :=
  if ry_32 rc then Z.shiftr (umulh rc (Z.shiftr x 2) 0x28F5C28F5C28F5C3) 2 else x / 100.
(** d2s_intrinsics.h:142-144, 177-179 *)
Definition div1e8 (rc : ryu_config) (x : Z) : Z :=
  if ry_32 rc then Z.shiftr (umulh rc x 0xABCC77118461CEFD) 26 else x / 100000000.

(** ((uint32_t) x) - n * ((uint32_t) q), as written in d2s_intrinsics.h:196 and throughout d2s.c *)
Definition low_rem (n x q : Z) : Z := wrap 32 (wrap 32 x - wrap 32 (n * wrap 32 q)).

(** d2s_intrinsics.h:191-204; a nonzero 64-bit value is divisible by 5 at most 27 times *)
Fixpoint pow5Factor (rc : ryu_config) (fuel : nat) (value count : Z) : outcome Z :=
  match fuel with
  | O => Diverged
  | S fuel =>
      cassert (ry_config rc) (negb (value =? 0)) ;;;
      let q := div5 rc value in
      let r := low_rem 5 value q in
      if negb (r =? 0) then Ok count else pow5Factor rc fuel q (wrap 32 (count + 1))
  end.
(** d2s_intrinsics.h:207-210 *)
Definition multipleOfPowerOf5 (rc : ryu_config) (value p : Z) : outcome bool :=
  c <- pow5Factor rc 28 value 0 ;; Ok (p <=? c).
(** d2s_intrinsics.h:213-218 *)
Definition multipleOfPowerOf2 (rc : ryu_config) (value p : Z) : outcome bool :=
  cassert (ry_config rc) (negb (value =? 0)) ;;;
  cassert (ry_config rc) (p <? 64) ;;;
  one <- shl 64 1 p ;;
  Ok (Z.land value (wrap 64 (one - 1)) =? 0).

(** d2s_intrinsics.h:260-264 with a 128-bit type, 287-298 and 309-320 (the same text) without; [mul] is
    (mul[0], mul[1]) *)
Definition mulShift64 (rc : ryu_config) (m : Z) (mul : Z * Z) (j : Z) : outcome Z :=
  match cfg_mul (ry_config rc) with
  | MulInt128 =>
      let b0 := wrap 128 (m * fst mul) in
      let b2 := wrap 128 (m * snd mul) in
      v <- shr 128 (wrap 128 (Z.shiftr b0 64 + b2)) (j - 64) ;;
      Ok (wrap 64 v)
  | _ =>
      let '(high1, low1) := ryu_umul128 rc m (snd mul) in
      let '(high0, _) := ryu_umul128 rc m (fst mul) in
      let sum := wrap 64 (high0 + low1) in
      let high1 := if sum <? high0 then wrap 64 (high1 + 1) else high1 in
      shiftright128 rc sum high1 (wrap 32 (j - 64))
  end.
(** d2s_intrinsics.h:266-283, 300-305, 323-354; the result is (vr, vp, vm) *)
Definition mulShiftAll64 (rc : ryu_config) (m : Z) (mul : Z * Z) (j mmShift : Z) : outcome (Z * Z * Z) :=
  match cfg_mul (ry_config rc) with
  | MulInt128 | MulMsvc =>
      vp <- mulShift64 rc (wrap 64 (4 * m + 2)) mul j ;;
      vm <- mulShift64 rc (wrap 64 (4 * m - 1 - mmShift)) mul j ;;
      vr <- mulShift64 rc (wrap 64 (4 * m)) mul j ;;
      Ok (vr, vp, vm)
  | MulPortable =>
      let m := wrap 64 (Z.shiftl m 1) in
      let '(tmp, lo) := ryu_umul128 rc m (fst mul) in
      let '(hi, p) := ryu_umul128 rc m (snd mul) in
      let mid := wrap 64 (tmp + p) in
      let hi := wrap 64 (hi + b2z (mid <? tmp)) in
      let lo2 := wrap 64 (lo + fst mul) in
      let mid2 := wrap 64 (mid + snd mul + b2z (lo2 <? lo)) in
      let hi2 := wrap 64 (hi + b2z (mid2 <? mid)) in
      vp <- shiftright128 rc mid2 hi2 (wrap 32 (j - 64 - 1)) ;;
      vm <- (if mmShift =? 1 then
               let lo3 := wrap 64 (lo - fst mul) in
               let mid3 := wrap 64 (mid - snd mul - b2z (lo <? lo3)) in
               let hi3 := wrap 64 (hi - b2z (mid <? mid3)) in
               shiftright128 rc mid3 hi3 (wrap 32 (j - 64 - 1))
             else
               let lo3 := wrap 64 (lo + lo) in
               let mid3 := wrap 64 (mid + mid + b2z (lo3 <? lo)) in
               let hi3 := wrap 64 (hi + hi + b2z (mid3 <? mid)) in
               let lo4 := wrap 64 (lo3 - fst mul) in
               let mid4 := wrap 64 (mid3 - snd mul - b2z (lo3 <? lo4)) in
               let hi4 := wrap 64 (hi3 - b2z (mid3 <? mid4)) in
               shiftright128 rc mid4 hi4 (wrap 32 (j - 64))) ;;
      vr <- shiftright128 rc mid hi (wrap 32 (j - 64 - 1)) ;;
      Ok (vr, vp, vm)
  end.

(** ** f2s_intrinsics.h *)

(** f2s_intrinsics.h:39-52; a nonzero 32-bit value is divisible by 5 at most 13 times *)
Fixpoint pow5factor_32 (rc : ryu_config) (fuel : nat) (value count : Z) : outcome Z :=
  match fuel with
  | O => Diverged
  | S fuel =>
      cassert (ry_config rc) (negb (value =? 0)) ;;;
      let q := value / 5 in
      let r := value mod 5 in
      if negb (r =? 0) then Ok count else pow5factor_32 rc fuel q (wrap 32 (count + 1))
  end.
(** f2s_intrinsics.h:55-57 *)
Definition multipleOfPowerOf5_32 (rc : ryu_config) (value p : Z) : outcome bool :=
  c <- pow5factor_32 rc 14 value 0 ;; Ok (p <=? c).
(** f2s_intrinsics.h:60-63 *)
Definition multipleOfPowerOf2_32 (value p : Z) : outcome bool :=
  one <- shl 32 1 p ;; Ok (Z.land value (wrap 32 (one - 1)) =? 0).
(** f2s_intrinsics.h:67-99 *)
Definition mulShift32 (rc : ryu_config) (m factor shift : Z) : outcome Z :=
  cassert (ry_config rc) (32 <? shift) ;;;
  let factorLo := wrap 32 factor in
  let factorHi := wrap 32 (Z.shiftr factor 32) in
  let bits0 := wrap 64 (m * factorLo) in
  let bits1 := wrap 64 (m * factorHi) in
  if ry_32 rc then
    let bits0Hi := wrap 32 (Z.shiftr bits0 32) in
    let bits1Lo := wrap 32 bits1 in
    let bits1Hi := wrap 32 (Z.shiftr bits1 32) in
    let bits1Lo := wrap 32 (bits1Lo + bits0Hi) in
    let bits1Hi := wrap 32 (bits1Hi + b2z (bits1Lo <? bits0Hi)) in
    if 64 <=? shift then shr 32 bits1Hi (shift - 64)
    else
      let s := shift - 32 in
      h <- shl 32 bits1Hi (32 - s) ;;
      l <- shr 32 bits1Lo s ;;
      Ok (Z.lor h l)
  else
    let sum := wrap 64 (Z.shiftr bits0 32 + bits1) in
    shiftedSum <- shr 64 sum (shift - 32) ;;
    cassert (ry_config rc) (shiftedSum <=? 2 ^ 32 - 1) ;;;
    Ok (wrap 32 shiftedSum).

(** d2s_full_table.h:21-22; f2s_full_table.h:21-22 and f2s_intrinsics.h:34-35 *)
Definition DOUBLE_POW5_INV_BITCOUNT : Z := 125.
(** d2s_full_table.h:22 *)
Definition DOUBLE_POW5_BITCOUNT : Z := 125.
(** f2s_full_table.h:21 and f2s_intrinsics.h:34 *)
Definition FLOAT_POW5_INV_BITCOUNT (rc : ryu_config) : Z :=
  if ry_float_table rc then 59 else DOUBLE_POW5_INV_BITCOUNT - 64.
(** f2s_full_table.h:22 and f2s_intrinsics.h:35 *)
Definition FLOAT_POW5_BITCOUNT (rc : ryu_config) : Z :=
  if ry_float_table rc then 61 else DOUBLE_POW5_BITCOUNT - 64.

(** f2s_intrinsics.h:101-114: the factor *)
Definition inv_factor (rc : ryu_config) (q : Z) : outcome Z :=
  if ry_float_table rc then read_array FLOAT_POW5_INV_SPLIT q
  else e <- read_array DOUBLE_POW5_INV_SPLIT q ;; Ok (wrap 64 (snd e + 1)).
(** f2s_intrinsics.h:101-114 *)
Definition mulPow5InvDivPow2 (rc : ryu_config) (m q j : Z) : outcome Z :=
  factor <- inv_factor rc q ;; mulShift32 rc m factor j.
(** f2s_intrinsics.h:116-126 *)
Definition pow_factor (rc : ryu_config) (i : Z) : outcome Z :=
  if ry_float_table rc then read_array FLOAT_POW5_SPLIT i
  else e <- read_array DOUBLE_POW5_SPLIT i ;; Ok (snd e).
(** f2s_intrinsics.h:116-126 *)
Definition mulPow5divPow2 (rc : ryu_config) (m i j : Z) : outcome Z :=
  factor <- pow_factor rc i ;; mulShift32 rc m factor j.

(** ** f2s.c and d2s.c: the decimal *)

(** f2s.c:43-48, d2s.c:84-89 *)
Record floating_decimal := mk_decimal { mantissa : Z; exponent : Z }.
(** the variables after step 3 *)
Record scaled := mk_scaled { sc_vr : Z; sc_vp : Z; sc_vm : Z; sc_vmtz : bool; sc_vrtz : bool; sc_last : Z; sc_e10 : Z }.
(** the variables of step 4 *)
Record digits_state := mk_digits {
  d_vr : Z; d_vp : Z; d_vm : Z; d_vmtz : bool; d_vrtz : bool; d_last : Z; d_removed : Z }.

(** f2s.c:82-85: (q, i) *)
Definition f2d_inv_scale (rc : ryu_config) (e2 : Z) : outcome (Z * Z) :=
  q <- log10Pow2 (ry_config rc) e2 ;;
  p <- pow5bits (ry_config rc) (to_int q) ;;
  k <- int_sum (FLOAT_POW5_INV_BITCOUNT rc) [p; - 1] ;;
  i <- int_sum (- e2) [to_int q; k] ;;
  Ok (q, i).
(** f2s.c:97-98: the shift used for the last removed digit *)
Definition f2d_inv_last (rc : ryu_config) (e2 q : Z) : outcome Z :=
  p <- pow5bits (ry_config rc) (to_int (wrap 32 (q - 1))) ;;
  l <- int_sum (FLOAT_POW5_INV_BITCOUNT rc) [p; - 1] ;;
  int_sum (- e2) [to_int q; - 1; l].
(** f2s.c:112-116: (q, i, j) *)
Definition f2d_pow_scale (rc : ryu_config) (e2 : Z) : outcome (Z * Z * Z) :=
  q <- log10Pow5 (ry_config rc) (- e2) ;;
  i <- int_sum (- e2) [- to_int q] ;;
  p <- pow5bits (ry_config rc) i ;;
  k <- int_sum p [- FLOAT_POW5_BITCOUNT rc] ;;
  j <- int_sum (to_int q) [- k] ;;
  Ok (q, i, j).
(** f2s.c:126: (i + 1, j) *)
Definition f2d_pow_last (rc : ryu_config) (q i : Z) : outcome (Z * Z) :=
  i1 <- i32 (i + 1) ;;
  p <- pow5bits (ry_config rc) i1 ;;
  k <- int_sum p [- FLOAT_POW5_BITCOUNT rc] ;;
  j <- int_sum (to_int q) [- 1; - k] ;;
  Ok (i1, j).

(** f2s.c:82-110 *)
Definition f2d_inv (rc : ryu_config) (e2 mv mp mm : Z) (acceptBounds : bool) : outcome scaled :=
  qi <- f2d_inv_scale rc e2 ;;
  let '(q, i) := qi in
  let e10 := to_int q in
  vr <- mulPow5InvDivPow2 rc mv q i ;;
  vp <- mulPow5InvDivPow2 rc mp q i ;;
  vm <- mulPow5InvDivPow2 rc mm q i ;;
  last <- (if negb (q =? 0) && (wrap 32 (vp - 1) / 10 <=? vm / 10) then
             j <- f2d_inv_last rc e2 q ;;
             v <- mulPow5InvDivPow2 rc mv (wrap 32 (q - 1)) j ;;
             Ok (v mod 10)
           else Ok 0) ;;
  if q <=? 9 then
    if mv mod 5 =? 0 then
      vrtz <- multipleOfPowerOf5_32 rc mv q ;; Ok (mk_scaled vr vp vm false vrtz last e10)
    else if acceptBounds then
      vmtz <- multipleOfPowerOf5_32 rc mm q ;; Ok (mk_scaled vr vp vm vmtz false last e10)
    else
      d <- multipleOfPowerOf5_32 rc mp q ;; Ok (mk_scaled vr (wrap 32 (vp - b2z d)) vm false false last e10)
  else Ok (mk_scaled vr vp vm false false last e10).
(** f2s.c:112-145 *)
Definition f2d_pow (rc : ryu_config) (e2 mv mp mm mmShift : Z) (acceptBounds : bool) : outcome scaled :=
  qij <- f2d_pow_scale rc e2 ;;
  let '(q, i, j) := qij in
  e10 <- int_sum (to_int q) [e2] ;;
  vr <- mulPow5divPow2 rc mv (wrap 32 i) j ;;
  vp <- mulPow5divPow2 rc mp (wrap 32 i) j ;;
  vm <- mulPow5divPow2 rc mm (wrap 32 i) j ;;
  last <- (if negb (q =? 0) && (wrap 32 (vp - 1) / 10 <=? vm / 10) then
             ij <- f2d_pow_last rc q i ;;
             v <- mulPow5divPow2 rc mv (wrap 32 (fst ij)) (snd ij) ;;
             Ok (v mod 10)
           else Ok 0) ;;
  if q <=? 1 then
    if acceptBounds then Ok (mk_scaled vr vp vm (mmShift =? 1) true last e10)
    else Ok (mk_scaled vr (wrap 32 (vp - 1)) vm false true last e10)
  else if q <? 31 then
    vrtz <- multipleOfPowerOf2_32 mv (wrap 32 (q - 1)) ;; Ok (mk_scaled vr vp vm false vrtz last e10)
  else Ok (mk_scaled vr vp vm false false last e10).

(** f2s.c:159-173 (both forms of line 163/165 have the same value); a 32-bit number has at most 10 digits *)
Fixpoint f2d_loop1 (fuel : nat) (s : digits_state) : outcome digits_state :=
  match fuel with
  | O => Diverged
  | S fuel =>
      if d_vm s / 10 <? d_vp s / 10 then
        r <- i32 (d_removed s + 1) ;;
        f2d_loop1 fuel (mk_digits (d_vr s / 10) (d_vp s / 10) (d_vm s / 10) (d_vmtz s && (d_vm s mod 10 =? 0))
          (d_vrtz s && (d_last s =? 0)) (d_vr s mod 10) r)
      else Ok s
  end.
(** f2s.c:179-186 *)
Fixpoint f2d_loop2 (fuel : nat) (s : digits_state) : outcome digits_state :=
  match fuel with
  | O => Diverged
  | S fuel =>
      if d_vm s mod 10 =? 0 then
        r <- i32 (d_removed s + 1) ;;
        f2d_loop2 fuel (mk_digits (d_vr s / 10) (d_vp s / 10) (d_vm s / 10) (d_vmtz s)
          (d_vrtz s && (d_last s =? 0)) (d_vr s mod 10) r)
      else Ok s
  end.
(** f2s.c:202-208 *)
Fixpoint f2d_loop3 (fuel : nat) (s : digits_state) : outcome digits_state :=
  match fuel with
  | O => Diverged
  | S fuel =>
      if d_vm s / 10 <? d_vp s / 10 then
        r <- i32 (d_removed s + 1) ;;
        f2d_loop3 fuel (mk_digits (d_vr s / 10) (d_vp s / 10) (d_vm s / 10) (d_vmtz s) (d_vrtz s) (d_vr s mod 10) r)
      else Ok s
  end.
(** f2s.c:155-215: (output, removed) *)
Definition f2d_shorten (c : scaled) (acceptBounds : bool) : outcome (Z * Z) :=
  let s := mk_digits (sc_vr c) (sc_vp c) (sc_vm c) (sc_vmtz c) (sc_vrtz c) (sc_last c) 0 in
  if sc_vmtz c || sc_vrtz c then
    s <- f2d_loop1 11 s ;;
    s <- (if d_vmtz s then f2d_loop2 11 s else Ok s) ;;
    let last := if d_vrtz s && (d_last s =? 5) && (d_vr s mod 2 =? 0) then 4 else d_last s in
    Ok (wrap 32 (d_vr s + b2z ((d_vr s =? d_vm s) && (negb acceptBounds || negb (d_vmtz s)) || (5 <=? last))), d_removed s)
  else
    s <- f2d_loop3 11 s ;;
    Ok (wrap 32 (d_vr s + b2z ((d_vr s =? d_vm s) || (5 <=? d_last s))), d_removed s).

(** f2s.c:50-228 *)
Definition f2d (rc : ryu_config) (ieeeMantissa ieeeExponent : Z) : outcome floating_decimal :=
  let '(e2, m2) :=
    if ieeeExponent =? 0 then (1 - 127 - 23 - 2, ieeeMantissa)
    else (to_int ieeeExponent - 127 - 23 - 2, Z.lor (2 ^ 23) ieeeMantissa) in
  let acceptBounds := Z.land m2 1 =? 0 in
  let mv := wrap 32 (4 * m2) in
  let mp := wrap 32 (4 * m2 + 2) in
  let mmShift := b2z (negb (ieeeMantissa =? 0) || (ieeeExponent <=? 1)) in
  let mm := wrap 32 (4 * m2 - 1 - mmShift) in
  c <- (if 0 <=? e2 then f2d_inv rc e2 mv mp mm acceptBounds
        else f2d_pow rc e2 mv mp mm mmShift acceptBounds) ;;
  r <- f2d_shorten c acceptBounds ;;
  let '(output, removed) := r in
  exp <- i32 (sc_e10 c + removed) ;;
  Ok (mk_decimal output exp).

(** d2s.c:125-128: (q, i) *)
Definition d2d_inv_scale (rc : ryu_config) (e2 : Z) : outcome (Z * Z) :=
  l <- log10Pow2 (ry_config rc) e2 ;;
  let q := wrap 32 (l - b2z (3 <? e2)) in
  p <- pow5bits (ry_config rc) (to_int q) ;;
  k <- int_sum DOUBLE_POW5_INV_BITCOUNT [p; - 1] ;;
  i <- int_sum (- e2) [to_int q; k] ;;
  Ok (q, i).
(** d2s.c:159-163: (q, i, j) *)
Definition d2d_pow_scale (rc : ryu_config) (e2 : Z) : outcome (Z * Z * Z) :=
  l <- log10Pow5 (ry_config rc) (- e2) ;;
  let q := wrap 32 (l - b2z (1 <? - e2)) in
  i <- int_sum (- e2) [- to_int q] ;;
  p <- pow5bits (ry_config rc) i ;;
  k <- int_sum p [- DOUBLE_POW5_BITCOUNT] ;;
  j <- int_sum (to_int q) [- k] ;;
  Ok (q, i, j).
(** d2s.c:125-156 *)
Definition d2d_inv (rc : ryu_config) (e2 m2 mv mmShift : Z) (acceptBounds : bool) : outcome scaled :=
  qi <- d2d_inv_scale rc e2 ;;
  let '(q, i) := qi in
  let e10 := to_int q in
  mul <- read_array DOUBLE_POW5_INV_SPLIT q ;;
  v <- mulShiftAll64 rc m2 mul i mmShift ;;
  let '(vr, vp, vm) := v in
  if q <=? 21 then
    let mvMod5 := low_rem 5 mv (div5 rc mv) in
    if mvMod5 =? 0 then
      vrtz <- multipleOfPowerOf5 rc mv q ;; Ok (mk_scaled vr vp vm false vrtz 0 e10)
    else if acceptBounds then
      vmtz <- multipleOfPowerOf5 rc (wrap 64 (mv - 1 - mmShift)) q ;; Ok (mk_scaled vr vp vm vmtz false 0 e10)
    else
      d <- multipleOfPowerOf5 rc (wrap 64 (mv + 2)) q ;; Ok (mk_scaled vr (wrap 64 (vp - b2z d)) vm false false 0 e10)
  else Ok (mk_scaled vr vp vm false false 0 e10).
(** d2s.c:159-196 *)
Definition d2d_pow (rc : ryu_config) (e2 m2 mv mmShift : Z) (acceptBounds : bool) : outcome scaled :=
  qij <- d2d_pow_scale rc e2 ;;
  let '(q, i, j) := qij in
  e10 <- int_sum (to_int q) [e2] ;;
  mul <- read_array DOUBLE_POW5_SPLIT i ;;
  v <- mulShiftAll64 rc m2 mul j mmShift ;;
  let '(vr, vp, vm) := v in
  if q <=? 1 then
    if acceptBounds then Ok (mk_scaled vr vp vm (mmShift =? 1) true 0 e10)
    else Ok (mk_scaled vr (wrap 64 (vp - 1)) vm false true 0 e10)
  else if q <? 63 then
    vrtz <- multipleOfPowerOf2 rc mv q ;; Ok (mk_scaled vr vp vm false vrtz 0 e10)
  else Ok (mk_scaled vr vp vm false false 0 e10).

(** d2s.c:212-228; a 64-bit number has at most 20 digits *)
Fixpoint d2d_loop1 (rc : ryu_config) (fuel : nat) (s : digits_state) : outcome digits_state :=
  match fuel with
  | O => Diverged
  | S fuel =>
      let vpDiv10 := div10 rc (d_vp s) in
      let vmDiv10 := div10 rc (d_vm s) in
      if vpDiv10 <=? vmDiv10 then Ok s
      else
        let vmMod10 := low_rem 10 (d_vm s) vmDiv10 in
        let vrDiv10 := div10 rc (d_vr s) in
        let vrMod10 := low_rem 10 (d_vr s) vrDiv10 in
        r <- i32 (d_removed s + 1) ;;
        d2d_loop1 rc fuel (mk_digits vrDiv10 vpDiv10 vmDiv10 (d_vmtz s && (vmMod10 =? 0))
          (d_vrtz s && (d_last s =? 0)) (wrap 8 vrMod10) r)
  end.
(** d2s.c:234-249 *)
Fixpoint d2d_loop2 (rc : ryu_config) (fuel : nat) (s : digits_state) : outcome digits_state :=
  match fuel with
  | O => Diverged
  | S fuel =>
      let vmDiv10 := div10 rc (d_vm s) in
      let vmMod10 := low_rem 10 (d_vm s) vmDiv10 in
      if negb (vmMod10 =? 0) then Ok s
      else
        let vpDiv10 := div10 rc (d_vp s) in
        let vrDiv10 := div10 rc (d_vr s) in
        let vrMod10 := low_rem 10 (d_vr s) vrDiv10 in
        r <- i32 (d_removed s + 1) ;;
        d2d_loop2 rc fuel (mk_digits vrDiv10 vpDiv10 vmDiv10 (d_vmtz s)
          (d_vrtz s && (d_last s =? 0)) (wrap 8 vrMod10) r)
  end.
(** d2s.c:279-292, on (vr, vp, vm, roundUp, removed) *)
Fixpoint d2d_loop3 (rc : ryu_config) (fuel : nat) (vr vp vm : Z) (roundUp : bool) (removed : Z)
  : outcome (Z * Z * bool * Z) :=
  match fuel with
  | O => Diverged
  | S fuel =>
      let vpDiv10 := div10 rc vp in
      let vmDiv10 := div10 rc vm in
      if vpDiv10 <=? vmDiv10 then Ok (vr, vm, roundUp, removed)
      else
        let vrDiv10 := div10 rc vr in
        let vrMod10 := low_rem 10 vr vrDiv10 in
        r <- i32 (removed + 1) ;;
        d2d_loop3 rc fuel vrDiv10 vpDiv10 vmDiv10 (5 <=? vrMod10) r
  end.
(** d2s.c:206-299: (output, removed) *)
Definition d2d_shorten (rc : ryu_config) (c : scaled) (acceptBounds : bool) : outcome (Z * Z) :=
  if sc_vmtz c || sc_vrtz c then
    s <- d2d_loop1 rc 21 (mk_digits (sc_vr c) (sc_vp c) (sc_vm c) (sc_vmtz c) (sc_vrtz c) (sc_last c) 0) ;;
    s <- (if d_vmtz s then d2d_loop2 rc 21 s else Ok s) ;;
    let last := if d_vrtz s && (d_last s =? 5) && (d_vr s mod 2 =? 0) then 4 else d_last s in
    Ok (wrap 64 (d_vr s + b2z ((d_vr s =? d_vm s) && (negb acceptBounds || negb (d_vmtz s)) || (5 <=? last))), d_removed s)
  else
    let vpDiv100 := div100 rc (sc_vp c) in
    let vmDiv100 := div100 rc (sc_vm c) in
    s <- (if vmDiv100 <? vpDiv100 then
            let vrDiv100 := div100 rc (sc_vr c) in
            let vrMod100 := low_rem 100 (sc_vr c) vrDiv100 in
            d2d_loop3 rc 21 vrDiv100 vpDiv100 vmDiv100 (50 <=? vrMod100) 2
          else d2d_loop3 rc 21 (sc_vr c) (sc_vp c) (sc_vm c) false 0) ;;
    let '(vr, vm, roundUp, removed) := s in
    Ok (wrap 64 (vr + b2z ((vr =? vm) || roundUp)), removed).

(** d2s.c:91-312 *)
Definition d2d (rc : ryu_config) (ieeeMantissa ieeeExponent : Z) : outcome floating_decimal :=
  let '(e2, m2) :=
    if ieeeExponent =? 0 then (1 - 1023 - 52 - 2, ieeeMantissa)
    else (to_int ieeeExponent - 1023 - 52 - 2, Z.lor (2 ^ 52) ieeeMantissa) in
  let acceptBounds := Z.land m2 1 =? 0 in
  let mv := wrap 64 (4 * m2) in
  let mmShift := b2z (negb (ieeeMantissa =? 0) || (ieeeExponent <=? 1)) in
  c <- (if 0 <=? e2 then d2d_inv rc e2 m2 mv mmShift acceptBounds
        else d2d_pow rc e2 m2 mv mmShift acceptBounds) ;;
  r <- d2d_shorten rc c acceptBounds ;;
  let '(output, removed) := r in
  exp <- i32 (sc_e10 c + removed) ;;
  Ok (mk_decimal output exp).

(** d2s.c:422-452: [None] when the function returns false *)
Definition d2d_small_int (ieeeMantissa ieeeExponent : Z) : outcome (option floating_decimal) :=
  let m2 := Z.lor (2 ^ 52) ieeeMantissa in
  let e2 := to_int ieeeExponent - 1023 - 52 in
  if 0 <? e2 then Ok None
  else if e2 <? - 52 then Ok None
  else
    one <- shl 64 1 (- e2) ;;
    let mask := wrap 64 (one - 1) in
    let fraction := Z.land m2 mask in
    if negb (fraction =? 0) then Ok None
    else
      v <- shr 64 m2 (- e2) ;;
      Ok (Some (mk_decimal v 0)).
(** d2s.c:482-490 *)
Fixpoint strip_zeros (rc : ryu_config) (fuel : nat) (v : floating_decimal) : outcome floating_decimal :=
  match fuel with
  | O => Diverged
  | S fuel =>
      let q := div10 rc (mantissa v) in
      let r := low_rem 10 (mantissa v) q in
      if negb (r =? 0) then Ok v
      else
        e <- i32 (exponent v + 1) ;;
        strip_zeros rc fuel (mk_decimal q e)
  end.

(** ** The text *)

(** digit_table.h:22-33: the digits, in the order of the initialiser *)
Definition DIGIT_TABLE : list Z := map (fun d => 48 + d) [
  0;0;0;1;0;2;0;3;0;4;0;5;0;6;0;7;0;8;0;9;
  1;0;1;1;1;2;1;3;1;4;1;5;1;6;1;7;1;8;1;9;
  2;0;2;1;2;2;2;3;2;4;2;5;2;6;2;7;2;8;2;9;
  3;0;3;1;3;2;3;3;3;4;3;5;3;6;3;7;3;8;3;9;
  4;0;4;1;4;2;4;3;4;4;4;5;4;6;4;7;4;8;4;9;
  5;0;5;1;5;2;5;3;5;4;5;5;5;6;5;7;5;8;5;9;
  6;0;6;1;6;2;6;3;6;4;6;5;6;6;6;7;6;8;6;9;
  7;0;7;1;7;2;7;3;7;4;7;5;7;6;7;7;7;8;7;9;
  8;0;8;1;8;2;8;3;8;4;8;5;8;6;8;7;8;8;8;9;
  9;0;9;1;9;2;9;3;9;4;9;5;9;6;9;7;9;8;9;9].

(** common.h:29-43 and d2s.c:58-81 *)
Definition decimalLength (cfg : config) (f : fmt) (v : Z) : outcome Z :=
  match f with
  | Binary32 =>
      cassert cfg (v <? 1000000000) ;;;
      Ok (if 100000000 <=? v then 9 else if 10000000 <=? v then 8 else if 1000000 <=? v then 7
          else if 100000 <=? v then 6 else if 10000 <=? v then 5 else if 1000 <=? v then 4
          else if 100 <=? v then 3 else if 10 <=? v then 2 else 1)
  | Binary64 =>
      cassert cfg (v <? 100000000000000000) ;;;
      Ok (if 10000000000000000 <=? v then 17 else if 1000000000000000 <=? v then 16
          else if 100000000000000 <=? v then 15 else if 10000000000000 <=? v then 14
          else if 1000000000000 <=? v then 13 else if 100000000000 <=? v then 12
          else if 10000000000 <=? v then 11 else if 1000000000 <=? v then 10
          else if 100000000 <=? v then 9 else if 10000000 <=? v then 8 else if 1000000 <=? v then 7
          else if 100000 <=? v then 6 else if 10000 <=? v then 5 else if 1000 <=? v then 4
          else if 100 <=? v then 3 else if 10 <=? v then 2 else 1)
  end.

(** memcpy(result + p, DIGIT_TABLE + off, 2) *)
Definition put_pair (b : buffer) (p off : Z) : outcome buffer :=
  c0 <- read_array DIGIT_TABLE off ;;
  c1 <- read_array DIGIT_TABLE (off + 1) ;;
  memcpy b p [c0; c1].
(** memcpy(result + index + olength - i - d, DIGIT_TABLE + off, 2): pointer arithmetic from left to right *)
Definition put_pair_back (b : buffer) (index olength i d off : Z) : outcome buffer :=
  p <- ptr b 0 index ;;
  p <- ptr b p olength ;;
  p <- ptr b p (- i) ;;
  p <- ptr b p (- d) ;;
  put_pair b p off.

(** d2s.c:343-361, double only: (buffer, output, i) *)
Definition to_chars_split (rc : ryu_config) (f : fmt) (b : buffer) (index olength output : Z) : outcome (buffer * Z * Z) :=
  match f with
  | Binary32 => Ok (b, output, 0)
  | Binary64 =>
      if negb (Z.shiftr output 32 =? 0) then
        let q := div1e8 rc output in
        let output2 := low_rem 100000000 output q in
        let c := output2 mod 10000 in
        let output2 := output2 / 10000 in
        let d := output2 mod 10000 in
        let c0 := wrap 32 (Z.shiftl (c mod 100) 1) in
        let c1 := wrap 32 (Z.shiftl (c / 100) 1) in
        let d0 := wrap 32 (Z.shiftl (d mod 100) 1) in
        let d1 := wrap 32 (Z.shiftl (d / 100) 1) in
        b <- put_pair_back b index olength 0 1 c0 ;;
        b <- put_pair_back b index olength 0 3 c1 ;;
        b <- put_pair_back b index olength 0 5 d0 ;;
        b <- put_pair_back b index olength 0 7 d1 ;;
        Ok (b, q, 8)
      else Ok (b, output, 0)
  end.
(** f2s.c:254-266, d2s.c:363-375 (both forms of [c] have the same value): (buffer, i, output) *)
Fixpoint to_chars_loop (fuel : nat) (b : buffer) (index olength i output : Z) : outcome (buffer * Z * Z) :=
  match fuel with
  | O => Diverged
  | S fuel =>
      if 10000 <=? output then
        let c := output mod 10000 in
        let output := output / 10000 in
        let c0 := wrap 32 (Z.shiftl (c mod 100) 1) in
        let c1 := wrap 32 (Z.shiftl (c / 100) 1) in
        b <- put_pair_back b index olength i 1 c0 ;;
        b <- put_pair_back b index olength i 3 c1 ;;
        to_chars_loop fuel b index olength (wrap 32 (i + 4)) output
      else Ok (b, i, output)
  end.
(** f2s.c:267-272, d2s.c:376-381 *)
Definition to_chars_two (b : buffer) (index olength i output : Z) : outcome (buffer * Z * Z) :=
  if 100 <=? output then
    let c := wrap 32 (Z.shiftl (output mod 100) 1) in
    b <- put_pair_back b index olength i 1 c ;;
    Ok (b, wrap 32 (i + 2), output / 100)
  else Ok (b, i, output).
(** f2s.c:273-280, d2s.c:382-389; index + olength - i is computed in uint32_t *)
Definition to_chars_first (b : buffer) (index olength i output : Z) : outcome buffer :=
  if 10 <=? output then
    let c := wrap 32 (Z.shiftl output 1) in
    v <- read_array DIGIT_TABLE (wrap 32 (c + 1)) ;;
    b <- store b (wrap 32 (wrap 32 (index + olength) - i)) v ;;
    v <- read_array DIGIT_TABLE c ;;
    store b index v
  else store b index (to_char (48 + output)).
(** f2s.c:283-288, d2s.c:392-397: (buffer, index) *)
Definition to_chars_point (b : buffer) (index olength : Z) : outcome (buffer * Z) :=
  if 1 <? olength then
    b <- store b (index + 1) 46 ;;
    Ok (b, to_int (wrap 32 (index + wrap 32 (olength + 1))))
  else
    index <- i32 (index + 1) ;;
    Ok (b, index).
(** f2s.c:291-303, d2s.c:400-417 *)
Definition to_chars_exponent (f : fmt) (b : buffer) (index e olength : Z) : outcome (buffer * Z) :=
  b <- store b index 69 ;;
  index <- i32 (index + 1) ;;
  exp <- int_sum e [to_int olength; - 1] ;;
  s <- (if exp <? 0 then
          b <- store b index 45 ;;
          index <- i32 (index + 1) ;;
          exp <- i32 (- exp) ;;
          Ok (b, index, exp)
        else Ok (b, index, exp)) ;;
  let '(b, index, exp) := s in
  if match f with Binary64 => 100 <=? exp | Binary32 => false end then
    off <- i32 (2 * (exp / 10)) ;;
    p <- ptr b 0 index ;;
    b <- put_pair b p off ;;
    b <- store b (index + 2) (to_char (48 + exp mod 10)) ;;
    index <- i32 (index + 3) ;;
    Ok (b, index)
  else if 10 <=? exp then
    off <- i32 (2 * exp) ;;
    p <- ptr b 0 index ;;
    b <- put_pair b p off ;;
    index <- i32 (index + 2) ;;
    Ok (b, index)
  else
    b <- store b index (to_char (48 + exp)) ;;
    index <- i32 (index + 1) ;;
    Ok (b, index).
(** f2s.c:230-306, d2s.c:314-420: the buffer and the returned length *)
Definition to_chars (rc : ryu_config) (f : fmt) (v : floating_decimal) (sign : bool) (b : buffer) : outcome (buffer * Z) :=
  b <- (if sign then store b 0 45 else Ok b) ;;
  let index := b2z sign in
  let output := mantissa v in
  olength <- decimalLength (ry_config rc) f output ;;
  s <- to_chars_split rc f b index olength output ;;
  let '(b, output, i) := s in
  s <- to_chars_loop 4 b index olength i (wrap 32 output) ;;
  let '(b, i, output) := s in
  s <- to_chars_two b index olength i output ;;
  let '(b, i, output) := s in
  b <- to_chars_first b index olength i output ;;
  s <- to_chars_point b index olength ;;
  let '(b, index) := s in
  to_chars_exponent f b index (exponent v) olength.

(** f2s.c:38-40, d2s.c:54-56 *)
Definition mantissa_bits (f : fmt) : Z := match f with Binary32 => 23 | Binary64 => 52 end.
(** f2s.c:39, d2s.c:55 *)
Definition ieee_exponent_bits (f : fmt) : Z := match f with Binary32 => 8 | Binary64 => 11 end.

(** f2s.c:308-332 and d2s.c:454-496; [bits] is the bit pattern of the argument *)
Definition ryu_buffered_n (rc : ryu_config) (f : fmt) (bits : Z) (b : buffer) : outcome (buffer * Z) :=
  let ieeeSign := negb (Z.land (Z.shiftr bits (mantissa_bits f + ieee_exponent_bits f)) 1 =? 0) in
  let ieeeMantissa := Z.land bits (2 ^ mantissa_bits f - 1) in
  let ieeeExponent := Z.land (Z.shiftr bits (mantissa_bits f)) (2 ^ ieee_exponent_bits f - 1) in
  if (ieeeExponent =? 2 ^ ieee_exponent_bits f - 1) || (ieeeExponent =? 0) && (ieeeMantissa =? 0) then
    copy_special_str b ieeeSign (negb (ieeeExponent =? 0)) (negb (ieeeMantissa =? 0))
  else
    v <- match f with
         | Binary32 => f2d rc ieeeMantissa ieeeExponent
         | Binary64 =>
             s <- d2d_small_int ieeeMantissa ieeeExponent ;;
             match s with
             | Some v => strip_zeros rc 21 v
             | None => d2d rc ieeeMantissa ieeeExponent
             end
         end ;;
    to_chars rc f v ieeeSign b.
(** f2s.c:334-339, d2s.c:498-503; with the length, which the caller does not see *)
Definition ryu_buffered (rc : ryu_config) (f : fmt) (bits : Z) (b : buffer) : outcome (buffer * Z) :=
  s <- ryu_buffered_n rc f bits b ;;
  let '(b, index) := s in
  b <- store b index 0 ;;
  Ok (b, index).
(** f2s.c:341-345, d2s.c:505-509: the memory of a successful malloc has any content [junk] *)
Definition ryu_allocated (rc : ryu_config) (f : fmt) (bits : Z) (junk : Z -> Z) : outcome (buffer * Z) :=
  ryu_buffered rc f bits (mk_buffer (match f with Binary32 => 16 | Binary64 => 25 end) junk).
