(** * Executable model of fp_to_chars.h and fp_to_chars/fp_to_chars.cpp

    A pointer into the caller's buffer is its offset from the start of the buffer; a byte is an
    integer in [0, 256).  Writing outside the buffer, forming a pointer outside it, and reading
    outside the digit table are undefined. *)

From Coq Require Import ZArith List Bool.
From Verif Require Import Machine Tables Model.
Import ListNotations.
Open Scope Z_scope.

(** The memory the caller passes: [capacity] bytes starting at offset 0. *)
Record buffer := mk_buffer { capacity : Z; byte_at : Z -> Z }.

(** [*p = v] *)
(** as at fp_to_chars.h:41 *)
Definition store (b : buffer) (p v : Z) : outcome buffer :=
  if (0 <=? p) && (p <? capacity b)
  then Ok (mk_buffer (capacity b) (fun j => if j =? p then v else byte_at b j))
  else Undefined.
(** [p + d]: one past the end is the last pointer that may be formed. *)
(** as at fp_to_chars.h:42, 58 *)
Definition ptr (b : buffer) (p d : Z) : outcome Z :=
  if (0 <=? p + d) && (p + d <=? capacity b) then Ok (p + d) else Undefined.
(** memcpy of the given bytes to [p] *)
(** as at fp_to_chars.h:57 and fp_to_chars.cpp:145-148 *)
Fixpoint memcpy (b : buffer) (p : Z) (bytes : list Z) : outcome buffer :=
  match bytes with
  | [] => Ok b
  | v :: rest => b <- store b p v ;; memcpy b (p + 1) rest
  end.
(** conversion to [char], as the byte stored *)
(** as at fp_to_chars.cpp:180 *)
Definition to_char (x : Z) : Z := wrap 8 x.
(** '0', fp_to_chars.cpp:180, 205, 213, 223 *)
Definition char_0 : Z := 48.
(** '.', fp_to_chars.cpp:185 *)
Definition char_dot : Z := 46.
(** '-', fp_to_chars.h:41, 69 and fp_to_chars.cpp:197 *)
Definition char_minus : Z := 45.
(** 'E', fp_to_chars.cpp:193 *)
Definition char_E : Z := 69.

(** fp_to_chars/fp_to_chars.cpp:45-66.  The characters of the table, as the digits they stand for; the initialiser is
    copied row by row. *)
Definition radix_100_table : list Z := map (fun d => char_0 + d) [
  0; 0; 0; 1; 0; 2; 0; 3; 0; 4;
  0; 5; 0; 6; 0; 7; 0; 8; 0; 9;
  1; 0; 1; 1; 1; 2; 1; 3; 1; 4;
  1; 5; 1; 6; 1; 7; 1; 8; 1; 9;
  2; 0; 2; 1; 2; 2; 2; 3; 2; 4;
  2; 5; 2; 6; 2; 7; 2; 8; 2; 9;
  3; 0; 3; 1; 3; 2; 3; 3; 3; 4;
  3; 5; 3; 6; 3; 7; 3; 8; 3; 9;
  4; 0; 4; 1; 4; 2; 4; 3; 4; 4;
  4; 5; 4; 6; 4; 7; 4; 8; 4; 9;
  5; 0; 5; 1; 5; 2; 5; 3; 5; 4;
  5; 5; 5; 6; 5; 7; 5; 8; 5; 9;
  6; 0; 6; 1; 6; 2; 6; 3; 6; 4;
  6; 5; 6; 6; 6; 7; 6; 8; 6; 9;
  7; 0; 7; 1; 7; 2; 7; 3; 7; 4;
  7; 5; 7; 6; 7; 7; 7; 8; 7; 9;
  8; 0; 8; 1; 8; 2; 8; 3; 8; 4;
  8; 5; 8; 6; 8; 7; 8; 8; 8; 9;
  9; 0; 9; 1; 9; 2; 9; 3; 9; 4;
  9; 5; 9; 6; 9; 7; 9; 8; 9; 9].

(** fp_to_chars.cpp:68-110 *)
Definition decimal_length (cfg : config) (f : fmt) (v : Z) : outcome Z :=
  match f with
  | Binary32 =>
      cassert cfg (v <? 1000000000) ;;;
      Ok (if 100000000 <=? v then 9
          else if 10000000 <=? v then 8
          else if 1000000 <=? v then 7
          else if 100000 <=? v then 6
          else if 10000 <=? v then 5
          else if 1000 <=? v then 4
          else if 100 <=? v then 3
          else if 10 <=? v then 2
          else 1)
  | Binary64 =>
      cassert cfg (v <? 100000000000000000) ;;;
      Ok (if 10000000000000000 <=? v then 17
          else if 1000000000000000 <=? v then 16
          else if 100000000000000 <=? v then 15
          else if 10000000000000 <=? v then 14
          else if 1000000000000 <=? v then 13
          else if 100000000000 <=? v then 12
          else if 10000000000 <=? v then 11
          else if 1000000000 <=? v then 10
          else if 100000000 <=? v then 9
          else if 10000000 <=? v then 8
          else if 1000000 <=? v then 7
          else if 100000 <=? v then 6
          else if 10000 <=? v then 5
          else if 1000 <=? v then 4
          else if 100 <=? v then 3
          else if 10 <=? v then 2
          else 1)
  end.

(** [memcpy(p, radix_100_table + off, 2)] *)
Definition copy_pair (b : buffer) (p off : Z) : outcome buffer :=
  c0 <- read_array radix_100_table off ;;
  c1 <- read_array radix_100_table (off + 1) ;;
  memcpy b p [c0; c1].
(** [memcpy(buffer + olength - i - d, radix_100_table + off, 2)]; the additions are made from left to right. *)
Definition copy_pair_back (b : buffer) (base olength i d off : Z) : outcome buffer :=
  p <- ptr b base olength ;;
  p <- ptr b p (- i) ;;
  p <- ptr b p (- d) ;;
  copy_pair b p off.

(** fp_to_chars.cpp:126-151: the eight lowest digits of a significand beyond 32 bits (double only).
    The result is (buffer, output, i). *)
Definition split_8 (f : fmt) (b : buffer) (base olength output : Z) : outcome (buffer * Z * Z) :=
  match f with
  | Binary32 => Ok (b, output, 0)
  | Binary64 =>
      if negb (Z.shiftr output 32 =? 0) then
        let q := output / 100000000 in
        let output2 := wrap 32 (wrap 32 output - wrap 32 (100000000 * wrap 32 q)) in
        let c := output2 mod 10000 in
        let output2 := output2 / 10000 in
        let d := output2 mod 10000 in
        let c0 := wrap 32 (Z.shiftl (c mod 100) 1) in
        let c1 := wrap 32 (Z.shiftl (c / 100) 1) in
        let d0 := wrap 32 (Z.shiftl (d mod 100) 1) in
        let d1 := wrap 32 (Z.shiftl (d / 100) 1) in
        b <- copy_pair_back b base olength 0 1 c0 ;;
        b <- copy_pair_back b base olength 0 3 c1 ;;
        b <- copy_pair_back b base olength 0 5 d0 ;;
        b <- copy_pair_back b base olength 0 7 d1 ;;
        Ok (b, q, 8)
      else Ok (b, output, 0)
  end.

(** fp_to_chars.cpp:153-166; both forms of [c], lines 156 and 158, have the same value. The loop divides a
    32-bit number by 10000, so 4 steps of fuel are more than it can take. *)
Fixpoint four_digit_loop (fuel : nat) (b : buffer) (base olength i output2 : Z) : outcome (buffer * Z * Z) :=
  match fuel with
  | O => Diverged
  | S fuel =>
      if 10000 <=? output2 then
        let c := output2 mod 10000 in
        let output2 := output2 / 10000 in
        let c0 := wrap 32 (Z.shiftl (c mod 100) 1) in
        let c1 := wrap 32 (Z.shiftl (c / 100) 1) in
        b <- copy_pair_back b base olength i 1 c0 ;;
        b <- copy_pair_back b base olength i 3 c1 ;;
        four_digit_loop fuel b base olength (wrap 32 (i + 4)) output2
      else Ok (b, i, output2)
  end.

(** fp_to_chars.cpp:167-172 *)
Definition two_digits (b : buffer) (base olength i output2 : Z) : outcome (buffer * Z * Z) :=
  if 100 <=? output2 then
    let c := wrap 32 (Z.shiftl (output2 mod 100) 1) in
    b <- copy_pair_back b base olength i 1 c ;;
    Ok (b, wrap 32 (i + 2), output2 / 100)
  else Ok (b, i, output2).

(** fp_to_chars.cpp:173-181 *)
Definition first_digits (b : buffer) (base olength i output2 : Z) : outcome buffer :=
  if 10 <=? output2 then
    let c := wrap 32 (Z.shiftl output2 1) in
    v <- read_array radix_100_table (wrap 32 (c + 1)) ;;
    b <- store b (base + wrap 32 (olength - i)) v ;;
    v <- read_array radix_100_table c ;;
    store b base v
  else store b base (to_char (char_0 + output2)).

(** fp_to_chars.cpp:183-190: the decimal point; the result is the buffer and the moved pointer. *)
Definition put_point (b : buffer) (base olength : Z) : outcome (buffer * Z) :=
  if 1 <? olength then
    b <- store b (base + 1) char_dot ;;
    p <- ptr b base (wrap 32 (olength + 1)) ;;
    Ok (b, p)
  else
    p <- ptr b base 1 ;;
    Ok (b, p).

(** fp_to_chars.cpp:192-228: the exponent. *)
Definition put_exponent (f : fmt) (b : buffer) (base exponent olength : Z) : outcome (buffer * Z) :=
  b <- store b base char_E ;;
  p <- ptr b base 1 ;;
  e <- i32 (exponent + olength) ;;
  exp <- i32 (e - 1) ;;
  bp <- (if exp <? 0 then
           b <- store b p char_minus ;;
           p <- ptr b p 1 ;;
           exp <- i32 (- exp) ;;
           Ok (b, p, exp)
         else Ok (b, p, exp)) ;;
  let '(b, p, exp) := bp in
  let short (b : buffer) :=
    if 10 <=? exp then
      off <- i32 (2 * exp) ;;
      b <- copy_pair b p off ;;
      p <- ptr b p 2 ;;
      Ok (b, p)
    else
      b <- store b p (to_char (char_0 + exp)) ;;
      p <- ptr b p 1 ;;
      Ok (b, p) in
  match f with
  | Binary64 =>
      if 100 <=? exp then
        let c := exp mod 10 in
        off <- i32 (2 * (exp / 10)) ;;
        b <- copy_pair b p off ;;
        b <- store b (p + 2) (to_char (char_0 + c)) ;;
        p <- ptr b p 3 ;;
        Ok (b, p)
      else short b
  | Binary32 => short b
  end.

(** fp_to_chars.cpp:112-236, with float_to_chars / double_to_chars (the same call for each format). *)
Definition fp_to_chars_impl (cfg : config) (f : fmt) (v : fp_t) (b : buffer) (base : Z) : outcome (buffer * Z) :=
  let output := fp_significand v in
  olength <- decimal_length cfg f output ;;
  s <- split_8 f b base olength output ;;
  let '(b, output, i) := s in
  s <- four_digit_loop 4 b base olength i (wrap 32 output) ;;
  let '(b, i, output2) := s in
  s <- two_digits b base olength i output2 ;;
  let '(b, i, output2) := s in
  b <- first_digits b base olength i output2 ;;
  s <- put_point b base olength ;;
  let '(b, p) := s in
  put_exponent f b p (fp_exponent v) olength.

(** the string literals of fp_to_chars.h *)
(** "0E0", fp_to_chars.h:57 *)
Definition text_zero : list Z := [48; 69; 48].
(** "NaN", fp_to_chars.h:64 *)
Definition text_nan : list Z := [78; 97; 78].
(** "Infinity", fp_to_chars.h:72 *)
Definition text_infinity : list Z := [73; 110; 102; 105; 110; 105; 116; 121].

(** the conditional minus sign, fp_to_chars.h:40-43 and 68-71 *)
Definition put_sign (f : fmt) (x : Z) (b : buffer) (p : Z) : outcome (buffer * Z) :=
  if is_negative f x then
    b <- store b p char_minus ;;
    p <- ptr b p 1 ;;
    Ok (b, p)
  else Ok (b, p).

(** fp_to_chars.h:29-76.  [grisu_exact] is called with its default case handler. *)
Definition fp_to_chars_n (cfg : config) (f : fmt) (m : rounding_mode) (crs : crs_tag) (x : Z) (b : buffer)
  : outcome (buffer * Z) :=
  if is_finite f x then
    s <- put_sign f x b 0 ;;
    let '(b, p) := s in
    if is_nonzero f x then
      v <- grisu_exact cfg f false m crs assert_finite x ;;
      fp_to_chars_impl cfg f v b p
    else
      b <- memcpy b p text_zero ;;
      p <- ptr b p 3 ;;
      Ok (b, p)
  else if negb (wrap (extended_precision f) (Z.shiftl x (exponent_bits f + 1)) =? 0) then
    b <- memcpy b 0 text_nan ;;
    p <- ptr b 0 3 ;;
    Ok (b, p)
  else
    s <- put_sign f x b 0 ;;
    let '(b, p) := s in
    b <- memcpy b p text_infinity ;;
    p <- ptr b p 8 ;;
    Ok (b, p).

(** fp_to_chars.h:78-92 *)
Definition fp_to_chars (cfg : config) (f : fmt) (m : rounding_mode) (crs : crs_tag) (x : Z) (b : buffer)
  : outcome (buffer * Z) :=
  s <- fp_to_chars_n cfg f m crs x b ;;
  let '(b, p) := s in
  b <- store b p 0 ;;
  Ok (b, p).
