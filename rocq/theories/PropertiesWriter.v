(** * Theorems: the digit writers *)

From Coq Require Import ZArith List Bool Lia String.
From Verif Require Import Machine Model CharsModel Spec TextSpec FileSpec WriterSpec Claims Writer.
Import ListNotations.
Open Scope list_scope.
Open Scope Z_scope.

(** ** C77: any decimal of at most 9 or 17 digits is written, wherever [base] points, if its scientific exponent has at
    most 2 or 3 digits *)
Theorem C77_writes : forall cfg f v b base, 0 <= fp_significand v < 10 ^ max_digits f ->
  Z.abs (scientific_exponent (fp_significand v) (fp_exponent v)) < exponents_below f -> 0 <= base ->
  base + text_length (decimal_text (fp_significand v) (fp_exponent v)) <= capacity b ->
  exists b', fp_to_chars_impl cfg f v b base = Ok (b', base + text_length (decimal_text (fp_significand v) (fp_exponent v))) /\
    written b base (decimal_text (fp_significand v) (fp_exponent v)) b' /\
    read_text (decimal_text (fp_significand v) (fp_exponent v)) = Some (Number false (fp_significand v) (fp_exponent v)).
Proof. exact writes. Qed.
Print Assumptions C77_writes.
(** with a longer exponent the table of digits is read outside its bounds, or the exponent overflows, in every build *)
Theorem C77_exponents : forall cfg f v b base, 0 <= fp_significand v < 10 ^ max_digits f -> - 2 ^ 31 <= fp_exponent v < 2 ^ 31 ->
  exponents_below f <= Z.abs (scientific_exponent (fp_significand v) (fp_exponent v)) -> 0 <= base -> base + 30 <= capacity b ->
  fp_to_chars_impl cfg f v b base = Undefined.
Proof. exact out_of_range. Qed.
Print Assumptions C77_exponents.
(** and with more digits a build with assertions stops *)
Theorem C77_digits : forall cfg f v b base, cfg_ndebug cfg = false -> 10 ^ max_digits f <= fp_significand v ->
  fp_to_chars_impl cfg f v b base = AssertFailed.
Proof. exact too_long. Qed.
Print Assumptions C77_digits.
(** zeros at the end are kept, and 0 has its exponent; 1E100 is too much for the writer of floats.  A build without assertions
    loses the second digit of 4294967295. *)
Example C77_example :
  let room := mk_buffer 40 (fun _ => 0) in
  let shown f s e base n := match fp_to_chars_impl release_build f (mk_fp s e None) room base with
                            | Ok (b, p) => Some (map (fun i => byte_at b (base + Z.of_nat i)) (seq 0 n), p - base)
                            | _ => None
                            end in
  shown Binary64 123000 (-300) 3 12%nat = Some (bytes "1.23000E-295", 12) /\
  shown Binary32 0 (-42) 0 5%nat = Some (bytes "0E-42", 5) /\
  shown Binary32 999999999 91 0 13%nat = Some (bytes "9.99999999E99", 13) /\
  shown Binary32 1 100 0 0%nat = None /\ scientific_exponent 1 100 = 100 /\
  shown Binary32 4294967295 0 0 12%nat = Some (bytes "4.94967295E8", 12).
Proof. vm_compute. repeat split. Qed.
