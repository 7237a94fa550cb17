(** * Theorems: short texts, rounded digits, other readers *)

From Coq Require Import ZArith Reals List Bool Lia Lra String.
From Flocq Require Import Core.
From Verif Require Import Machine Model CharsModel Spec TextSpec FileSpec UserSpec FormSpec RoundSpec CppSpec Claims ShortText RoundedDigits Powers CppText PlainText.
Import ListNotations.
Open Scope list_scope.
Open Scope Z_scope.

(** ** C71: no text of the form [-]d[.ddd]E[-]nnn that reads back is shorter than the printed one *)
Theorem C71_shortest_text : forall cfg f m crs x, input f x -> minimal m f x = true ->
  exists t,
    (forall b, text_length t <= capacity b -> exists b', fp_to_chars_n cfg f m crs x b = Ok (b', text_length t) /\ written b 0 t b') /\
    (forall b, text_length t + 1 <= capacity b -> exists b', fp_to_chars cfg f m crs x b = Ok (b', text_length t) /\ written b 0 (t ++ [0]) b') /\
    in_form t /\ (exists v, stands_for t v /\ read f m v = value f x) /\
    forall t' v, in_form t' -> stands_for t' v -> read f m v = value f x -> text_length t <= text_length t'.
Proof. exact shortest_text. Qed.
Print Assumptions C71_shortest_text.
(** 1E10 is printed, 9.999999999999999E9 is another number; without the form there are shorter texts: 12E3 for 1.2E4 *)
Example C71_example : input Binary64 0x4202a05f20000000 /\ minimal nearest_to_even Binary64 0x4202a05f20000000 = true /\
  grisu_exact debug_build Binary64 false nearest_to_even tie_to_even assert_finite 0x4202a05f20000000 = Ok (mk_fp 1 10 None) /\
  text_length (scientific false 1 10) = 4 /\ text_length (scientific false 9999999999999999 (-6)) = 19 /\
  read_text (bytes "12E3"%string) = Some (Number false 12 3) /\ read_text (bytes "1.2E4"%string) = Some (Number false 12 3).
Proof. split; [apply input_check; reflexivity|]. repeat apply conj; vm_compute; reflexivity. Qed.

(** ** C72: the result is the input rounded to its number of digits, as printf rounds it *)
Theorem C72_rounded : forall cfg f rs m crs h x, input f x -> is_nearest m = true -> crs <> do_not_care -> even_gaps f x ->
  exists r, grisu_exact cfg f rs m crs h x = Ok r /\ best_of_digits f x (digits (fp_significand r)) (signed f x r) (fp_exponent r) /\
    (Rabs (IZR (fp_significand r) - Rabs (value f x) * bpow radix10 (- fp_exponent r)) <= / 2)%R /\
    (alike m = true -> fp_significand r = Znearest (upward crs) (Rabs (value f x) * bpow radix10 (- fp_exponent r))).
Proof. exact rounded_digits. Qed.
Print Assumptions C72_rounded.
(** and its number of digits is the least for which rounding to that many digits reads back *)
Theorem C72_least : forall cfg f rs m crs h x, input f x -> alike m = true -> even_gaps f x ->
  exists r, grisu_exact cfg f rs m crs h x = Ok r /\
  forall n s e, best_of_digits f x n s e -> (reads_back f m x s e <-> digits (fp_significand r) <= n).
Proof. exact least_digits. Qed.
Print Assumptions C72_least.
(** [even_gaps] is needed: for the double 2^-44 a closer decimal of as many digits exists, which does not read back *)
Example C72_power_of_two : input Binary64 0x3d30000000000000 /\ ~ even_gaps Binary64 0x3d30000000000000 /\
  grisu_exact debug_build Binary64 false nearest_to_even tie_to_even assert_finite 0x3d30000000000000 = Ok (mk_fp 5684341886080802 (-29) None) /\
  (error Binary64 0x3d30000000000000 5684341886080801 (-29) < error Binary64 0x3d30000000000000 5684341886080802 (-29))%R.
Proof.
  split; [apply input_check; reflexivity|]. split; [vm_compute; intros [H|H]; apply H; reflexivity|]. split; [vm_compute; reflexivity | exact power_further].
Qed.
(** without [even_gaps]: in the default mode exactly three powers of two of the floats, and 45 of the doubles, and their negatives are not
    rounded to their number of digits *)
Theorem C72_exact : forall cfg f rs h x, input f x ->
  exists r, grisu_exact cfg f rs nearest_to_even tie_to_even h x = Ok r /\
    ((Rabs (IZR (fp_significand r) - Rabs (value f x) * bpow radix10 (- fp_exponent r)) <= / 2)%R <-> ~ misrounded f x).
Proof. exact rounded_exactly. Qed.
Print Assumptions C72_exact.
(** 2^90 is 1237940039285380274899124224, printed as 1.2379401E27; 1.2379400E27 is nearer but reads as the float below *)
Example C72_exact_example : input Binary32 0x6c800000 /\ misrounded Binary32 0x6c800000 /\
  map (grisu_exact debug_build Binary32 true nearest_to_even tie_to_even assert_finite) [0x6c800000; 0xec800000]
    = [Ok (mk_fp 12379401 20 (Some false)); Ok (mk_fp 12379401 20 (Some true))] /\
  input Binary32 0x3dcccccd /\ ~ misrounded Binary32 0x3dcccccd /\ List.length (misrounded_powers Binary32) = 3%nat /\ List.length (misrounded_powers Binary64) = 45%nat.
Proof.
  split; [apply input_check; reflexivity|]. split; [exact misrounded_case|]. split; [vm_compute; reflexivity|]. split; [apply input_check; reflexivity|].
  split; [apply even_rounded; [apply input_check; reflexivity | left; vm_compute; discriminate]|]. split; reflexivity.
Qed.
(** 0.1f, and a float half way between two decimals of 8 digits *)
Example C72_example : input Binary32 0x3dcccccd /\ even_gaps Binary32 0x3dcccccd /\ input Binary32 0x4a000001 /\ even_gaps Binary32 0x4a000001 /\
  alike nearest_to_even = true /\
  map (fun crs => grisu_exact debug_build Binary32 false nearest_to_even crs assert_finite 0x4a000001) [tie_to_even; tie_to_odd]
    = [Ok (mk_fp 20971522 (-1) None); Ok (mk_fp 20971523 (-1) None)].
Proof.
  split; [apply input_check; reflexivity|]. split; [left; vm_compute; discriminate|]. split; [apply input_check; reflexivity|].
  split; [left; vm_compute; discriminate|]. split; vm_compute; reflexivity.
Qed.

(** ** C73: a reader that is faithful, for example one that rounds in another mode, finds the input or a number next to it *)
Theorem C73_readers : forall cfg f rs m crs h x r, input f x -> grisu_exact cfg f rs m crs h x = Ok r ->
  (forall m', faithful f (decimal (signed f x r) (fp_exponent r)) (read f m' (decimal (signed f x r) (fp_exponent r)))) /\
  forall y, faithful f (decimal (signed f x r) (fp_exponent r)) y ->
    y = value f x \/ y = succ radix2 (FLT_exp (emin f) (prec f)) (value f x) \/ y = pred radix2 (FLT_exp (emin f) (prec f)) (value f x).
Proof. exact readers_near. Qed.
Print Assumptions C73_readers.
(** 0.3 as a double is a little less than 0.3: a reader rounding up finds the next number *)
Example C73_example : input Binary64 0x3fd3333333333333 /\
  grisu_exact debug_build Binary64 false nearest_to_even tie_to_even assert_finite 0x3fd3333333333333 = Ok (mk_fp 3 (-1) None) /\
  grisu_exact debug_build Binary64 false toward_plus_infinity tie_to_even assert_finite 0x3fd3333333333334 = Ok (mk_fp 3 (-1) None).
Proof. split; [apply input_check; reflexivity|]. split; vm_compute; reflexivity. Qed.

(** ** C79: the result is the decimal std::to_chars(first, last, value, std::chars_format::scientific) is required to write *)
Theorem C79_to_chars : forall cfg f rs h x, input f x ->
  exists r, grisu_exact cfg f rs nearest_to_even tie_to_even h x = Ok r /\
  forall s e, to_chars_choice nearest_to_even tie_to_even f x s e <-> s = signed f x r /\ e = fp_exponent r.
Proof. exact standard_chosen. Qed.
Print Assumptions C79_to_chars.
Theorem C79_general : forall cfg f rs m crs h x, input f x -> nearest_or_outward m (negative f x) = true -> crs <> do_not_care ->
  exists r, grisu_exact cfg f rs m crs h x = Ok r /\
  forall s e, to_chars_choice m crs f x s e <-> s = signed f x r /\ e = fp_exponent r.
Proof. exact chosen. Qed.
Print Assumptions C79_general.
(** 1e+23 has fewer characters than the closer 9.999999999999999e+22; the exponent has a sign and two digits *)
Example C79_example : input Binary64 0x44b52d02c7e14af6 /\
  grisu_exact debug_build Binary64 true nearest_to_even tie_to_even assert_finite 0x44b52d02c7e14af6 = Ok (mk_fp 1 23 (Some false)) /\
  e_text 1 23 = bytes "1e+23"%string /\ e_text 9999999999999999 7 = bytes "9.999999999999999e+22"%string /\
  e_text (-12345) (-10) = bytes "-1.2345e-06"%string /\ e_text 5 (-324) = bytes "5e-324"%string.
Proof. split; [apply input_check; reflexivity|]. repeat apply conj; vm_compute; reflexivity. Qed.

(** ** C81: the text is the one std::to_chars is required to write, spelled with E, without plus sign and without padding of the exponent *)
Theorem C81_same_text : forall cfg f m crs x, pattern f x -> finite f x = true -> nearest_or_outward m (negative f x) = true -> crs <> do_not_care ->
  exists t, (forall u, to_chars_text m crs f x u <-> u = t) /\
    (forall b, text_length (plain t) <= capacity b -> exists b', fp_to_chars_n cfg f m crs x b = Ok (b', text_length (plain t)) /\ written b 0 (plain t) b') /\
    (forall b, text_length (plain t) + 1 <= capacity b -> exists b', fp_to_chars cfg f m crs x b = Ok (b', text_length (plain t)) /\ written b 0 (plain t ++ [0]) b').
Proof. exact same_text. Qed.
Print Assumptions C81_same_text.
(** -1.5e-03 becomes -1.5E-3, 1e+23 becomes 1E23, 5e-324 becomes 5E-324 and -0e+00 becomes -0E0 *)
Example C81_example : pattern Binary64 0xbf589374bc6a7efa /\ finite Binary64 0xbf589374bc6a7efa = true /\
  nearest_or_outward nearest_to_even (negative Binary64 0xbf589374bc6a7efa) = true /\
  plain (bytes "-1.5e-03"%string) = bytes "-1.5E-3"%string /\ plain (bytes "1e+23"%string) = bytes "1E23"%string /\
  plain (bytes "5e-324"%string) = bytes "5E-324"%string /\ plain (bytes "-0e+00"%string) = bytes "-0E0"%string /\
  match fp_to_chars_n debug_build Binary64 nearest_to_even tie_to_even 0xbf589374bc6a7efa (mk_buffer 7 (fun _ => 0)) with
  | Ok (b, n) => (map (byte_at b) [0; 1; 2; 3; 4; 5; 6], n)
  | _ => ([], 0)
  end = (bytes "-1.5E-3"%string, 7).
Proof. split; [apply (input_check Binary64 0xbf589374bc6a7efa); reflexivity|]. repeat apply conj; vm_compute; reflexivity. Qed.
