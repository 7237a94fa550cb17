(** * Theorems: floats read by way of doubles, enclosures, JSON *)

From Coq Require Import ZArith Reals List Bool String.
From Flocq Require Import Core.
From Verif Require Import Machine Model CharsModel Spec TextSpec FormSpec FileSpec UserSpec NarrowSpec JsonSpec Claims Reader NarrowClaims Json.
Import ListNotations.
Open Scope list_scope.
Open Scope R_scope.

(** ** C74: a float printed, read as a double and converted to a float *)
Theorem C74_by_way_of_double : forall cfg rs crs h x, input Binary32 x ->
  exists r, grisu_exact cfg Binary32 rs nearest_to_even crs h x = Ok r /\
    (float_by_way_of_double (decimal (signed Binary32 x r) (fp_exponent r)) = value Binary32 x <-> ~ lost_float crs x).
Proof. exact by_way_of_double. Qed.
Print Assumptions C74_by_way_of_double.
(** With correct rounding one is lost, which prints as 7.038531E-26; read as a float this is 0x15ae43fd again, read as a double it is half way
    between two floats, which are 0x15ae43fd and the even 0x15ae43fe.  The neighbour 0x15ae43fe prints as 7.0385313E-26.  With do_not_care
    the float 0x797ee4af prints as 8.2717606E34 and is lost, with correct rounding it prints as 8.2717604E34 (its negative below). *)
Example C74_example : input Binary32 0x15ae43fd /\ lost_float tie_to_even 0x15ae43fd /\
  grisu_exact debug_build Binary32 true nearest_to_even tie_to_even assert_finite 0x15ae43fd = Ok (mk_fp 7038531 (-32) (Some false)) /\
  reader Binary32 7038531 (-32) = Some 0x15ae43fd%Z /\ double_trip 7038531 (-32) = Some 0x15ae43fe%Z /\
  input Binary32 0x15ae43fe /\ ~ lost_float tie_to_even 0x15ae43fe /\
  input Binary32 0xf97ee4af /\ lost_float do_not_care 0xf97ee4af /\ ~ lost_float tie_to_up 0xf97ee4af /\
  grisu_exact debug_build Binary32 true nearest_to_even do_not_care assert_finite 0xf97ee4af = Ok (mk_fp 82717606 27 (Some true)) /\
  double_trip (-82717606) 27 = Some 0xf97ee4b0%Z /\
  grisu_exact debug_build Binary32 true nearest_to_even tie_to_up assert_finite 0xf97ee4af = Ok (mk_fp 82717604 27 (Some true)).
Proof.
  split; [apply input_check; reflexivity|]. split; [left; left; reflexivity|]. split; [vm_compute; reflexivity|]. split; [vm_compute; reflexivity|].
  split; [vm_compute; reflexivity|]. split; [apply input_check; reflexivity|]. split; [intros [[H|H]|[H|H]]; try discriminate H; destruct H|].
  split; [apply input_check; reflexivity|]. split; [right; do 7 right; left; reflexivity|].
  split; [intros [[H|H]|[H|H]]; try discriminate H; destruct H|]. split; [vm_compute; reflexivity|]. split; vm_compute; reflexivity.
Qed.

(** ** C75: lower and upper bounds *)
Theorem C75_enclosure : forall cfg f rs rs' crs crs' h h' x lower upper, input f x ->
  grisu_exact cfg f rs toward_plus_infinity crs h x = Ok lower -> grisu_exact cfg f rs' toward_minus_infinity crs' h' x = Ok upper ->
  decimal (signed f x lower) (fp_exponent lower) <= value f x <= decimal (signed f x upper) (fp_exponent upper) /\
  decimal (signed f x upper) (fp_exponent upper) - decimal (signed f x lower) (fp_exponent lower) < 2 * spacing f x.
Proof. exact enclosure. Qed.
Print Assumptions C75_enclosure.
(** -0.1f lies between -0.100000002 and -0.1 *)
Example C75_example : input Binary32 0xbdcccccd /\
  grisu_exact debug_build Binary32 true toward_plus_infinity tie_to_even assert_finite 0xbdcccccd = Ok (mk_fp 100000002 (-9) (Some true)) /\
  grisu_exact debug_build Binary32 true toward_minus_infinity tie_to_even assert_finite 0xbdcccccd = Ok (mk_fp 1 (-1) (Some true)).
Proof. split; [apply input_check; reflexivity|]. split; vm_compute; reflexivity. Qed.

(** ** C76: JSON *)
Theorem C76_json : forall cfg f m crs x, pattern f x -> (input f x -> returns m f x = true) ->
  exists t, (json_number t <-> finite f x = true) /\
  (forall b, text_length t <= capacity b -> exists b', fp_to_chars_n cfg f m crs x b = Ok (b', text_length t) /\ written b 0 t b')%Z /\
  (forall b, text_length t + 1 <= capacity b -> exists b', fp_to_chars cfg f m crs x b = Ok (b', text_length t) /\ written b 0 (t ++ [0]) b')%Z.
Proof. exact json_texts. Qed.
Print Assumptions C76_json.
(** -1.23E-5, -0E0 and 1e+5 are JSON numbers; 01E0, 1.E0, Infinity and the empty text are not *)
Example C76_example : json_number (bytes "-1.23E-5"%string) /\ json_number (bytes "-0E0"%string) /\ json_number (bytes "1e+5"%string) /\
  ~ json_number (bytes "01E0"%string) /\ ~ json_number (bytes "1.E0"%string) /\ ~ json_number (bytes "Infinity"%string) /\ ~ json_number [] /\
  pattern Binary32 0x80000000 /\ finite Binary32 0x80000000 = true.
Proof. exact json_examples. Qed.
