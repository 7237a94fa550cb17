(** * The bounds of C15 and C25 cannot be made smaller *)

From Coq Require Import ZArith List Bool Lia.
From Verif Require Import Machine Model CharsModel Spec TextSpec Claims UserSpec Chars Outputs Tight Overrun TightClaims.
Import ListNotations.
Open Scope Z_scope.

(** ** C15: the exact ranges *)
Theorem C15_tight : forall cfg f rs m crs h x, input f x -> returns m f x = true ->
  exists r, grisu_exact cfg f rs m crs h x = Ok r /\
  0 < fp_significand r /\ digits (fp_significand r) <= max_digits f /\
  match f with Binary32 => -45 | Binary64 => -324 end <= fp_exponent r + digits (fp_significand r) - 1 <= match f with Binary32 => 38 | Binary64 => 308 end.
Proof. exact exact_ranges. Qed.
Print Assumptions C15_tight.
(** each of the three bounds is reached, on every build, under the default policies *)
Theorem C15_reached : forall cfg f rs h, exists x1 x2 x3 r1 r2 r3,
  input f x1 /\ grisu_exact cfg f rs nearest_to_even tie_to_even h x1 = Ok r1 /\ digits (fp_significand r1) = max_digits f /\
  input f x2 /\ grisu_exact cfg f rs nearest_to_even tie_to_even h x2 = Ok r2 /\
    fp_exponent r2 + digits (fp_significand r2) - 1 = match f with Binary32 => -45 | Binary64 => -324 end /\
  input f x3 /\ grisu_exact cfg f rs nearest_to_even tie_to_even h x3 = Ok r3 /\
    fp_exponent r3 + digits (fp_significand r3) - 1 = match f with Binary32 => 38 | Binary64 => 308 end.
Proof. exact ranges_reached. Qed.
Print Assumptions C15_reached.

(** ** C25: a buffer of [text_length t] bytes is needed and enough, one more with the NUL; with less, the behaviour is undefined *)
Theorem C25_exact : forall cfg f m crs x, pattern f x -> (input f x -> returns m f x = true) ->
  exists t, text_length t <= max_text f /\
    (forall b, text_length t <= capacity b -> exists b', fp_to_chars_n cfg f m crs x b = Ok (b', text_length t) /\ written b 0 t b') /\
    (forall b, capacity b < text_length t -> fp_to_chars_n cfg f m crs x b = Undefined) /\
    (forall b, text_length t + 1 <= capacity b -> exists b', fp_to_chars cfg f m crs x b = Ok (b', text_length t) /\ written b 0 (t ++ [0]) b') /\
    (forall b, capacity b < text_length t + 1 -> fp_to_chars cfg f m crs x b = Undefined).
Proof. exact exact_size. Qed.
Print Assumptions C25_exact.
(** so the smallest buffer that is safe for every input has 15 bytes for float and 24 for double, one more with the NUL *)
Theorem C25_smallest : forall cfg f b,
  ((forall x, pattern f x -> fp_to_chars_n cfg f nearest_to_even tie_to_even x b <> Undefined) <-> max_text f <= capacity b) /\
  ((forall x, pattern f x -> fp_to_chars cfg f nearest_to_even tie_to_even x b <> Undefined) <-> max_text f + 1 <= capacity b).
Proof. exact smallest_buffer. Qed.
Print Assumptions C25_smallest.
Example C25_smallest_example : max_text Binary32 = 15 /\ max_text Binary64 = 24 /\
  fp_to_chars debug_build Binary32 nearest_to_even tie_to_even 0xa87cc1e4 (mk_buffer 15 (fun _ => 0)) = Undefined /\
  match fp_to_chars debug_build Binary32 nearest_to_even tie_to_even 0xa87cc1e4 (mk_buffer 16 (fun _ => 77)) with
  | Ok (b, n) => n = 15 /\ byte_at b 14 = 52 /\ byte_at b 15 = 0 /\ byte_at b 16 = 77
  | _ => False
  end.
Proof. split; [reflexivity|]. split; [reflexivity|]. split; [vm_compute; reflexivity|]. vm_compute. repeat split. Qed.
