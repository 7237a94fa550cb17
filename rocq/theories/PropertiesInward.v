(** * Modes rounding toward zero: exactly when the closest decimal is returned *)

From Coq Require Import ZArith Reals Bool.
From Flocq Require Import Core.
From Verif Require Import Machine Model Spec StopSpec Claims InwardExact Masked.

(** ** C10, exactly.  [r0] is what do_not_care returns.  The result is the closest decimal if and only if the
    search from [r0] does not end early; where it meets a stop point u its result is u + above r0 u. *)
Theorem C10_exact : forall cfg f rs m crs h x, input f x -> rounds_inward m (negative f x) = true ->
  halts f x = false -> lengthened f x = false -> crs <> do_not_care ->
  exists r r0, grisu_exact cfg f rs m crs h x = Ok r /\ grisu_exact cfg f rs m do_not_care h x = Ok r0 /\
    fp_exponent r0 = fp_exponent r /\
    (forall u, (u < fp_significand r0)%Z -> stop_point f x u (fp_exponent r) ->
      fp_significand r = (u + above (fp_significand r0) u)%Z) /\
    (closest f m x (signed f x r) (fp_exponent r) <-> ~ ends_early f m x (fp_significand r0) (fp_exponent r)).
Proof. exact exactly. Qed.
Print Assumptions C10_exact.
(** A float between its stop point 63179155e-16, which does not read back, and 63179156e-16, which is the closest
    decimal; four units higher lies the result. *)
Example C10_exact_example : input Binary32 early_float /\ halts Binary32 early_float = false /\ lengthened Binary32 early_float = false /\
  grisu_exact debug_build Binary32 true toward_zero tie_to_even assert_finite early_float = Ok (mk_fp 63179159 (-16) (Some false)) /\
  grisu_exact debug_build Binary32 true toward_zero do_not_care assert_finite early_float = Ok (mk_fp 63179159 (-16) (Some false)) /\
  ends_early Binary32 toward_zero early_float 63179159 (-16).
Proof. split; [exact early_input|]. split; [reflexivity|]. split; [reflexivity|]. split; [vm_compute; reflexivity|]. split; [vm_compute; reflexivity | exact early_ends]. Qed.
(** A double whose search does not end early. *)
Example C10_exact_example_closest : input Binary64 late_double /\ halts Binary64 late_double = false /\ lengthened Binary64 late_double = false /\
  grisu_exact debug_build Binary64 true toward_zero do_not_care assert_finite late_double = Ok (mk_fp 10000000000000004 (-16) (Some false)) /\
  ~ ends_early Binary64 toward_zero late_double 10000000000000004 (-16).
Proof. split; [exact late_input|]. split; [reflexivity|]. split; [reflexivity|]. split; [vm_compute; reflexivity | exact late_reaches]. Qed.

(** ** C37: the remaining builds, without assertions and with a mask for the trailing zeros.  Every call returns, the result
    reads back, and it is shortest outside the list of C09. *)
Theorem C37_masked : forall cfg f rs m crs h x, input f x -> rounds_inward m (negative f x) = true ->
  cfg_ndebug cfg = true -> cfg_ctz cfg = CtzMask ->
  exists r, grisu_exact cfg f rs m crs h x = Ok r /\ reads_back f m x (signed f x r) (fp_exponent r) /\
    (lengthened f x = false -> shortest f m x (signed f x r) (fp_exponent r)).
Proof. exact masked_total. Qed.
Print Assumptions C37_masked.
(** the float below 2^-23, where the other builds stop *)
Example C37_masked_example : input Binary32 872415231%Z /\ halts Binary32 872415231%Z = true /\
  grisu_exact release_build Binary32 true toward_zero tie_to_even assert_finite 872415231 = Undefined /\
  grisu_exact (mk_config MulPortable CtzMask false true) Binary32 true toward_zero tie_to_even assert_finite 872415231 = Ok (mk_fp 119209283 (-15) (Some false)).
Proof. split; [apply input_check; reflexivity|]. split; [reflexivity|]. split; vm_compute; reflexivity. Qed.
