(** * Theorems: zeros, infinities and NaNs as arguments of grisu_exact *)

From Coq Require Import ZArith Reals List Bool.
From Verif Require Import Machine Model Spec Claims SpecialInputs.
Import ListNotations.
Open Scope Z_scope.

(** ** C80: an infinity or a NaN has no result with any case handler; a zero has the result 0 unless the mode rounds toward zero *)
Theorem C80_special : forall cfg f rs m crs h x, finite f x = false ->
  (cfg_ndebug cfg = false -> grisu_exact cfg f rs m crs h x = AssertFailed) /\
  (cfg_ndebug cfg = true -> grisu_exact cfg f rs m crs h x = Undefined).
Proof. exact special_stops. Qed.
Print Assumptions C80_special.
Theorem C80_zero : forall cfg f rs m crs h x, pattern f x -> finite f x = true -> value f x = 0%R -> rounds_inward m (negative f x) = false ->
  grisu_exact cfg f rs m crs h x = Ok (mk_fp 0 (match f with Binary32 => -37 | Binary64 => -307 end) (if rs then Some (negative f x) else None)).
Proof. exact zero_returned. Qed.
Print Assumptions C80_zero.
(** with a mode toward zero only the ctz that masks bits goes on, to a decimal so small that it is read as zero *)
Theorem C80_zero_inward : forall cfg f rs m crs h x, pattern f x -> finite f x = true -> value f x = 0%R -> rounds_inward m (negative f x) = true ->
  (cfg_ndebug cfg = false -> grisu_exact cfg f rs m crs h x = AssertFailed) /\
  (cfg_ndebug cfg = true -> cfg_ctz cfg <> CtzMask -> grisu_exact cfg f rs m crs h x = Undefined) /\
  (cfg_ndebug cfg = true -> cfg_ctz cfg = CtzMask ->
    exists r, grisu_exact cfg f rs m crs h x = Ok r /\ 0 < fp_significand r /\ reads_back f m x (signed f x r) (fp_exponent r)).
Proof. exact zero_inward. Qed.
Print Assumptions C80_zero_inward.
(** an infinity and a NaN; -0 rounded to nearest; 0 rounded toward zero *)
Example C80_example : finite Binary32 0xff800000 = false /\ finite Binary64 0x7ff8000000000000 = false /\
  grisu_exact release_build Binary64 true nearest_to_even tie_to_even ignore_special_cases 0x7ff8000000000000 = Undefined /\
  (pattern Binary64 0x8000000000000000 /\ finite Binary64 0x8000000000000000 = true /\ value Binary64 0x8000000000000000 = 0%R /\
   negative Binary64 0x8000000000000000 = true /\ rounds_inward nearest_to_even true = false /\ rounds_inward toward_zero true = true) /\
  grisu_exact debug_build Binary64 true nearest_to_even tie_to_even assert_finite 0x8000000000000000 = Ok (mk_fp 0 (-307) (Some true)) /\
  grisu_exact (mk_config MulPortable CtzMask false true) Binary64 true toward_zero tie_to_even assert_finite 0 = Ok (mk_fp 2 (-324) (Some false)).
Proof. split; [reflexivity|]. split; [reflexivity|]. split; [vm_compute; reflexivity|]. split; [repeat split; discriminate|]. split; vm_compute; reflexivity. Qed.
