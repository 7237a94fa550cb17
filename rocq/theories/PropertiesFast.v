(** * Theorems: results put together by machine arithmetic *)

From Coq Require Import ZArith Bool.
From Verif Require Import Machine Model Spec MachineArith Claims FastPath.
Open Scope Z_scope.

(** ** C78: a result with a significand of at most 2^24 or 2^53 and an exponent of at most 10 or 22 gives the input back by
    one IEEE-754 product or quotient, bit for bit *)
Theorem C78_put_together : forall cfg f rs m crs h x r, input f x -> plain m = nearest_to_even ->
  grisu_exact cfg f rs m crs h x = Ok r -> fp_significand r <= 2 ^ prec f -> Z.abs (fp_exponent r) <= exact_powers f ->
  put_back f (signed f x r) (fp_exponent r) = x.
Proof. exact put_together. Qed.
Print Assumptions C78_put_together.
(** in particular a result of at most 7 or 15 digits *)
Theorem C78_short : forall cfg f rs m crs h x r, input f x -> plain m = nearest_to_even ->
  grisu_exact cfg f rs m crs h x = Ok r -> digits (fp_significand r) <= match f with Binary32 => 7 | Binary64 => 15 end ->
  Z.abs (fp_exponent r) <= exact_powers f ->
  put_back f (signed f x r) (fp_exponent r) = x.
Proof. exact short_together. Qed.
Print Assumptions C78_short.
(** -8.1E-9 as a float; 3E23 and 1E-23 are one power too far, and 921174623448373.1 has a significand above 2^53 *)
Example C78_example :
  grisu_exact debug_build Binary32 true nearest_to_even tie_to_even assert_finite 0xb20b282d = Ok (mk_fp 81 (-10) (Some true)) /\
  put_back Binary32 (-81) (-10) = 0xb20b282d /\
  grisu_exact debug_build Binary64 true nearest_to_even tie_to_even assert_finite 0x44cfc3842bd1f072 = Ok (mk_fp 3 23 (Some false)) /\
  put_back Binary64 3 23 <> 0x44cfc3842bd1f072 /\
  grisu_exact debug_build Binary64 true nearest_to_even tie_to_even assert_finite 0x3b282db34012b251 = Ok (mk_fp 1 (-23) (Some false)) /\
  put_back Binary64 1 (-23) <> 0x3b282db34012b251 /\
  grisu_exact debug_build Binary64 true nearest_to_even tie_to_even assert_finite 0x430a2e6d71a769a9 = Ok (mk_fp 9211746234483731 (-1) (Some false)) /\
  put_back Binary64 9211746234483731 (-1) <> 0x430a2e6d71a769a9.
Proof. repeat split; vm_compute; try reflexivity; discriminate. Qed.
