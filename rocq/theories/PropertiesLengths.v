(** * verify_cache_length *)

From Coq Require Import ZArith List Bool Lia.
From Verif Require Import Machine Model BigClaims LengthModel LengthTables LengthSpec LengthShort LengthClaims LengthExact.
Import ListNotations.
Open Scope Z_scope.

(** ** C52: the program ends and writes the rows that are recorded in test_results, in every build and whatever
    uninitialised memory holds *)
Theorem C52_written : forall cfg junk, verify_cache_length cfg junk =
  Ok [(binary32_negative_k, 57); (binary32_positive_k, 61); (binary64_negative_k, 125); (binary64_positive_k, 125)].
Proof. exact written. Qed.
Print Assumptions C52_written.
Example C52_example : length binary32_negative_k = 99%nat /\ length binary32_positive_k = 155%nat /\
  length binary64_negative_k = 963%nat /\ length binary64_positive_k = 1083%nat /\
  nth 0 binary64_negative_k (0, 0) = (-2, 62) /\ nth 87 binary32_positive_k (0, 0) = (-90, 55).
Proof. vm_compute. repeat split. Qed.

(** ** C53: the recorded numbers of bits are enough.  The full statement is [forall f e bits, In (e, bits)
    (recorded_negative f ++ recorded_positive f) -> enough f e bits]; it is false.  True is: one more bit for
    k < 0, and all rows but one for k >= 0. *)
Theorem C53_negative_partial : forall f e bits bits', In (e, bits) (recorded_negative f) -> bits + 1 <= bits' -> enough f e bits'.
Proof. exact negative_enough. Qed.
Print Assumptions C53_negative_partial.
Theorem C53_positive_partial : forall f e bits bits', In (e, bits) (recorded_positive f) -> f = Binary64 \/ e <> -90 -> bits <= bits' -> enough f e bits'.
Proof. exact positive_enough. Qed.
Print Assumptions C53_positive_partial.
Theorem C53_negative32_refuted : In (96, 55) (recorded_negative Binary32) /\ ~ enough Binary32 96 55.
Proof. exact too_few_32_negative. Qed.
Print Assumptions C53_negative32_refuted.
Theorem C53_negative64_refuted : In (710, 123) (recorded_negative Binary64) /\ ~ enough Binary64 710 123.
Proof. exact too_few_64_negative. Qed.
Print Assumptions C53_negative64_refuted.
Theorem C53_positive32_refuted : In (-90, 55) (recorded_positive Binary32) /\ ~ enough Binary32 (-90) 55.
Proof. exact too_few_32_positive. Qed.
Print Assumptions C53_positive32_refuted.
Example C53_example : In (100, 116) (recorded_negative Binary64) /\ In (-100, 68) (recorded_positive Binary64) /\
  reciprocal (5 ^ 3) (10 + Z.log2 (5 ^ 3)) = 525 /\ kept 10 (5 ^ 6) = 15616.
Proof.
  split; [apply (nth_error_In _ 102); vm_compute; reflexivity|]. split; [apply (nth_error_In _ 97); vm_compute; reflexivity|]. vm_compute. split; reflexivity.
Qed.

(** exactly: [short_by f e] bits are lacking, that is 6 for the binary32 row -90, 1 for 9 rows of binary32 and 50 of
    binary64, 0 for all others *)
Theorem C53_exact : forall f e bits bits', In (e, bits) (recorded_negative f ++ recorded_positive f) -> bits <= bits' ->
  (enough f e bits' <-> bits + short_by f e <= bits').
Proof. exact exact_rows. Qed.
Print Assumptions C53_exact.
Example C53_exact_example : short_by Binary32 (-90) = 6 /\ short_by Binary32 96 = 1 /\ short_by Binary64 710 = 1 /\ short_by Binary64 100 = 0 /\
  length (filter (fun r => 0 <? short_by Binary32 (fst r)) (recorded_negative Binary32 ++ recorded_positive Binary32)) = 10%nat /\
  length (filter (fun r => 0 <? short_by Binary64 (fst r)) (recorded_negative Binary64 ++ recorded_positive Binary64)) = 50%nat.
Proof. vm_compute. repeat split. Qed.

(** ** C54: the precision of the cache, 64 and 128 bits, is enough for every exponent.  2^e is the place value of the
    last of [width f] bits of a number whose highest bit is set. *)
Theorem C54_cache : forall f e, lowest_exponent f <= e <= highest_exponent f -> enough f e (2 * width f).
Proof. exact all_cache_enough. Qed.
Print Assumptions C54_cache.
(** double: the exponent of the least normal number, 2^-1022 *)
Example C54_example : lowest_exponent Binary64 <= -1085 <= highest_exponent Binary64 /\ 63 + (-1085) = -1022 /\ 2 * width Binary64 = 128 /\
  5 ^ 325 <> kept 128 (5 ^ 325).
Proof. vm_compute. repeat split; discriminate. Qed.
