(** * The programs behind the library: the big integers of the tests and the cache generator *)

From Coq Require Import ZArith List Bool Lia.
From Verif Require Import Machine Tables Model BigintModel BigSpec BigClaims GenModel GenTables.
Import ListNotations.
Open Scope Z_scope.

(** ** C39: bigints are made and compared as the numbers they stand for *)
Theorem C39_from_element : forall N junk x, (1 <= N)%nat -> 0 <= x < 2 ^ 64 -> exists b, big_of N junk x = Ok b /\ represents N b x.
Proof. exact made_from_element. Qed.
Print Assumptions C39_from_element.
Theorem C39_power_of_2 : forall cfg N junk e, 0 <= e < 64 * Z.of_nat N ->
  exists b, power_of_2 cfg N junk e = Ok b /\ represents N b (2 ^ e).
Proof. exact made_power_of_2. Qed.
Print Assumptions C39_power_of_2.
Theorem C39_compare : forall N b c v w, represents N b v -> represents N c w ->
  big_lt N b c = Ok (v <? w) /\ big_le N b c = Ok (v <=? w) /\ big_gt N b c = Ok (w <? v) /\
  big_ge N b c = Ok (w <=? v) /\ big_eq N b c = Ok (v =? w) /\ big_ne N b c = Ok (negb (v =? w)).
Proof. exact comparisons. Qed.
Print Assumptions C39_compare.
Theorem C39_compare_element : forall N b v x, represents N b v -> 0 <= x < 2 ^ 64 ->
  big_lt_element N b x = Ok (v <? x) /\ big_le_element N b x = Ok (v <=? x) /\ big_gt_element N b x = Ok (x <? v) /\
  big_ge_element N b x = Ok (x <=? v) /\ big_eq_element N b x = Ok (v =? x) /\ big_ne_element N b x = Ok (negb (v =? x)).
Proof. exact element_comparisons. Qed.
Print Assumptions C39_compare_element.
Example C39_example : represents 3 (two_words 7 5) (5 * 2 ^ 64 + 7) /\ represents 3 (two_words 6 5) (5 * 2 ^ 64 + 6) /\
  big_gt 3 (two_words 7 5) (two_words 6 5) = Ok true /\ big_le_element 3 (two_words 7 5) 7 = Ok false.
Proof. split; [apply two_words_represents; lia|]. split; [apply two_words_represents; lia|]. split; reflexivity. Qed.

(** ** C40: += and -= are exact *)
Theorem C40_add : forall cfg N b c v w, represents N b v -> represents N c w -> fits N (v + w) ->
  exists r, add_assign cfg N (fun _ => elements c) b (element_pos c) = Ok r /\ represents N r (v + w).
Proof. exact addition. Qed.
Print Assumptions C40_add.
Theorem C40_add_itself : forall cfg N b v, represents N b v -> fits N (v + v) ->
  exists r, add_assign cfg N (fun a => a) b (element_pos b) = Ok r /\ represents N r (v + v).
Proof. exact doubling. Qed.
Print Assumptions C40_add_itself.
Theorem C40_subtract : forall cfg N b c v w, represents N b v -> represents N c w -> w <= v ->
  exists r, sub_assign cfg N b c = Ok r /\ represents N r (v - w).
Proof. exact subtraction. Qed.
Print Assumptions C40_subtract.
(** 2^64 + (2^64 - 1), and 2^64 - (2^64 - 1) where the result is one element shorter *)
Example C40_example : represents 2 (two_words 0 1) (1 * 2 ^ 64 + 0) /\ represents 2 (one_word (2 ^ 64 - 1)) (2 ^ 64 - 1) /\
  fits 2 (1 * 2 ^ 64 + 0 + (2 ^ 64 - 1)) /\ 2 ^ 64 - 1 <= 1 * 2 ^ 64 + 0 /\
  match sub_assign debug_cfg 2 (two_words 0 1) (one_word (2 ^ 64 - 1)) with Ok r => (elements r 0%nat, element_pos r, bit_pos r) = (1, 0%nat, 1) | _ => False end.
Proof.
  split; [apply two_words_represents; lia|]. split; [apply one_word_represents; lia|]. split; [vm_compute; split; congruence|]. split; [lia|]. vm_compute. reflexivity.
Qed.

(** ** C41: multiplication by 5, and doubling until a bound is reached *)
Theorem C41_times_5 : forall cfg N junk b v, represents N b v -> 0 < v -> fits N (5 * v) ->
  exists r, multiply_5 cfg N junk b = Ok r /\ represents N r (5 * v).
Proof. exact times_five. Qed.
Print Assumptions C41_times_5.
Theorem C41_double_until : forall cfg N b c v w k, 64 * Z.of_nat N < 2 ^ 64 -> represents N b v -> represents N c w -> 0 < v <= w ->
  0 <= k -> w <= v * 2 ^ k -> (forall j, 0 <= j < k -> v * 2 ^ j < w) -> fits N (v * 2 ^ k) ->
  exists r, multiply_2_until cfg N (fun _ => elements c) b (element_pos c) (bit_pos c) = Ok (r, k) /\ represents N r (v * 2 ^ k).
Proof. exact doubling_until. Qed.
Print Assumptions C41_double_until.
(** 3 has to be doubled 64 times to reach 2^65 + 1 *)
Example C41_example : represents 2 (one_word 3) 3 /\ represents 2 (two_words 1 2) (2 * 2 ^ 64 + 1) /\
  2 * 2 ^ 64 + 1 <= 3 * 2 ^ 64 /\ (forall j, 0 <= j < 64 -> 3 * 2 ^ j < 2 * 2 ^ 64 + 1) /\ fits 2 (3 * 2 ^ 64) /\
  match multiply_2_until debug_cfg 2 (fun _ => elements (two_words 1 2)) (one_word 3) 1 2 with Ok (r, k) => (elements r 1%nat, k) = (3, 64) | _ => False end.
Proof.
  split; [apply one_word_represents; lia|]. split; [apply two_words_represents; lia|]. split; [lia|].
  split; [intros j Hj; assert (2 ^ j <= 2 ^ 63) by (apply Z.pow_le_mono_r; lia); lia|]. split; [vm_compute; split; congruence|]. vm_compute. reflexivity.
Qed.

(** ** C42: multiplication by an element.  The full statement has no condition [0 < x \/ v < 2 ^ 64]; it is
    false: a number of several elements times 0 is not a proper 0. *)
Theorem C42_times_element_partial : forall cfg N b v x, represents N b v -> 0 <= x < 2 ^ 64 -> (0 < x \/ v < 2 ^ 64) -> fits N (v * x) ->
  exists r, mul_assign_element cfg N b x = Ok r /\ represents N r (v * x).
Proof. exact times_element. Qed.
Print Assumptions C42_times_element_partial.
Theorem C42_times_element_refuted : exists b v r, represents 2 b v /\ fits 2 (v * 0) /\ mul_assign_element debug_cfg 2 b 0 = Ok r /\ ~ represents 2 r (v * 0).
Proof. exact times_zero_fails. Qed.
Print Assumptions C42_times_element_refuted.
(** (2^64 + 1) * 10 *)
Example C42_example : represents 2 (two_words 1 1) (1 * 2 ^ 64 + 1) /\ fits 2 ((1 * 2 ^ 64 + 1) * 10).
Proof. split; [apply two_words_represents; lia|]. vm_compute; split; congruence. Qed.

(** ** C43: the product.  The full statement has no condition [carry_lost] and allows factors 0; it is false
    in both respects. *)
Theorem C43_product_partial : forall cfg N jt jr b c v w, represents N b v -> represents N c w -> 0 < v -> 0 < w -> fits N (v * w) ->
  ~ carry_lost v w -> exists r, big_mul cfg N jt jr b c = Ok r /\ represents N r (v * w).
Proof. exact product. Qed.
Print Assumptions C43_product_partial.
Theorem C43_product_stops : forall cfg N jt jr b c v w, cfg_ndebug cfg = false -> represents N b v -> represents N c w ->
  0 < v -> 0 < w -> fits N (v * w) -> carry_lost v w -> big_mul cfg N jt jr b c = AssertFailed.
Proof. exact product_stops. Qed.
Print Assumptions C43_product_stops.
Theorem C43_product_refuted : exists b c v w, represents 3 b v /\ represents 3 c w /\ 0 < v /\ 0 < w /\ fits 3 (v * w) /\
  (forall jt jr, big_mul debug_cfg 3 jt jr b c = AssertFailed) /\
  exists r, big_mul release_cfg 3 never never b c = Ok r /\ number (elements r) 3 <> v * w.
Proof. exact product_fails. Qed.
Print Assumptions C43_product_refuted.
Theorem C43_product_zero_refuted : exists b c w r, represents 2 b 0 /\ represents 2 c w /\ fits 2 (0 * w) /\
  big_mul debug_cfg 2 never never b c = Ok r /\ ~ represents 2 r (0 * w).
Proof. exact zero_product_fails. Qed.
Print Assumptions C43_product_zero_refuted.
(** (2^64 + 5) * (3 * 2^64 + 7), and a pair whose carry is lost *)
Example C43_example : represents 4 (two_words 5 1) (1 * 2 ^ 64 + 5) /\ represents 4 (two_words 7 3) (3 * 2 ^ 64 + 7) /\
  fits 4 ((1 * 2 ^ 64 + 5) * (3 * 2 ^ 64 + 7)) /\ ~ carry_lost (1 * 2 ^ 64 + 5) (3 * 2 ^ 64 + 7) /\ carry_lost (2 ^ 64 - 1) (2 ^ 65 - 1).
Proof.
  split; [apply two_words_represents; lia|]. split; [apply two_words_represents; lia|]. split; [vm_compute; split; congruence|]. split.
  - intros (i & Hi & _ & H). assert (S : size (1 * 2 ^ 64 + 5) = 2) by reflexivity. rewrite S in H.
    assert (M : (3 * 2 ^ 64 + 7) mod 2 ^ (64 * (i + 1)) <= 3 * 2 ^ 64 + 7) by (apply Z.mod_le; [lia | apply Z.pow_pos_nonneg; lia]).
    assert (P : 2 ^ (64 * 3) <= 2 ^ (64 * (2 + i))) by (apply Z.pow_le_mono_r; lia). change (2 ^ (64 * 3)) with (2 ^ 64 * 2 ^ 64 * 2 ^ 64) in P. lia.
  - exists 1. vm_compute. repeat split; congruence.
Qed.

(** ** C44: adding an element and subtracting one.  The elements of the result are right; the full statement
    that the result is a proper bigint is false. *)
Theorem C44_plus_element_partial : forall cfg N b v x, represents N b v -> 0 <= x < 2 ^ 64 -> fits N (v + x) ->
  exists r, add_element cfg N b x = Ok r /\ (forall i, (i < N)%nat -> 0 <= elements r i < 2 ^ 64) /\ number (elements r) N = v + x /\
    (0 < v -> (Z.log2 (v + x) = Z.log2 v \/ 2 ^ (64 * size v) <= v + x) -> represents N r (v + x)).
Proof. exact plus_element. Qed.
Print Assumptions C44_plus_element_partial.
Theorem C44_minus_one_partial : forall cfg N b v, represents N b v -> 0 < v ->
  exists r, decrement cfg N b = Ok r /\ (forall i, (i < N)%nat -> 0 <= elements r i < 2 ^ 64) /\ number (elements r) N = v - 1 /\
    (v < 2 ^ 64 -> represents N r (v - 1)).
Proof. exact minus_one. Qed.
Print Assumptions C44_minus_one_partial.
Theorem C44_plus_element_refuted : exists b v x r, represents 2 b v /\ 0 <= x < 2 ^ 64 /\ fits 2 (v + x) /\
  add_element debug_cfg 2 b x = Ok r /\ ~ represents 2 r (v + x).
Proof. exact plus_element_fails. Qed.
Print Assumptions C44_plus_element_refuted.
Theorem C44_minus_one_refuted :
  (exists b v r, represents 2 b v /\ 0 < v /\ decrement debug_cfg 2 b = Ok r /\ ~ represents 2 r (v - 1)) /\
  (exists b v r, represents 3 b v /\ 0 < v /\ decrement debug_cfg 3 b = Ok r /\ (element_pos r < element_pos b)%nat /\ 2 ^ 128 <= v - 1).
Proof. exact minus_one_fails. Qed.
Print Assumptions C44_minus_one_refuted.
(** 2^64 - 1 + 1 *)
Example C44_example : represents 2 (one_word (2 ^ 64 - 1)) (2 ^ 64 - 1) /\ fits 2 (2 ^ 64 - 1 + 1) /\ 2 ^ (64 * size (2 ^ 64 - 1)) <= 2 ^ 64 - 1 + 1.
Proof. split; [apply one_word_represents; lia|]. split; [vm_compute; split; congruence|]. vm_compute. congruence. Qed.

(** ** C45: the cache generator writes the tables of the header, whatever is in uninitialised memory, in
    every build, and whatever a shift by 64 yields; it reports no overflow *)
Theorem C45_tables : forall shift_by_64 cfg junk f, generate_cache (Some shift_by_64) cfg junk f = Ok (table f, false).
Proof. exact generate_cache_any. Qed.
Print Assumptions C45_tables.
Example C45_example : length (table Binary64) = 616%nat /\ nth 289 (table Binary64) (Cache64 0) = Cache128 (mk_uint128 0xcccccccccccccccc 0xcccccccccccccccd).
Proof. split; reflexivity. Qed.

(** ** C46: the generator stays within the C++ standard.  True for float; false for double, where
    element_type(1) is shifted by 64 bits when 5^110 is processed. *)
Theorem C46_defined_partial : forall cfg junk, generate_cache None cfg junk Binary32 = Ok (table Binary32, false).
Proof. exact generate_cache_float. Qed.
Print Assumptions C46_defined_partial.
Theorem C46_defined_refuted : forall cfg junk, generate_cache None cfg junk Binary64 = Undefined.
Proof. exact generate_cache_undefined. Qed.
Print Assumptions C46_defined_refuted.
