(** * Big integers: exactly when the operations leave proper numbers *)

From Coq Require Import ZArith Lia.
From Verif Require Import Machine Model BigintModel BigSpec BigClaims BigExact.
Open Scope Z_scope.

(** ** C42, exactly *)
Theorem C42_times_element_exact : forall cfg N b v x, represents N b v -> 0 <= x < 2 ^ 64 -> fits N (v * x) ->
  exists r, mul_assign_element cfg N b x = Ok r /\ (forall i, (i < N)%nat -> 0 <= elements r i < 2 ^ 64) /\ number (elements r) N = v * x /\
    (represents N r (v * x) <-> 0 < x \/ v < 2 ^ 64).
Proof. exact times_element_exact. Qed.
Print Assumptions C42_times_element_exact.
(** 2^64 * 0 *)
Example C42_times_element_exact_example : represents 2 (two_words 0 1) (1 * 2 ^ 64 + 0) /\ fits 2 ((1 * 2 ^ 64 + 0) * 0) /\
  ~ (0 < 0 \/ 1 * 2 ^ 64 + 0 < 2 ^ 64).
Proof. split; [apply two_words_represents; lia|]. split; [vm_compute; split; congruence | lia]. Qed.

(** ** C43: without assertions, every product that loses a carry is too small; products with 0 in every build *)
Theorem C43_product_wrong : forall cfg N jt jr b c v w, cfg_ndebug cfg = true -> represents N b v -> represents N c w -> fits N (v * w) ->
  0 < v -> carry_lost v w -> exists r, big_mul cfg N jt jr b c = Ok r /\ number (elements r) N < v * w.
Proof. exact product_wrong. Qed.
Print Assumptions C43_product_wrong.
Theorem C43_product_zero : forall cfg N jt jr b c v w, represents N b v -> represents N c w -> v * w = 0 ->
  exists r, big_mul cfg N jt jr b c = Ok r /\ number (elements r) N = 0 /\ (represents N r (v * w) <-> v < 2 ^ 64 /\ w < 2 ^ 64).
Proof. exact product_zero. Qed.
Print Assumptions C43_product_zero.
(** (2^64 - 1) * (2^65 - 1), and 0 * 2^64 *)
Example C43_product_wrong_example : represents 3 (one_word (2 ^ 64 - 1)) (2 ^ 64 - 1) /\
  represents 3 (two_words (2 ^ 64 - 1) 1) (1 * 2 ^ 64 + (2 ^ 64 - 1)) /\ fits 3 ((2 ^ 64 - 1) * (1 * 2 ^ 64 + (2 ^ 64 - 1))) /\
  carry_lost (2 ^ 64 - 1) (1 * 2 ^ 64 + (2 ^ 64 - 1)).
Proof.
  split; [apply one_word_represents; lia|]. split; [apply two_words_represents; lia|]. split; [vm_compute; split; congruence|].
  exists 1. vm_compute. repeat split; congruence.
Qed.
Example C43_product_zero_example : represents 2 (one_word 0) 0 /\ represents 2 (two_words 0 1) (1 * 2 ^ 64 + 0) /\ 0 * (1 * 2 ^ 64 + 0) = 0.
Proof. split; [apply one_word_represents; lia|]. split; [apply two_words_represents; lia | reflexivity]. Qed.

(** ** C44, exactly: plus an element.  Where the result is not proper the position of the leading one is the old one. *)
Theorem C44_plus_element_exact : forall cfg N b v x, represents N b v -> 0 <= x < 2 ^ 64 -> fits N (v + x) ->
  exists r, add_element cfg N b x = Ok r /\ (forall i, (i < N)%nat -> 0 <= elements r i < 2 ^ 64) /\ number (elements r) N = v + x /\
    (represents N r (v + x) \/ (element_pos r = element_pos b /\ bit_pos r = bit_pos b)) /\
    (represents N r (v + x) <-> v + x = 0 \/ 0 < v /\ (Z.log2 (v + x) = Z.log2 v \/ 2 ^ (64 * size v) <= v + x)).
Proof. exact plus_element_exact. Qed.
Print Assumptions C44_plus_element_exact.
(** 1 + 1 *)
Example C44_plus_element_exact_example : represents 2 (one_word 1) 1 /\ fits 2 (1 + 1) /\
  ~ (1 + 1 = 0 \/ 0 < 1 /\ (Z.log2 (1 + 1) = Z.log2 1 \/ 2 ^ (64 * size 1) <= 1 + 1)).
Proof. split; [apply one_word_represents; lia|]. split; [vm_compute; split; congruence|]. change (2 ^ (64 * size 1)) with (2 ^ 64). change (Z.log2 (1 + 1)) with 1. change (Z.log2 1) with 0. lia. Qed.

(** ** C44, exactly: minus one.  d is the lowest nonzero element, at position i. *)
Theorem C44_minus_one_exact : forall cfg N b v, represents N b v -> 0 < v ->
  exists r, decrement cfg N b = Ok r /\ (forall i, (i < N)%nat -> 0 <= elements r i < 2 ^ 64) /\ number (elements r) N = v - 1 /\
    (forall i d, 0 <= i -> 0 < d < 2 ^ 64 -> v mod 2 ^ (64 * (i + 1)) = d * 2 ^ (64 * i) ->
      (represents N r (v - 1) <-> v = d * 2 ^ (64 * i) \/ 1 < d /\ Z.log2 (d - 1) = Z.log2 v mod 64)).
Proof. exact minus_one_exact. Qed.
Print Assumptions C44_minus_one_exact.
(** 2^64 + 2, where it is proper by luck, and 2^64 + 1, where it is not *)
Example C44_minus_one_exact_example : represents 2 (two_words 2 1) (1 * 2 ^ 64 + 2) /\ (1 * 2 ^ 64 + 2) mod 2 ^ (64 * (0 + 1)) = 2 * 2 ^ (64 * 0) /\
  1 < 2 /\ Z.log2 (2 - 1) = Z.log2 (1 * 2 ^ 64 + 2) mod 64 /\
  represents 2 (two_words 1 1) (1 * 2 ^ 64 + 1) /\ (1 * 2 ^ 64 + 1) mod 2 ^ (64 * (0 + 1)) = 1 * 2 ^ (64 * 0) /\
  ~ (1 * 2 ^ 64 + 1 = 1 * 2 ^ (64 * 0) \/ 1 < 1 /\ Z.log2 (1 - 1) = Z.log2 (1 * 2 ^ 64 + 1) mod 64).
Proof.
  split; [apply two_words_represents; lia|]. split; [reflexivity|]. split; [lia|]. split; [reflexivity|].
  split; [apply two_words_represents; lia|]. split; [reflexivity|]. change (2 ^ (64 * 0)) with 1. lia.
Qed.
