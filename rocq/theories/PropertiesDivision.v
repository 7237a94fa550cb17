(** * Long division of big integers and the min-max Euclid algorithm *)

From Coq Require Import ZArith List Bool Lia.
From Verif Require Import Machine Model BigintModel BigSpec BigClaims DivModel DivSpec EuclidModel EuclidSpec DivClaims DivCrossClaims.
Open Scope Z_scope.

(** ** C50: long division.  The full statement does without [safe v w]; it is false. *)
Theorem C50_division_partial : forall cfg N js jq b c v w, 64 * Z.of_nat N < 2 ^ 64 -> represents N b v -> represents N c w -> 0 < w ->
  safe v w ->
  exists r q, long_division cfg N js jq b c = Ok (r, q) /\ represents N r (v mod w) /\ represents N q (v / w).
Proof. exact division. Qed.
Print Assumptions C50_division_partial.
(** in particular, when [v] is not 64 bits longer than [w] *)
Theorem C50_division_near_partial : forall cfg N js jq b c v w, 64 * Z.of_nat N < 2 ^ 64 -> represents N b v -> represents N c w -> 0 < w ->
  Z.log2 v - Z.log2 w < 64 ->
  exists r q, long_division cfg N js jq b c = Ok (r, q) /\ represents N r (v mod w) /\ represents N q (v / w).
Proof. exact division_near. Qed.
Print Assumptions C50_division_near_partial.
Theorem C50_division_refuted : exists b c v w, represents 2 b v /\ represents 2 c w /\ 0 < w /\
  forall cfg js jq, exists r q, long_division cfg 2 js jq b c = Ok (r, q) /\
    number (elements r) 2 <> v mod w /\ number (elements q) 2 <> v / w.
Proof. exact division_fails. Qed.
Print Assumptions C50_division_refuted.
(** and with three elements, a division by 2 that never ends: no number of turns of the loop is enough *)
Theorem C50_division_endless_refuted : exists b c v, represents 3 b v /\ represents 3 c 2 /\
  forall cfg js jq turns, long_division_within cfg 3 turns js jq b c = Diverged.
Proof. exact division_never_ends. Qed.
Print Assumptions C50_division_endless_refuted.
(** the first of these is unsafe because of [crosses], the second because of [leaps] *)
Example C50_unsafe : crosses (2 ^ 65) 3 /\ leaps (2 ^ 128 + 2) 2.
Proof. exact (conj division_fails_crosses division_endless_leaps). Qed.
(** What comes out of an odd division that is unsafe because of [crosses], when that arises at the last element border only:
    every subtraction after it took away half a bit more than it should, so half of the low element of the quotient is missing from [v]. *)
Theorem C50_crossing : forall cfg N js jq b c v w, 64 * Z.of_nat N < 2 ^ 64 -> represents N b v -> represents N c w -> 0 < w -> Z.odd w = true ->
  crosses_last v w -> ~ leaps v w ->
  exists r q Q X, long_division cfg N js jq b c = Ok (r, q) /\ represents N q Q /\ represents N r (X mod w) /\
    v = Q * w + (Q mod 2 ^ 64) / 2 + X /\ 0 <= X <= w /\ 2 ^ 63 <= Q mod 2 ^ 64.
Proof. exact division_crossing. Qed.
Print Assumptions C50_crossing.
(** so that, for an odd divisor of fewer than 128 bits less and without [leaps], the condition is exact *)
Theorem C50_odd_exact : forall cfg N js jq b c v w, 64 * Z.of_nat N < 2 ^ 64 -> represents N b v -> represents N c w -> 0 < w -> Z.odd w = true ->
  Z.log2 v - Z.log2 w < 128 -> ~ leaps v w ->
  ((exists r q, long_division cfg N js jq b c = Ok (r, q) /\ represents N r (v mod w) /\ represents N q (v / w)) <-> ~ crosses v w).
Proof. exact division_odd_exact. Qed.
Print Assumptions C50_odd_exact.
(** (2^65) / 3 *)
Example C50_crossing_example : crosses_last (2 ^ 65) 3 /\ ~ leaps (2 ^ 65) 3 /\ Z.log2 (2 ^ 65) - Z.log2 3 < 128 /\
  match long_division debug_cfg 2 never never (two_words 0 2) (one_word 3) with
  | Ok (r, q) => number (elements q) 2 = 10540996613548315209 /\ number (elements r) 2 = 1 /\
      2 ^ 65 / 3 = 12297829382473034410 /\ 2 ^ 65 = 10540996613548315209 * 3 + 10540996613548315209 / 2 + 1
  | _ => False
  end.
Proof. exact crossing_example. Qed.
(** (2^65 + 1) / 1 moves the divisor down by 65 bits, without harm *)
Example C50_harmless : safe (2 ^ 65 + 1) 1 /\ Z.log2 (2 ^ 65 + 1) - Z.log2 1 = 65 /\
  match long_division debug_cfg 2 never never (two_words 1 2) (one_word 1) with
  | Ok (r, q) => number (elements q) 2 = 2 ^ 65 + 1 /\ number (elements r) 2 = 0
  | _ => False
  end.
Proof. exact harmless_example. Qed.
(** (w * 2^65 + 2^65) / w for w = 7 * 2^63 leaps and comes out right all the same: [leaps] is not exact *)
Example C50_leaps_right : leaps (7 * 2 ^ 63 * 2 ^ 65 + 2 ^ 65) (7 * 2 ^ 63) /\
  match long_division debug_cfg 3 never never (three_words 0 2 7) (two_words (2 ^ 63) 3) with
  | Ok (r, q) => number (elements q) 3 = 2 ^ 65 /\ number (elements r) 3 = 2 ^ 65
  | _ => False
  end.
Proof. exact leaps_right. Qed.
(** a safe division of a number 126 bits longer *)
Example C50_safe : represents 3 (three_words 0 0 1) (2 ^ 128) /\ represents 3 (one_word 6) 6 /\ safe (2 ^ 128) 6.
Proof. exact safe_example. Qed.
(** (5 * 2^64 + 7) / (2^40 + 1) *)
Example C50_example : represents 2 (two_words 7 5) (5 * 2 ^ 64 + 7) /\ represents 2 (one_word (2 ^ 40 + 1)) (2 ^ 40 + 1) /\
  Z.log2 (5 * 2 ^ 64 + 7) - Z.log2 (2 ^ 40 + 1) < 64 /\ (5 * 2 ^ 64 + 7) / (2 ^ 40 + 1) = 83886079 /\
  match long_division debug_cfg 2 never never (two_words 7 5) (one_word (2 ^ 40 + 1)) with
  | Ok (r, q) => number (elements r) 2 = (5 * 2 ^ 64 + 7) mod (2 ^ 40 + 1) /\ number (elements q) 2 = 83886079
  | _ => False
  end.
Proof. split; [apply two_words_represents; lia|]. split; [apply one_word_represents; lia|]. vm_compute. repeat split. Qed.

(** ** C51: minmax_euclid.  The full statement has neither [close] nor the condition on carries; it is false. *)
Theorem C51_minmax_partial : forall cfg M junk N a b va vb, 64 * Z.of_nat M < 2 ^ 64 -> 1 <= N < 2 ^ 64 ->
  represents M a va -> represents M b vb -> 0 < va -> 0 < vb -> close va vb N ->
  (forall k m g y, 1 <= k <= N -> least va vb N m -> greatest va vb N g -> y = m \/ y = vb - g -> k * y < vb -> ~ carry_lost k y) ->
  exists e m g, minmax_euclid cfg M junk N a b = Ok e /\
    represents M (e_min e) m /\ least va vb N m /\ represents M (e_max e) g /\ greatest va vb N g /\
    1 <= e_argmin e <= N /\ residue va vb (e_argmin e) = m /\
    0 <= e_argmax e <= N /\ residue va vb (e_argmax e) = g /\ (residue va vb 1 <> 0 -> 1 <= e_argmax e).
Proof. exact minmax. Qed.
Print Assumptions C51_minmax_partial.
(** for numbers of one element there is no such condition *)
Theorem C51_minmax_one_element : forall cfg M junk N a b va vb, 64 * Z.of_nat M < 2 ^ 64 -> 1 <= N < 2 ^ 64 ->
  represents M a va -> represents M b vb -> 0 < va < 2 ^ 64 -> 0 < vb < 2 ^ 64 ->
  exists e m g, minmax_euclid cfg M junk N a b = Ok e /\
    represents M (e_min e) m /\ least va vb N m /\ represents M (e_max e) g /\ greatest va vb N g /\
    1 <= e_argmin e <= N /\ residue va vb (e_argmin e) = m /\
    0 <= e_argmax e <= N /\ residue va vb (e_argmax e) = g /\ (residue va vb 1 <> 0 -> 1 <= e_argmax e).
Proof. exact minmax_one_element. Qed.
Print Assumptions C51_minmax_one_element.
Theorem C51_minmax_refuted : exists N a b va vb, 1 <= N < 2 ^ 64 /\ represents 2 a va /\ represents 2 b vb /\ 0 < va /\ 0 < vb /\
  forall cfg, exists e, minmax_euclid cfg 2 (fun _ _ _ => 0) N a b = Ok e /\
    ~ least va vb N (number (elements (e_min e)) 2) /\ ~ greatest va vb N (number (elements (e_max e)) 2).
Proof. exact minmax_fails. Qed.
Print Assumptions C51_minmax_refuted.
(** the extremes of 1234567 n mod 9876543 for n up to 1000, and numbers of two elements that are close *)
Example C51_example :
  match minmax_euclid debug_cfg 1 (fun _ _ _ => 0) 1000 (one_word 1234567) (one_word 9876543) with
  | Ok e => (elements (e_min e) 0%nat, elements (e_max e) 0%nat, e_argmin e, e_argmax e) = (1233699, 9876536, 993, 8)
  | _ => False
  end /\ residue 1234567 9876543 993 = 1233699 /\ residue 1234567 9876543 8 = 9876536.
Proof. vm_compute. repeat split. Qed.
Example C51_example_close : close (2 ^ 64 + 77) (3 * 2 ^ 64 + 5) 2 /\
  forall k m g y, 1 <= k <= 2 -> least (2 ^ 64 + 77) (3 * 2 ^ 64 + 5) 2 m -> greatest (2 ^ 64 + 77) (3 * 2 ^ 64 + 5) 2 g ->
    y = m \/ y = 3 * 2 ^ 64 + 5 - g -> k * y < 3 * 2 ^ 64 + 5 -> ~ carry_lost k y.
Proof. exact minmax_example. Qed.
