(** * The integrality tests are exact *)

From Coq Require Import ZArith List Bool Lia Znumtheory Zpow_facts.
From Verif Require Import Machine Tables Model Arith ExpFacts Products.
Import ListNotations.
Open Scope Z_scope.

(** ** Dividing x * 2^e * 10^k *)

Lemma pow2_pow5_coprime a b : 0 <= a -> 0 <= b -> rel_prime (2 ^ a) (5 ^ b).
Proof.
  intros Ha Hb. apply rel_prime_Zpower; try assumption.
  apply Zgcd_1_rel_prime. reflexivity.
Qed.

Lemma pos_part_cases x : (pos_part x = 0 /\ x <= 0) \/ (pos_part x = x /\ 0 < x).
Proof. unfold pos_part. destruct (Z.ltb_spec 0 x); [right | left]; lia. Qed.

Lemma prod_integer e k x :
  (aden e k | x * anum e k) <-> (2 ^ pos_part (- (e + k)) | x) /\ (5 ^ pos_part (- k) | x).
Proof.
  unfold anum, aden.
  pose proof (pos_part_nonneg (e + k)). pose proof (pos_part_nonneg k).
  pose proof (pos_part_nonneg (- (e + k))). pose proof (pos_part_nonneg (- k)).
  split.
  - intros H3. split.
    + assert (D : (2 ^ pos_part (- (e + k)) | x * (2 ^ pos_part (e + k) * 5 ^ pos_part k))).
      { eapply Z.divide_trans; [|exact H3]. apply Z.divide_factor_l. }
      destruct (pos_part_cases (- (e + k))) as [[E _]|[E P]].
      { rewrite E. apply Z.divide_1_l. }
      destruct (pos_part_cases (e + k)) as [[E' _]|[_ P']]; [|lia].
      rewrite E' in D. change (2 ^ 0) with 1 in D. rewrite Z.mul_1_l in D.
      apply Gauss with (5 ^ pos_part k); [rewrite Z.mul_comm; exact D|].
      apply pow2_pow5_coprime; assumption.
    + assert (D : (5 ^ pos_part (- k) | x * (2 ^ pos_part (e + k) * 5 ^ pos_part k))).
      { eapply Z.divide_trans; [|exact H3]. apply Z.divide_factor_r. }
      destruct (pos_part_cases (- k)) as [[E _]|[E P]].
      { rewrite E. apply Z.divide_1_l. }
      destruct (pos_part_cases k) as [[E' _]|[_ P']]; [|lia].
      rewrite E' in D. change (5 ^ 0) with 1 in D. rewrite Z.mul_1_r in D.
      apply Gauss with (2 ^ pos_part (e + k)); [rewrite Z.mul_comm; exact D|].
      apply rel_prime_sym, pow2_pow5_coprime; assumption.
  - intros [H3 H4]. apply Z.divide_mul_l.
    destruct H3 as [c Hc]. subst x.
    assert (D : (5 ^ pos_part (- k) | c)).
    { apply Gauss with (2 ^ pos_part (- (e + k))).
      - rewrite Z.mul_comm. exact H4.
      - apply rel_prime_sym, pow2_pow5_coprime; assumption. }
    rewrite (Z.mul_comm c). apply Z.mul_divide_mono_l. exact D.
Qed.

(** ** What the exponent ranges used by the code mean *)

(** smallest number of factors 5 that exceeds every significand *)
Definition thr2 (f : fmt) : Z := match f with Binary32 => 11 | Binary64 => 24 end.
Definition thr1 (f : fmt) : Z := match f with Binary32 => 11 | Binary64 => 23 end.

Definition implb_and (a : bool) (b : bool) : bool := if a then b else true.

Definition check_int (f : fmt) (e : Z) : bool :=
  let k := kexp e in
  let b2 := - (e + k) in let b5 := - k in
  let t := q_mp f - 2 in let top := max_exponent_for_k_geq_0 f in
  (* generic case *)
  (if e <? integer_check_exponent_lower_bound_for_q_mp_m2 f then t <? b2
   else if e <=? top then (b2 <=? t) && (b5 <=? 0)
   else if e <=? integer_check_exponent_upper_bound_for_p_p2 f
        then (b2 <=? t) && (1 <=? b5) && (b5 <=? match f with Binary32 => 10 | Binary64 => 23 end)
   else thr2 f <=? b5) &&
  (* fc - 2^(q-p-3), shorter interval *)
  (if (integer_check_exponent_lower_bound_for_q_mp_m3 f <=? e) && (e <=? top)
   then (b2 <=? t - 1) && (b5 <=? 0)
   else (t - 1 <? b2) || (1 <=? b5)) &&
  (* other *)
  (if e <? integer_check_exponent_lower_bound_for_q_mp_m1 f then (1 <=? b2) && (b5 <=? 0)
   else if e <=? top then (b2 <=? t + 1) && (b5 <=? 0)
   else if e <=? integer_check_exponent_upper_bound_for_p_p1 f
        then (b2 <=? t + 1) && (1 <=? b5) && (b5 <=? match f with Binary32 => 10 | Binary64 => 22 end)
   else thr1 f <=? b5) &&
  (* twice fc *)
  (if e <? integer_check_exponent_lower_bound_for_q_mp f then (2 <=? b2) && (b5 <=? 0)
   else if e <=? top then (b2 <=? t + 2) && (b5 <=? 0)
   else if e <=? integer_check_exponent_upper_bound_for_p_p1 f
        then (b2 <=? t + 2) && (1 <=? b5) && (b5 <=? match f with Binary32 => 10 | Binary64 => 22 end)
   else thr1 f <=? b5).

Lemma check_int_float : forallb (check_int Binary32) (erange Binary32) = true.
Proof. vm_cast_no_check (eq_refl true). Qed.
Lemma check_int_double : forallb (check_int Binary64) (erange Binary64) = true.
Proof. vm_cast_no_check (eq_refl true). Qed.
Lemma int_ok f e : exp_min f <= e <= exp_max f -> check_int f e = true.
Proof.
  intros He. destruct f; [apply (sweep Binary32 _ _ check_int_float He)
                         | apply (sweep Binary64 _ _ check_int_double He)].
Qed.

Lemma pow2_divide_iff n m : 0 <= n -> 0 <= m -> (2 ^ n | 2 ^ m) <-> n <= m.
Proof.
  intros Hn Hm. split.
  - intros H. apply Z.divide_pos_le in H; [|apply Z.pow_pos_nonneg; lia].
    apply Z.pow_le_mono_r_iff in H; lia.
  - intros H. exists (2 ^ (m - n)). rewrite <- Z.pow_add_r by lia. f_equal; lia.
Qed.

Lemma odd_mult_divide o t n : 0 <= n -> 0 <= t -> (2 ^ n | (2 * o + 1) * 2 ^ t) <-> n <= t.
Proof.
  intros Hn Ht. split.
  - intros H. destruct (Z.le_gt_cases n t) as [|G]; [assumption|exfalso].
    assert (D : (2 ^ (t + 1) | (2 * o + 1) * 2 ^ t)).
    { eapply Z.divide_trans; [|exact H]. apply pow2_divide_iff; lia. }
    rewrite Z.pow_add_r in D by lia. rewrite (Z.mul_comm (2 * o + 1)) in D.
    apply Z.mul_divide_cancel_l in D; [|pose proof (Z.pow_pos_nonneg 2 t); lia].
    destruct D as [c D]. change (2 ^ 1) with 2 in D. lia.
  - intros H. apply Z.divide_mul_r. apply pow2_divide_iff; lia.
Qed.

Lemma pow5_divide_strip x t n : 0 <= n -> 0 <= t -> (5 ^ n | x * 2 ^ t) <-> (5 ^ n | x).
Proof.
  intros Hn Ht. split.
  - intros H. apply Gauss with (2 ^ t); [rewrite Z.mul_comm; exact H|].
    apply rel_prime_sym, pow2_pow5_coprime; assumption.
  - apply Z.divide_mul_l.
Qed.

Lemma pow5_too_big x b n : 0 < x < n -> n <= 5 ^ b -> ~ (5 ^ b | x).
Proof. intros Hx Hb D. apply Z.divide_pos_le in D; lia. Qed.

Lemma pos_part_le0 x : x <= 0 -> pos_part x = 0.
Proof. intros. destruct (pos_part_cases x); lia. Qed.
Lemma pos_part_pos x : 0 <= x -> pos_part x = x.
Proof. intros. destruct (pos_part_cases x); lia. Qed.

Lemma divb_eq a x b : 0 < a -> ((a | x) <-> b = true) -> divb a x = b.
Proof. intros Ha H. apply eq_iff_eq_true. rewrite divb_true by exact Ha. exact H. Qed.

Lemma cassert_true cfg b : b = true -> cassert cfg b = Ok tt.
Proof. intros ->. unfold cassert. destruct (cfg_ndebug cfg); reflexivity. Qed.

Section Exact.
Variables (cfg : config) (f : fmt) (e : Z).
Hypothesis He : exp_min f <= e <= exp_max f.
Let k := kexp e.
Let A := anum e k.
Let B := aden e k.

Lemma Bpos : 0 < B. Proof. apply aden_pos. Qed.

Lemma dec_div x : divb B (x * A) = divb (2 ^ pos_part (- (e + k))) x && divb (5 ^ pos_part (- k)) x.
Proof.
  apply divb_eq; [apply Bpos|]. rewrite andb_true_iff.
  rewrite !divb_true by (apply Z.pow_pos_nonneg; try apply pos_part_nonneg; lia).
  apply prod_integer.
Qed.

Lemma q_mp_vals : q_mp f = extended_precision f - precision f /\ 3 <= q_mp f.
Proof. destruct f; cbn; lia. Qed.

Lemma is_product_integer_generic o :
  0 <= o -> (2 * o + 1) * boundary_bit f < 2 ^ extended_precision f ->
  is_product_integer cfg f fc_pm_2_to_the_q_mp_m2_generic ((2 * o + 1) * boundary_bit f) e (- k)
  = Ok (divb B ((2 * o + 1) * boundary_bit f * A)).
Proof.
  intros Ho Hx. pose proof (int_ok f e He) as C. unfold check_int in C. fold k in C. cbv zeta in C.
  rewrite !andb_true_iff in C. destruct C as [[[C _] _] _].
  rewrite dec_div. unfold is_product_integer.
  set (t := q_mp f - 2) in *.
  assert (Eb : boundary_bit f = 2 ^ t) by (destruct f; reflexivity).
  assert (Ht : 0 <= t) by (destruct f; cbn; lia).
  rewrite Eb in *.
  pose proof (Z.pow_pos_nonneg 2 t ltac:(lia) Ht) as Hpt.
  assert (D2 : divb (2 ^ pos_part (- (e + k))) ((2 * o + 1) * 2 ^ t) = (- (e + k) <=? t)).
  { apply divb_eq; [apply Z.pow_pos_nonneg; [lia | apply pos_part_nonneg]|].
    rewrite odd_mult_divide by (try assumption; apply pos_part_nonneg).
    rewrite Z.leb_le. destruct (pos_part_cases (- (e + k))); lia. }
  rewrite D2.
  destruct (Z.ltb_spec e (integer_check_exponent_lower_bound_for_q_mp_m2 f)) as [L1|L1].
  { apply Z.ltb_lt in C. rewrite (proj2 (Z.leb_gt _ _) C). reflexivity. }
  destruct (Z.leb_spec e (max_exponent_for_k_geq_0 f)) as [L2|L2].
  { rewrite andb_true_iff in C. destruct C as [C1 C2]. rewrite C1. apply Z.leb_le in C2.
    rewrite (pos_part_le0 (- k)) by lia. change (5 ^ 0) with 1.
    f_equal. symmetry. apply divb_true; [reflexivity|]. apply Z.divide_1_l. }
  destruct (Z.leb_spec e (integer_check_exponent_upper_bound_for_p_p2 f)) as [L3|L3].
  { rewrite !andb_true_iff in C. destruct C as [[C1 C2] C3]. rewrite C1.
    rewrite cassert_true by (destruct f; rewrite C2, C3; reflexivity).
    cbn [bind]. apply Z.leb_le in C2, C3.
    rewrite (pos_part_pos (- k)) by lia.
    apply divisible_by_power_of_5_exact.
    - split; [|exact Hx]. apply Z.mul_nonneg_nonneg; lia.
    - destruct f; cbn [divisibility_table_size]; lia. }
  apply Z.leb_le in C. f_equal. symmetry.
  assert (thr2 f <= pos_part (- k)) by (destruct (pos_part_cases (- k)); destruct f; cbn [thr2] in *; lia).
  apply andb_false_intro2. apply not_true_is_false. intros D.
  apply divb_true in D; [|apply Z.pow_pos_nonneg; [lia | apply pos_part_nonneg]].
  apply pow5_divide_strip in D; [|apply pos_part_nonneg|exact Ht]. revert D.
  apply pow5_too_big with (2 ^ (precision f + 2)).
  - split; [lia|]. apply Z.mul_lt_mono_pos_r with (2 ^ t); [exact Hpt|].
    rewrite <- Z.pow_add_r by (destruct f; cbn; lia).
    replace (precision f + 2 + t) with (extended_precision f); [exact Hx|]. destruct f; reflexivity.
  - apply Z.le_trans with (5 ^ thr2 f); [destruct f; cbv; discriminate|].
    apply Z.pow_le_mono_r; lia.
Qed.

Lemma is_product_integer_m3 x :
  x = sign_bit_mask f - edge_case_boundary_bit f ->
  is_product_integer cfg f fc_minus_2_to_the_q_mp_m3_edge x e (- k) = Ok (divb B (x * A)).
Proof.
  intros ->. pose proof (int_ok f e He) as C. unfold check_int in C. fold k in C. cbv zeta in C.
  rewrite !andb_true_iff in C. destruct C as [[[_ C] _] _].
  rewrite dec_div. unfold is_product_integer. f_equal. symmetry.
  set (t := q_mp f - 3). replace (q_mp f - 2 - 1) with t in C by (unfold t; lia).
  assert (Eb : sign_bit_mask f - edge_case_boundary_bit f = (2 * (2 ^ (precision f + 1) - 1) + 1) * 2 ^ t)
    by (destruct f; reflexivity).
  assert (Ht : 0 <= t) by (destruct f; cbn; lia).
  rewrite Eb in *.
  assert (D2 : divb (2 ^ pos_part (- (e + k))) ((2 * (2 ^ (precision f + 1) - 1) + 1) * 2 ^ t) = (- (e + k) <=? t)).
  { apply divb_eq; [apply Z.pow_pos_nonneg; [lia | apply pos_part_nonneg]|].
    rewrite odd_mult_divide by (try assumption; apply pos_part_nonneg).
    rewrite Z.leb_le. destruct (pos_part_cases (- (e + k))); lia. }
  rewrite D2.
  destruct ((integer_check_exponent_lower_bound_for_q_mp_m3 f <=? e) && (e <=? max_exponent_for_k_geq_0 f)).
  - rewrite andb_true_iff in C. destruct C as [C1 C2]. rewrite C1. apply Z.leb_le in C2.
    rewrite (pos_part_le0 (- k)) by lia. change (5 ^ 0) with 1.
    apply divb_true; [reflexivity|]. apply Z.divide_1_l.
  - apply orb_true_iff in C. destruct C as [C|C].
    + apply Z.ltb_lt in C. rewrite (proj2 (Z.leb_gt _ _) C). reflexivity.
    + apply Z.leb_le in C. apply andb_false_intro2. apply not_true_is_false. intros D.
      apply divb_true in D; [|apply Z.pow_pos_nonneg; [lia | apply pos_part_nonneg]].
      apply pow5_divide_strip in D; [|apply pos_part_nonneg|exact Ht].
      assert (D5 : (5 | 2 * (2 ^ (precision f + 1) - 1) + 1)).
      { eapply Z.divide_trans; [|exact D]. change 5 with (5 ^ 1) at 1.
        rewrite pos_part_pos by lia.
        exists (5 ^ (- k - 1)). rewrite <- Z.pow_add_r by lia. f_equal; lia. }
      apply Z.mod_divide in D5; [|discriminate]. revert D5. destruct f; cbv; discriminate.
Qed.

Lemma is_product_integer_other n :
  0 < n -> n * normal_interval_length f < 2 ^ extended_precision f ->
  is_product_integer cfg f other (n * normal_interval_length f) e (- k)
  = Ok (divb B (n * normal_interval_length f * A)).
Proof.
  intros Hn Hx. pose proof (int_ok f e He) as C. unfold check_int in C. fold k in C. cbv zeta in C.
  rewrite !andb_true_iff in C. destruct C as [[[_ _] C] _].
  rewrite dec_div. unfold is_product_integer.
  set (t := q_mp f - 1). replace (q_mp f - 2 + 1) with t in C by (unfold t; lia).
  assert (Eb : normal_interval_length f = 2 ^ t) by (destruct f; reflexivity).
  assert (Ht : 0 <= t) by (destruct f; cbn; lia).
  rewrite Eb in *.
  pose proof (Z.pow_pos_nonneg 2 t ltac:(lia) Ht) as Hpt.
  assert (D2 : - (e + k) <= t -> divb (2 ^ pos_part (- (e + k))) (n * 2 ^ t) = true).
  { intros H. apply divb_true; [apply Z.pow_pos_nonneg; [lia | apply pos_part_nonneg]|].
    apply Z.divide_mul_r, pow2_divide_iff; [apply pos_part_nonneg | exact Ht |].
    destruct (pos_part_cases (- (e + k))); lia. }
  destruct (Z.ltb_spec e (integer_check_exponent_lower_bound_for_q_mp_m1 f)) as [L1|L1].
  { rewrite andb_true_iff, !Z.leb_le in C. destruct C as [C1 C2].
    rewrite divisible_by_power_of_2_exact; [|apply qpos | split; [apply Z.mul_pos_pos; lia | exact Hx] | lia].
    rewrite (pos_part_le0 (- k)) by lia. change (5 ^ 0) with 1.
    rewrite (proj2 (divb_true 1 _ ltac:(lia)) (Z.divide_1_l _)), andb_true_r.
    rewrite pos_part_pos by lia. do 3 f_equal; lia. }
  destruct (Z.leb_spec e (max_exponent_for_k_geq_0 f)) as [L2|L2].
  { rewrite andb_true_iff, !Z.leb_le in C. destruct C as [C1 C2]. rewrite D2 by exact C1.
    rewrite (pos_part_le0 (- k)) by lia. change (5 ^ 0) with 1.
    f_equal. symmetry. apply divb_true; [reflexivity|]. apply Z.divide_1_l. }
  destruct (Z.leb_spec e (integer_check_exponent_upper_bound_for_p_p1 f)) as [L3|L3].
  { rewrite !andb_true_iff in C. destruct C as [[C1 C2] C3].
    rewrite D2 by (apply Z.leb_le; exact C1).
    rewrite cassert_true by (destruct f; rewrite C2, C3; reflexivity).
    cbn [bind]. apply Z.leb_le in C2, C3.
    rewrite (pos_part_pos (- k)) by lia.
    apply divisible_by_power_of_5_exact.
    - split; [|exact Hx]. apply Z.mul_nonneg_nonneg; lia.
    - destruct f; cbn [divisibility_table_size]; lia. }
  apply Z.leb_le in C. f_equal. symmetry.
  assert (thr1 f <= pos_part (- k)) by (destruct (pos_part_cases (- k)); destruct f; cbn [thr1] in *; lia).
  apply andb_false_intro2. apply not_true_is_false. intros D.
  apply divb_true in D; [|apply Z.pow_pos_nonneg; [lia | apply pos_part_nonneg]].
  apply pow5_divide_strip in D; [|apply pos_part_nonneg|exact Ht]. revert D.
  apply pow5_too_big with (2 ^ (precision f + 1)).
  - split; [lia|]. apply Z.mul_lt_mono_pos_r with (2 ^ t); [exact Hpt|].
    rewrite <- Z.pow_add_r by (destruct f; cbn; lia).
    replace (precision f + 1 + t) with (extended_precision f); [exact Hx|]. destruct f; reflexivity.
  - apply Z.le_trans with (5 ^ thr1 f); [destruct f; cbv; discriminate|].
    apply Z.pow_le_mono_r; lia.
Qed.

Lemma is_product_integer_two n :
  0 < n -> n * normal_interval_length f < 2 ^ extended_precision f ->
  is_product_integer cfg f two_times_fc (n * normal_interval_length f) e (- k)
  = Ok (divb B (2 * (n * normal_interval_length f) * A)).
Proof.
  intros Hn Hx. pose proof (int_ok f e He) as C. unfold check_int in C. fold k in C. cbv zeta in C.
  rewrite !andb_true_iff in C. destruct C as [[[_ _] _] C].
  rewrite dec_div. unfold is_product_integer.
  set (t := q_mp f - 1). replace (q_mp f - 2 + 2) with (t + 1) in C by (unfold t; lia).
  assert (Eb : normal_interval_length f = 2 ^ t) by (destruct f; reflexivity).
  assert (Ht : 0 <= t) by (destruct f; cbn; lia).
  rewrite Eb in *.
  pose proof (Z.pow_pos_nonneg 2 t ltac:(lia) Ht) as Hpt.
  assert (E2 : 2 * (n * 2 ^ t) = n * 2 ^ (t + 1)) by (rewrite Z.pow_add_r by lia; lia).
  assert (D2 : - (e + k) <= t + 1 -> divb (2 ^ pos_part (- (e + k))) (2 * (n * 2 ^ t)) = true).
  { intros H. rewrite E2. apply divb_true; [apply Z.pow_pos_nonneg; [lia | apply pos_part_nonneg]|].
    apply Z.divide_mul_r, pow2_divide_iff; [apply pos_part_nonneg | lia |].
    destruct (pos_part_cases (- (e + k))); lia. }
  assert (D5 : divb (5 ^ pos_part (- k)) (2 * (n * 2 ^ t)) = divb (5 ^ pos_part (- k)) (n * 2 ^ t)).
  { apply divb_eq; [apply Z.pow_pos_nonneg; [lia | apply pos_part_nonneg]|].
    rewrite divb_true by (apply Z.pow_pos_nonneg; [lia | apply pos_part_nonneg]).
    rewrite E2, !pow5_divide_strip by (try apply pos_part_nonneg; lia). reflexivity. }
  rewrite D5.
  destruct (Z.ltb_spec e (integer_check_exponent_lower_bound_for_q_mp f)) as [L1|L1].
  { rewrite andb_true_iff, !Z.leb_le in C. destruct C as [C1 C2].
    rewrite divisible_by_power_of_2_exact; [|apply qpos | split; [apply Z.mul_pos_pos; lia | exact Hx] | lia].
    rewrite (pos_part_le0 (- k)) by lia. change (5 ^ 0) with 1.
    rewrite (proj2 (divb_true 1 _ ltac:(lia)) (Z.divide_1_l _)), andb_true_r.
    rewrite pos_part_pos by lia. f_equal. symmetry.
    apply divb_eq; [apply Z.pow_pos_nonneg; lia|].
    rewrite divb_true by (apply Z.pow_pos_nonneg; lia).
    replace (- (e + k)) with (1 + (- k - e - 1)) by lia. rewrite Z.pow_add_r by lia.
    change (2 ^ 1) with 2. apply Z.mul_divide_cancel_l. discriminate. }
  destruct (Z.leb_spec e (max_exponent_for_k_geq_0 f)) as [L2|L2].
  { rewrite andb_true_iff, !Z.leb_le in C. destruct C as [C1 C2]. rewrite D2 by exact C1.
    rewrite (pos_part_le0 (- k)) by lia. change (5 ^ 0) with 1.
    f_equal. symmetry. apply divb_true; [reflexivity|]. apply Z.divide_1_l. }
  destruct (Z.leb_spec e (integer_check_exponent_upper_bound_for_p_p1 f)) as [L3|L3].
  { rewrite !andb_true_iff in C. destruct C as [[C1 C2] C3].
    rewrite D2 by (apply Z.leb_le; exact C1).
    rewrite cassert_true by (destruct f; rewrite C2, C3; reflexivity).
    cbn [bind]. apply Z.leb_le in C2, C3.
    rewrite (pos_part_pos (- k)) by lia.
    apply divisible_by_power_of_5_exact.
    - split; [|exact Hx]. apply Z.mul_nonneg_nonneg; lia.
    - destruct f; cbn [divisibility_table_size]; lia. }
  apply Z.leb_le in C. f_equal. symmetry.
  assert (thr1 f <= pos_part (- k)) by (destruct (pos_part_cases (- k)); destruct f; cbn [thr1] in *; lia).
  apply andb_false_intro2. apply not_true_is_false. intros D.
  apply divb_true in D; [|apply Z.pow_pos_nonneg; [lia | apply pos_part_nonneg]].
  apply pow5_divide_strip in D; [|apply pos_part_nonneg|exact Ht]. revert D.
  apply pow5_too_big with (2 ^ (precision f + 1)).
  - split; [lia|]. apply Z.mul_lt_mono_pos_r with (2 ^ t); [exact Hpt|].
    rewrite <- Z.pow_add_r by (destruct f; cbn; lia).
    replace (precision f + 1 + t) with (extended_precision f); [exact Hx|]. destruct f; reflexivity.
  - apply Z.le_trans with (5 ^ thr1 f); [destruct f; cbv; discriminate|].
    apply Z.pow_le_mono_r; lia.
Qed.
End Exact.
