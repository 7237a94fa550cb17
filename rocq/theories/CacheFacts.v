(** * The cache against real powers of ten, and the arithmetic helpers *)

From Coq Require Import ZArith Reals List Lra Lia Bool.
From Flocq Require Import Core.
From Verif Require Import Machine Tables Model Arith ExpFacts Products IntCheck Core Link Spec Bridge.
Open Scope R_scope.

Lemma gnum_anum k : gnum k = anum (- lexp k - 1) k.
Proof.
  unfold gnum, anum. rewrite shiftl_mul by apply pos_part_nonneg. rewrite Z.mul_comm. do 2 f_equal. f_equal. ring.
Qed.
Lemma gden_aden k : gden k = aden (- lexp k - 1) k.
Proof.
  unfold gden, aden. rewrite shiftl_mul by apply pos_part_nonneg. rewrite Z.mul_comm. do 2 f_equal. f_equal. ring.
Qed.
Lemma g_ratio k : IZR (gnum k) = bpow radix10 k * bpow radix2 (- lexp k - 1) * IZR (gden k).
Proof. rewrite gnum_anum, gden_aden, ratio. ring. Qed.

Lemma mag_lexp f k : (min_k f <= k <= max_k f)%Z -> (mag radix2 (bpow radix10 k) : Z) = (lexp k + 1)%Z.
Proof.
  intros Hk. pose proof (k_facts_all f k Hk) as F. apply mag_unique. rewrite Rabs_pos_eq by apply bpow_ge_0.
  pose proof (g_ratio k) as G. assert (D : 0 < IZR (gden k)) by (apply IZR_lt, gden_pos).
  pose proof (kf_half f k F) as H1. pose proof (kf_one f k F) as H2. apply IZR_le in H1. apply IZR_lt in H2.
  rewrite mult_IZR in H1. set (a := bpow radix10 k) in *.
  assert (Ea : a = a * bpow radix2 (- lexp k - 1) * bpow radix2 (lexp k + 1)).
  { rewrite Rmult_assoc, <- bpow_plus. replace (- lexp k - 1 + (lexp k + 1))%Z with 0%Z by ring. simpl. ring. }
  set (b := a * bpow radix2 (- lexp k - 1)) in *.
  assert (B1 : / 2 <= b) by (apply Rmult_le_reg_r with (1 := D); lra).
  assert (B2 : b < 1) by (apply Rmult_lt_reg_r with (1 := D); lra).
  assert (P : bpow radix2 (lexp k + 1) = 2 * bpow radix2 (lexp k)) by (rewrite Z.add_comm, bpow_plus; reflexivity).
  replace (lexp k + 1 - 1)%Z with (lexp k) by ring. pose proof (bpow_gt_0 radix2 (lexp k)).
  rewrite Ea, P. split; nra.
Qed.

Lemma entry_phi f k : (min_k f <= k <= max_k f)%Z -> entry_value (cache_at f k) = phi f k.
Proof.
  intros _. unfold cache_at, phi, cache_val. destruct f; [reflexivity|]. cbv zeta.
  destruct (nth _ cache_double (0, 0)%Z) as [h l]. reflexivity.
Qed.

Lemma cache_exact cfg f k : (k_min f <= k <= k_max f)%Z ->
  let scaled := bpow radix10 k * bpow radix2 (2 * width f - mag radix2 (bpow radix10 k)) in
  exists c, get_cache cfg f k = Ok c /\
    entry_value c = (if (0 <=? k)%Z then Zfloor scaled else Zceil scaled) /\
    (2 ^ (2 * width f - 1) <= entry_value c < 2 ^ (2 * width f))%Z.
Proof.
  intros Hk' scaled. assert (Hk : (min_k f <= k <= max_k f)%Z) by (destruct f; exact Hk'). exists (cache_at f k). split; [apply get_cache_ok, Hk|]. rewrite (entry_phi f k Hk).
  pose proof (k_facts_all f k Hk) as F. pose proof (gden_pos k) as D0. assert (D : 0 < IZR (gden k)) by (apply IZR_lt, D0).
  assert (W : extended_precision f = width f) by (destruct f; reflexivity).
  assert (W2 : (0 <= 2 * width f)%Z) by (destruct f; discriminate).
  assert (S : scaled * IZR (gden k) = IZR (gnum k * 2 ^ (2 * width f))).
  { unfold scaled. rewrite (mag_lexp f k Hk), mult_IZR, g_ratio. change (2 ^ (2 * width f))%Z with (radix2 ^ (2 * width f))%Z. rewrite (IZR_Zpower radix2) by exact W2.
    replace (2 * width f - (lexp k + 1))%Z with (- lexp k - 1 + 2 * width f)%Z by ring. rewrite bpow_plus. ring. }
  pose proof (kf_floor f k F) as FL. pose proof (kf_ceil f k F) as CE. pose proof (kf_phi f k F) as [_ Ph]. rewrite W in FL, CE, Ph.
  pose proof (kf_half f k F) as H1.
  assert (P2 : (2 ^ (2 * width f) = 2 * 2 ^ (2 * width f - 1))%Z) by (destruct f; reflexivity).
  assert (P3 : (0 < 2 ^ (2 * width f - 1))%Z) by (destruct f; reflexivity).
  destruct (Z.leb_spec 0 k) as [K|K].
  - specialize (FL K). destruct FL as [A B]. split.
    + symmetry. apply Zfloor_imp. apply IZR_le in A. apply IZR_lt in B. rewrite <- S in A, B. rewrite mult_IZR in A, B.
      split; [apply Rmult_le_reg_r with (1 := D); exact A | apply Rmult_lt_reg_r with (1 := D); exact B].
    + split; [|exact Ph]. rewrite P2 in B. assert (2 ^ (2 * width f - 1) < phi f k + 1)%Z; [|lia].
      apply Z.mul_lt_mono_pos_r with (gden k); [exact D0|]. nia.
  - specialize (CE K). destruct CE as [A B]. split.
    + symmetry. apply Zceil_imp. apply IZR_lt in A. apply IZR_le in B. rewrite <- S in A, B. rewrite mult_IZR in A, B.
      split; [apply Rmult_lt_reg_r with (1 := D); exact A | apply Rmult_le_reg_r with (1 := D); exact B].
    + split; [|exact Ph]. rewrite P2 in B.
      apply Z.mul_le_mono_pos_r with (gden k); [exact D0|]. nia.
Qed.

Lemma get_cache_outside cfg f k : (k < k_min f \/ k_max f < k)%Z -> cfg_ndebug cfg = false -> get_cache cfg f k = AssertFailed.
Proof.
  intros H N. unfold get_cache, cassert. rewrite N.
  change (k_min f) with (match f with Binary32 => -30 | Binary64 => -290 end)%Z in H.
  change (k_max f) with (match f with Binary32 => 46 | Binary64 => 325 end)%Z in H.
  assert (M1 : min_k f = match f with Binary32 => -30 | Binary64 => -290 end%Z) by (destruct f; reflexivity).
  assert (M2 : max_k f = match f with Binary32 => 46 | Binary64 => 325 end%Z) by (destruct f; reflexivity).
  assert (((min_k f <=? k) && (k <=? max_k f))%Z = false) as ->; [|reflexivity].
  apply not_true_is_false. rewrite andb_true_iff, !Z.leb_le. lia.
Qed.

(** ** Wide multiplication and divisibility *)
Lemma wide_mul cfg x y : (0 <= x < 2 ^ 64 -> 0 <= y < 2 ^ 64 ->
  (exists r, umul128 cfg x y = r /\ 0 <= u128_high r < 2 ^ 64 /\ 0 <= u128_low r < 2 ^ 64 /\
     u128_high r * 2 ^ 64 + u128_low r = x * y) /\
  umul128_upper64 cfg x y = x * y / 2 ^ 64)%Z.
Proof.
  intros Hx Hy. destruct (umul128_exact cfg x y Hx Hy) as [A B]. split; [|apply umul128_upper64_exact; assumption].
  exists (umul128 cfg x y). split; [reflexivity|]. rewrite A, B. pose proof (prod_shift_range x y Hx Hy).
  pose proof (Z.mod_pos_bound (x * y) (2 ^ 64) ltac:(reflexivity)). pose proof (Z.div_mod (x * y) (2 ^ 64) ltac:(discriminate)). lia.
Qed.
Lemma wide_mul_mixed cfg x y : (0 <= x < 2 ^ 64 -> 0 <= u128_high y < 2 ^ 64 -> 0 <= u128_low y < 2 ^ 64 ->
  umul192_upper64 cfg x y = x * (u128_high y * 2 ^ 64 + u128_low y) / 2 ^ 128)%Z.
Proof. exact (umul192_upper64_exact cfg x y). Qed.

Lemma divisible_2 cfg f x e : (0 < x < 2 ^ width f -> 1 <= e ->
  exists b, divisible_by_power_of_2 cfg (width f) x e = Ok b /\ (b = true <-> (2 ^ e | x)))%Z.
Proof.
  intros Hx He. eexists. split; [apply divisible_by_power_of_2_exact; [destruct f; reflexivity | exact Hx | exact He]|].
  apply divb_true. apply Z.pow_pos_nonneg; lia.
Qed.
Lemma divisible_5 cfg f x e : (0 <= x < 2 ^ width f -> 0 <= e < powers_of_5 f ->
  exists b, divisible_by_power_of_5 cfg f (width f) x e = Ok b /\ (b = true <-> (5 ^ e | x)))%Z.
Proof.
  intros Hx He. assert (W : width f = extended_precision f) by (destruct f; reflexivity). rewrite W in *.
  eexists. split; [apply divisible_by_power_of_5_exact; [exact Hx | destruct f; exact He]|].
  apply divb_true. apply Z.pow_pos_nonneg; lia.
Qed.
