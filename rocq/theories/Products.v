(** * The helper functions of the algorithm compute exact floors and exact integrality tests *)

From Coq Require Import ZArith List Bool Lia Znumtheory.
From Verif Require Import Machine Tables Model Arith ExpFacts.
Import ListNotations.
Open Scope Z_scope.

(** ** The cache *)

Definition cache_at (f : fmt) (k : Z) : cache_entry :=
  match f with
  | Binary32 => Cache64 (nth (Z.to_nat (k - min_k f)) cache_float 0)
  | Binary64 => let v := nth (Z.to_nat (k - min_k f)) cache_double (0, 0) in
                Cache128 (mk_uint128 (fst v) (snd v))
  end.

Definition cache_ranges : bool :=
  forallb (fun v => (0 <=? fst v) && (fst v <? 2 ^ 64) && (0 <=? snd v) && (snd v <? 2 ^ 64)) cache_double
  && forallb (fun v => (0 <=? v) && (v <? 2 ^ 64)) cache_float.
Lemma cache_ranges_true : cache_ranges = true.
Proof. vm_cast_no_check (eq_refl true). Qed.

Lemma cache_float_range i : (i < 77)%nat -> 0 <= nth i cache_float 0 < 2 ^ 64.
Proof.
  intros H. pose proof cache_ranges_true as C. apply andb_true_iff in C. destruct C as [_ C].
  rewrite forallb_forall in C. specialize (C (nth i cache_float 0)).
  rewrite andb_true_iff, Z.leb_le, Z.ltb_lt in C. apply C. apply nth_In.
  rewrite cache_float_length. exact H.
Qed.
Lemma cache_double_range i : (i < 616)%nat ->
  0 <= fst (nth i cache_double (0, 0)) < 2 ^ 64 /\ 0 <= snd (nth i cache_double (0, 0)) < 2 ^ 64.
Proof.
  intros H. pose proof cache_ranges_true as C. apply andb_true_iff in C. destruct C as [C _].
  rewrite forallb_forall in C. specialize (C (nth i cache_double (0, 0))).
  rewrite !andb_true_iff, !Z.leb_le, !Z.ltb_lt in C.
  assert (I : In (nth i cache_double (0, 0)) cache_double).
  { apply nth_In. rewrite cache_double_length. exact H. }
  specialize (C I). lia.
Qed.

Lemma get_cache_ok cfg f k : min_k f <= k <= max_k f -> get_cache cfg f k = Ok (cache_at f k).
Proof.
  intros H. unfold get_cache, cassert.
  rewrite (proj2 (Z.leb_le _ _) (proj1 H)), (proj2 (Z.leb_le _ _) (proj2 H)). cbn [andb].
  assert (E : (if cfg_ndebug cfg then Ok tt else Ok tt) = Ok tt) by (destruct (cfg_ndebug cfg); reflexivity).
  rewrite E; cbn [bind]. unfold cache_at. destruct f.
  - change (max_k Binary32) with 46 in H. change (min_k Binary32) with (-30) in *.
    erewrite read_array_ok; [reflexivity | lia |].
    apply nth_error_nth'. rewrite cache_float_length. lia.
  - change (max_k Binary64) with 325 in H. change (min_k Binary64) with (-290) in *.
    erewrite read_array_ok; [reflexivity | lia |].
    apply nth_error_nth'. rewrite cache_double_length. lia.
Qed.

Lemma qpos f : 0 < extended_precision f. Proof. destruct f; reflexivity. Qed.

(** ** compute_mul *)

Lemma compute_mul_exact cfg f x k mb :
  min_k f <= k <= max_k f -> 0 <= x < 2 ^ extended_precision f -> 0 <= mb < extended_precision f ->
  compute_mul cfg f x (cache_at f k) mb = Ok (x * phi f k / 2 ^ (2 * extended_precision f + mb)).
Proof.
  intros Hk Hx Hmb. unfold compute_mul, cache_at, phi, cache_val. destruct f.
  - change (max_k Binary32) with 46 in Hk. change (min_k Binary32) with (-30) in *.
    change (extended_precision Binary32) with 32 in *.
    pose proof (cache_float_range (Z.to_nat (k - -30)) ltac:(lia)) as R.
    rewrite umul96_upper32_exact by assumption.
    unfold shr. rewrite (proj2 (Z.leb_le 0 mb)), (proj2 (Z.ltb_lt mb 32)) by lia. cbn [andb].
    rewrite shiftr_div by lia. rewrite div_div by (try reflexivity; apply Z.pow_pos_nonneg; lia).
    rewrite <- Z.pow_add_r by lia. reflexivity.
  - change (max_k Binary64) with 325 in Hk. change (min_k Binary64) with (-290) in *.
    change (extended_precision Binary64) with 64 in *.
    pose proof (cache_double_range (Z.to_nat (k - -290)) ltac:(lia)) as R. cbv zeta.
    destruct (nth (Z.to_nat (k - -290)) cache_double (0, 0)) as [h l]; cbn [fst snd] in *.
    rewrite umul192_upper64_exact by (cbn [u128_high u128_low]; lia).
    unfold shr. rewrite (proj2 (Z.leb_le 0 mb)), (proj2 (Z.ltb_lt mb 64)) by lia. cbn [andb].
    rewrite shiftr_div by lia. rewrite div_div by (try reflexivity; apply Z.pow_pos_nonneg; lia).
    rewrite <- Z.pow_add_r by lia. unfold u128_val; cbn [u128_high u128_low]. reflexivity.
Qed.

(** ** compute_delta *)

Definition cache_r (f : fmt) (k : Z) : Z :=
  match cache_at f k with Cache64 v => v | Cache128 v => u128_high v end.

(** 2q - 64: float 0 bits, double 64 bits are dropped *)
Lemma cache_r_phi f k : min_k f <= k <= max_k f ->
  cache_r f k = phi f k / 2 ^ (2 * extended_precision f - 64) /\ 0 <= cache_r f k < 2 ^ 64.
Proof.
  intros Hk. unfold cache_r, cache_at, phi, cache_val. destruct f.
  - change (max_k Binary32) with 46 in Hk. change (min_k Binary32) with (-30) in *.
    pose proof (cache_float_range (Z.to_nat (k - -30)) ltac:(lia)) as R.
    split; [|exact R]. change (2 ^ (2 * extended_precision Binary32 - 64)) with 1. symmetry. apply Z.div_1_r.
  - change (max_k Binary64) with 325 in Hk. change (min_k Binary64) with (-290) in *.
    pose proof (cache_double_range (Z.to_nat (k - -290)) ltac:(lia)) as R. cbv zeta.
    destruct (nth (Z.to_nat (k - -290)) cache_double (0, 0)) as [h l]; cbn [fst snd u128_high] in *.
    split; [|lia]. change (2 * extended_precision Binary64 - 64) with 64.
    rewrite Z.div_add_l by discriminate. rewrite Z.div_small by lia. lia.
Qed.

(** the halves of the cached value added for the shorter interval, one check per k *)
Definition check_half (f : fmt) (ph : Z) : bool :=
  let r := Z.shiftr ph (2 * extended_precision f - 64) in
  let s := 64 - (extended_precision f - precision f - 1) + 2 in
  Z.shiftr (Z.shiftr r 1 + Z.shiftr r 2) s
  =? Z.shiftr (3 * ph) (2 * extended_precision f - 64 + s + 2).
Lemma check_half_float : forallb (check_half Binary32) cache_float = true.
Proof. vm_cast_no_check (eq_refl true). Qed.
Lemma check_half_double :
  forallb (fun v => check_half Binary64 (fst v * 2 ^ 64 + snd v)) cache_double = true.
Proof. vm_cast_no_check (eq_refl true). Qed.

Lemma half_ok f k : min_k f <= k <= max_k f -> check_half f (phi f k) = true.
Proof.
  intros Hk. unfold phi, cache_val. destruct f.
  - change (max_k Binary32) with 46 in Hk. change (min_k Binary32) with (-30) in *.
    pose proof check_half_float as C. rewrite forallb_forall in C. apply C.
    apply nth_In. rewrite cache_float_length. lia.
  - change (max_k Binary64) with 325 in Hk. change (min_k Binary64) with (-290) in *.
    pose proof check_half_double as C. rewrite forallb_forall in C. cbv zeta.
    specialize (C (nth (Z.to_nat (k - -290)) cache_double (0, 0))).
    destruct (nth (Z.to_nat (k - -290)) cache_double (0, 0)) eqn:En. apply C.
    rewrite <- En. apply nth_In. rewrite cache_double_length. lia.
Qed.

(** length of the rounding interval, in units of 2^(q-p-3) *)
Definition delta_units (tag : mode_tag) (is_edge_case : bool) : Z :=
  match tag, is_edge_case with
  | to_nearest_tag, true => 3
  | right_closed_directed_tag, true => 2
  | _, _ => 4
  end.

Lemma shr_ok w x n : 0 <= n < w -> shr w x n = Ok (x / 2 ^ n).
Proof.
  intros H. unfold shr. rewrite (proj2 (Z.leb_le 0 n)), (proj2 (Z.ltb_lt n w)) by lia. cbn [andb].
  rewrite shiftr_div by lia. reflexivity.
Qed.

Lemma compute_delta_exact f tag edge k mb :
  min_k f <= k <= max_k f -> 2 <= mb <= 6 ->
  compute_delta f tag edge (cache_at f k) mb
  = Ok (delta_units tag edge * unit f * phi f k / 2 ^ (2 * extended_precision f + mb)).
Proof.
  intros Hk Hmb. unfold compute_delta. fold (cache_r f k).
  destruct (cache_r_phi f k Hk) as [E R].
  pose proof (half_ok f k Hk) as HH. unfold check_half in HH. apply Z.eqb_eq in HH.
  pose proof (kf_phi _ _ (k_facts_all f k Hk)) as HP.
  assert (E0 : 64 = match f with
               | Binary32 => cache_precision f
               | Binary64 => extended_precision f
               end) by (destruct f; reflexivity).
  rewrite <- E0. clear E0. cbv zeta in *.
  set (q1 := extended_precision f - precision f - 1) in *.
  assert (Hq1 : 8 <= q1 <= 11) by (destruct f; cbn; lia).
  assert (Eu : unit f = 2 ^ (q1 - 2)).
  { unfold unit, q1. f_equal. lia. }
  set (q := extended_precision f) in *. assert (Hq : 32 <= q <= 64) by (destruct f; cbn; lia).
  set (r := cache_r f k) in *. set (ph := phi f k) in *.
  assert (HQ : 0 < 2 ^ (2 * q - 64)) by (apply Z.pow_pos_nonneg; lia).
  (* r / 2^s as a quotient of phi *)
  assert (Main : forall t, 0 <= t <= q1 -> 0 <= 64 - t + mb < 64 ->
     r / 2 ^ (64 - t + mb) = 2 ^ t * ph / 2 ^ (2 * q + mb) /\ 0 <= r / 2 ^ (64 - t + mb) < 2 ^ 32).
  { intros t Ht Hs. split.
    - rewrite E. rewrite div_div by (try assumption; apply Z.pow_pos_nonneg; lia).
      rewrite <- Z.pow_add_r by lia.
      apply div_eq_cross; try (apply Z.pow_pos_nonneg; lia).
      replace (2 * q + mb) with (t + (2 * q - 64 + (64 - t + mb))) by lia.
      rewrite (Z.pow_add_r 2 t) by lia. ring.
    - split; [apply div_nonneg; [apply Z.pow_pos_nonneg; lia | lia]|].
      apply div_lt; [apply Z.pow_pos_nonneg; lia|].
      apply Z.lt_le_trans with (2 ^ 64); [lia|]. rewrite <- Z.pow_add_r by lia.
      apply Z.pow_le_mono_r; lia. }
  assert (G4 : 4 * unit f = 2 ^ q1).
  { rewrite Eu. change 4 with (2 ^ 2). rewrite <- Z.pow_add_r by lia. f_equal; lia. }
  assert (G2 : 2 * unit f = 2 ^ (q1 - 1)).
  { rewrite Eu. rewrite <- (Z.pow_succ_r 2 (q1 - 2)) by lia. f_equal; lia. }
  destruct (Main q1 ltac:(lia) ltac:(lia)) as [M1 M1'].
  destruct (Main (q1 - 1) ltac:(lia) ltac:(lia)) as [M2 M2'].
  destruct tag, edge; cbn [delta_units bind]; rewrite shr_ok by lia; cbn [bind]; f_equal.
  all: try (rewrite wrap_small by exact M1'; rewrite M1, <- G4; reflexivity).
  2: (rewrite wrap_small by exact M2'; rewrite M2, <- G2; reflexivity).
  (* nearest, shorter interval *)
  rewrite !shiftr_div in HH by lia. rewrite <- E in HH.
  rewrite !shiftr_div by lia.
  assert (Hr12 : 0 <= r / 2 ^ 1 + r / 2 ^ 2 < 2 ^ 64).
  { pose proof (Z.div_pos r (2 ^ 1) ltac:(lia) ltac:(lia)).
    pose proof (Z.div_pos r (2 ^ 2) ltac:(lia) ltac:(lia)).
    pose proof (Z.mul_div_le r (2 ^ 1) ltac:(lia)).
    pose proof (Z.mul_div_le r (2 ^ 2) ltac:(lia)).
    change (2 ^ 1) with 2 in *. change (2 ^ 2) with 4 in *. lia. }
  rewrite (wrap_small 64) by exact Hr12.
  assert (S1 : (r / 2 ^ 1 + r / 2 ^ 2) / 2 ^ (64 - q1 + mb) = 3 * unit f * ph / 2 ^ (2 * q + mb)).
  { replace (64 - q1 + mb) with (64 - q1 + 2 + (mb - 2)) by lia.
    rewrite (Z.pow_add_r 2 (64 - q1 + 2)) by lia.
    rewrite <- div_div by (apply Z.pow_pos_nonneg; lia).
    rewrite HH. rewrite div_div by (apply Z.pow_pos_nonneg; lia).
    rewrite <- Z.pow_add_r by lia.
    apply div_eq_cross; try (apply Z.pow_pos_nonneg; lia).
    rewrite Eu.
    replace (2 * q + mb) with (q1 - 2 + (2 * q - 64 + (64 - q1 + 2) + 2 + (mb - 2))) by lia.
    rewrite (Z.pow_add_r 2 (q1 - 2)) by lia. ring. }
  rewrite wrap_small; [exact S1|].
  split; [apply div_nonneg; [apply Z.pow_pos_nonneg; lia | lia]|].
  apply div_lt; [apply Z.pow_pos_nonneg; lia|].
  apply Z.lt_le_trans with (2 ^ 64); [lia|]. rewrite <- Z.pow_add_r by lia.
  apply Z.pow_le_mono_r; lia.
Qed.
