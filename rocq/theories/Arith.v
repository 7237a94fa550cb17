(** * Exactness of the arithmetic helpers (128-bit products, powers, divisibility, logarithm floors) *)

From Coq Require Import ZArith List Bool Lia Znumtheory.
From Verif Require Import Machine Tables Model.
Import ListNotations.
Open Scope Z_scope.

(** ** Basic facts on wrapping and shifting *)

Lemma wrap_small w x : 0 <= x < 2 ^ w -> wrap w x = x.
Proof. intros H; unfold wrap; apply Z.mod_small; exact H. Qed.

Lemma wrap_range w x : 0 <= w -> 0 <= wrap w x < 2 ^ w.
Proof. intros H; unfold wrap; apply Z.mod_pos_bound, Z.pow_pos_nonneg; lia. Qed.

Lemma shiftr_div x n : 0 <= n -> Z.shiftr x n = x / 2 ^ n.
Proof. intros; apply Z.shiftr_div_pow2; lia. Qed.

Lemma shiftl_mul x n : 0 <= n -> Z.shiftl x n = x * 2 ^ n.
Proof. intros; apply Z.shiftl_mul_pow2; lia. Qed.

Lemma div_div x a b : 0 < a -> 0 < b -> x / a / b = x / (a * b).
Proof. intros; apply Z.div_div; lia. Qed.

Lemma div_lt x a b : 0 < a -> x < a * b -> x / a < b.
Proof. intros; apply Z.div_lt_upper_bound; lia. Qed.

Lemma div_nonneg x a : 0 < a -> 0 <= x -> 0 <= x / a.
Proof. intros; apply Z.div_pos; lia. Qed.

Ltac pow_consts :=
  change (2 ^ 32) with 4294967296 in *; change (2 ^ 64) with 18446744073709551616 in *;
  change (2 ^ 96) with 79228162514264337593543950336 in *;
  change (2 ^ 128) with 340282366920938463463374607431768211456 in *.

(** ** Wide multiplication *)

Lemma mul_range x y a b : 0 <= x < a -> 0 <= y < b -> 0 <= x * y < a * b.
Proof. intros; nia. Qed.

Lemma umul64_exact x y : 0 <= x < 2 ^ 32 -> 0 <= y < 2 ^ 32 -> umul64 x y = x * y.
Proof.
  intros Hx Hy; unfold umul64.
  pose proof (mul_range _ _ _ _ Hx Hy) as H.
  rewrite (wrap_small 64 x), (wrap_small 64 y).
  - apply wrap_small; pow_consts; lia.
  - pow_consts; lia.
  - pow_consts; lia.
Qed.

(** The portable branch: high and low half of the product of two 64-bit numbers. *)
Lemma portable_exact x y :
  0 <= x < 2 ^ 64 -> 0 <= y < 2 ^ 64 ->
  let '(ac, bc, ad, bd, i) := portable_intermediate x y in
  wrap 64 (wrap 64 (wrap 64 (ac + Z.shiftr i 32) + Z.shiftr ad 32) + Z.shiftr bc 32)
    = x * y / 2 ^ 64
  /\ wrap 64 (wrap 64 (Z.shiftl i 32) + wrap 32 bd) = (x * y) mod 2 ^ 64.
Proof.
  intros Hx Hy; unfold portable_intermediate.
  rewrite !shiftr_div, shiftl_mul by lia.
  assert (Ha : 0 <= x / 2 ^ 32 < 2 ^ 32).
  { split; [apply div_nonneg; [reflexivity | lia] | apply div_lt; [reflexivity | pow_consts; lia]]. }
  assert (Hc : 0 <= y / 2 ^ 32 < 2 ^ 32).
  { split; [apply div_nonneg; [reflexivity | lia] | apply div_lt; [reflexivity | pow_consts; lia]]. }
  rewrite (wrap_small 32 (x / 2 ^ 32)), (wrap_small 32 (y / 2 ^ 32)) by assumption.
  assert (Hb := wrap_range 32 x ltac:(lia)).
  assert (Hd := wrap_range 32 y ltac:(lia)).
  assert (Ex : x = x / 2 ^ 32 * 2 ^ 32 + wrap 32 x).
  { unfold wrap. rewrite Z.mul_comm. apply Z.div_mod. discriminate. }
  assert (Ey : y = y / 2 ^ 32 * 2 ^ 32 + wrap 32 y).
  { unfold wrap. rewrite Z.mul_comm. apply Z.div_mod. discriminate. }
  revert Ha Hb Hc Hd Ex Ey.
  generalize (x / 2 ^ 32) (wrap 32 x) (y / 2 ^ 32) (wrap 32 y).
  intros a b c d Ha Hb Hc Hd Ex Ey; subst x y.
  rewrite !umul64_exact by assumption.
  pose proof (mul_range _ _ _ _ Ha Hc) as Hac.
  pose proof (mul_range _ _ _ _ Hb Hc) as Hbc.
  pose proof (mul_range _ _ _ _ Ha Hd) as Had.
  pose proof (mul_range _ _ _ _ Hb Hd) as Hbd.
  assert (Hac' : a * c <= (2 ^ 32 - 1) * (2 ^ 32 - 1)) by (pow_consts; nia).
  assert (E : (a * 2 ^ 32 + b) * (c * 2 ^ 32 + d)
          = a * c * 2 ^ 64 + (b * c) * 2 ^ 32 + (a * d) * 2 ^ 32 + b * d).
  { change (2 ^ 64) with (2 ^ 32 * 2 ^ 32). ring. }
  assert (Hprod : (a * 2 ^ 32 + b) * (c * 2 ^ 32 + d) < 2 ^ 128).
  { change (2 ^ 128) with (2 ^ 64 * 2 ^ 64).
    apply Z.mul_lt_mono_nonneg; pow_consts; lia. }
  rewrite E in *. clear Hx Hy.
  revert Hac Hbc Had Hbd Hac' Hprod.
  generalize (a * c) (b * c) (a * d) (b * d).
  clear. intros ac bc ad bd Hac Hbc Had Hbd Hac' Hprod.
  unfold wrap.
  pose proof (Z.div_mod bd (2 ^ 32) ltac:(discriminate)) as E1.
  pose proof (Z.div_mod bc (2 ^ 32) ltac:(discriminate)) as E2.
  pose proof (Z.div_mod ad (2 ^ 32) ltac:(discriminate)) as E3.
  pose proof (Z.mod_pos_bound bd (2 ^ 32) eq_refl) as M1.
  pose proof (Z.mod_pos_bound bc (2 ^ 32) eq_refl) as M2.
  pose proof (Z.mod_pos_bound ad (2 ^ 32) eq_refl) as M3.
  revert E1 E2 E3 M1 M2 M3.
  generalize (bd / 2 ^ 32) (bd mod 2 ^ 32) (bc / 2 ^ 32) (bc mod 2 ^ 32) (ad / 2 ^ 32) (ad mod 2 ^ 32).
  intros b1 b0 c1 c0 d1 d0 E1 E2 E3 M1 M2 M3.
  change (2 ^ (2 * 32)) with (2 ^ 64) in *.
  rewrite (Z.mod_small (b1 + d0)) by (pow_consts; lia).
  rewrite (Z.mod_small (b1 + d0 + c0)) by (pow_consts; lia).
  pose proof (Z.div_mod (b1 + d0 + c0) (2 ^ 32) ltac:(discriminate)) as E4.
  pose proof (Z.mod_pos_bound (b1 + d0 + c0) (2 ^ 32) eq_refl) as M4.
  assert (Hlow : ((b1 + d0 + c0) * 2 ^ 32) mod 2 ^ 64 = ((b1 + d0 + c0) mod 2 ^ 32) * 2 ^ 32).
  { change (2 ^ 64) with (2 ^ 32 * 2 ^ 32). apply Z.mul_mod_distr_r; discriminate. }
  rewrite Hlow. clear Hlow.
  revert E4 M4. generalize ((b1 + d0 + c0) / 2 ^ 32) ((b1 + d0 + c0) mod 2 ^ 32).
  intros i1 i0 E4 M4.
  rewrite (Z.mod_small (i0 * 2 ^ 32 + b0)) by (pow_consts; lia).
  assert (E5 : ac * 2 ^ 64 + bc * 2 ^ 32 + ad * 2 ^ 32 + bd
          = (ac + i1 + d1 + c1) * 2 ^ 64 + (i0 * 2 ^ 32 + b0)).
  { subst bc ad bd. pow_consts. lia. }
  rewrite E5.
  assert (R : 0 <= i0 * 2 ^ 32 + b0 < 2 ^ 64) by (pow_consts; lia).
  split.
  - rewrite (Z.mod_small (ac + i1)) by (pow_consts; lia).
    rewrite (Z.mod_small (ac + i1 + d1)) by (pow_consts; lia).
    rewrite (Z.mod_small (ac + i1 + d1 + c1)) by (pow_consts; lia).
    rewrite Z.div_add_l by discriminate. rewrite Z.div_small by exact R. lia.
  - rewrite (Z.add_comm (_ * 2 ^ 64)), Z.mod_add by discriminate. rewrite Z.mod_small by exact R. reflexivity.
Qed.

Lemma prod_shift_range x y : 0 <= x < 2 ^ 64 -> 0 <= y < 2 ^ 64 -> 0 <= x * y / 2 ^ 64 < 2 ^ 64.
Proof.
  intros Hx Hy. pose proof (mul_range _ _ _ _ Hx Hy).
  split; [apply div_nonneg; [reflexivity | lia] | apply div_lt; [reflexivity | lia]].
Qed.

Lemma umul128_exact cfg x y :
  0 <= x < 2 ^ 64 -> 0 <= y < 2 ^ 64 ->
  u128_high (umul128 cfg x y) = x * y / 2 ^ 64 /\ u128_low (umul128 cfg x y) = (x * y) mod 2 ^ 64.
Proof.
  intros Hx Hy.
  pose proof (mul_range _ _ _ _ Hx Hy) as H.
  pose proof (prod_shift_range x y Hx Hy) as H'.
  unfold umul128; destruct (cfg_mul cfg).
  - unfold u128_of_internal; cbn [u128_high u128_low].
    rewrite (wrap_small 128) by (change (2 ^ 128) with (2 ^ 64 * 2 ^ 64); lia).
    rewrite shiftr_div by lia. split; [apply wrap_small; lia | reflexivity].
  - cbn [u128_high u128_low]. rewrite shiftr_div by lia.
    split; [apply wrap_small; lia | reflexivity].
  - pose proof (portable_exact x y Hx Hy) as P.
    destruct (portable_intermediate x y) as [[[[ac bc] ad] bd] i].
    cbn [u128_high u128_low]. exact P.
Qed.

Lemma umul128_upper64_exact cfg x y :
  0 <= x < 2 ^ 64 -> 0 <= y < 2 ^ 64 -> umul128_upper64 cfg x y = x * y / 2 ^ 64.
Proof.
  intros Hx Hy.
  pose proof (mul_range _ _ _ _ Hx Hy) as H.
  pose proof (prod_shift_range x y Hx Hy) as H'.
  unfold umul128_upper64; destruct (cfg_mul cfg).
  - rewrite (wrap_small 128) by (change (2 ^ 128) with (2 ^ 64 * 2 ^ 64); lia).
    rewrite shiftr_div by lia. apply wrap_small; lia.
  - rewrite shiftr_div by lia. apply wrap_small; lia.
  - pose proof (portable_exact x y Hx Hy) as P.
    destruct (portable_intermediate x y) as [[[[ac bc] ad] bd] i]. exact (proj1 P).
Qed.

(** value of a 128-bit pair *)
Definition u128_val (v : uint128) : Z := u128_high v * 2 ^ 64 + u128_low v.

Lemma lor_shiftl_add h l : 0 <= l < 2 ^ 64 -> 0 <= h -> Z.lor l (Z.shiftl h 64) = h * 2 ^ 64 + l.
Proof.
  intros Hl Hh. rewrite <- shiftl_mul by lia.
  rewrite Z.lor_comm. symmetry. rewrite Z.add_nocarry_lxor.
  - symmetry. apply Z.bits_inj'. intros n Hn. rewrite Z.lor_spec, Z.lxor_spec.
    destruct (Z.lt_ge_cases n 64).
    + rewrite Z.shiftl_spec_low by lia. destruct (Z.testbit l n); reflexivity.
    + assert (Z.testbit l n = false) as ->.
      { destruct (Z.eq_dec l 0) as [->|]; [apply Z.testbit_0_l|].
        apply Z.bits_above_log2; [lia|]. apply Z.log2_lt_pow2; [lia|].
        apply Z.lt_le_trans with (2 ^ 64); [lia|]. apply Z.pow_le_mono_r; lia. }
      destruct (Z.testbit _ _); reflexivity.
  - apply Z.bits_inj'. intros n Hn. rewrite Z.land_spec, Z.bits_0.
    destruct (Z.lt_ge_cases n 64).
    + rewrite Z.shiftl_spec_low by lia. reflexivity.
    + assert (Z.testbit l n = false) as ->.
      { destruct (Z.eq_dec l 0) as [->|]; [apply Z.testbit_0_l|].
        apply Z.bits_above_log2; [lia|]. apply Z.log2_lt_pow2; [lia|].
        apply Z.lt_le_trans with (2 ^ 64); [lia|]. apply Z.pow_le_mono_r; lia. }
      apply andb_false_r.
Qed.

Lemma umul192_upper64_exact cfg x y :
  0 <= x < 2 ^ 64 -> 0 <= u128_high y < 2 ^ 64 -> 0 <= u128_low y < 2 ^ 64 ->
  umul192_upper64 cfg x y = x * u128_val y / 2 ^ 128.
Proof.
  intros Hx Hh Hl. unfold umul192_upper64, u128_val.
  destruct (umul128_exact cfg x (u128_high y) Hx Hh) as [E1 E2].
  rewrite umul128_upper64_exact by assumption.
  destruct (umul128 cfg x (u128_high y)) as [g0h g0l]; cbn [u128_high u128_low] in *.
  pose proof (prod_shift_range _ _ Hx Hl) as Hg10.
  pose proof (mul_range _ _ _ _ Hx Hh) as Hp.
  assert (Hlow : 0 <= g0l < 2 ^ 64).
  { subst g0l. apply Z.mod_pos_bound. reflexivity. }
  assert (Hhigh : 0 <= g0h < 2 ^ 64).
  { subst g0h. apply prod_shift_range; assumption. }
  assert (Ep : x * u128_high y = g0h * 2 ^ 64 + g0l).
  { subst g0h g0l. rewrite Z.mul_comm with (m := 2 ^ 64). apply Z.div_mod; discriminate. }
  assert (Hb : x * u128_high y <= (2 ^ 64 - 1) * (2 ^ 64 - 1)) by (pow_consts; nia).
  set (g10 := x * u128_low y / 2 ^ 64) in *.
  assert (Eg : x * u128_low y = g10 * 2 ^ 64 + (x * u128_low y) mod 2 ^ 64).
  { unfold g10. rewrite Z.mul_comm with (m := 2 ^ 64). apply Z.div_mod; discriminate. }
  pose proof (Z.mod_pos_bound (x * u128_low y) (2 ^ 64) eq_refl) as Hm.
  assert (Goal_eq : x * (u128_high y * 2 ^ 64 + u128_low y) / 2 ^ 128 = g0h + (g0l + g10) / 2 ^ 64).
  { replace (x * (u128_high y * 2 ^ 64 + u128_low y))
      with ((g0h * 2 ^ 64 + (g0l + g10)) * 2 ^ 64 + (x * u128_low y) mod 2 ^ 64)
      by (rewrite Z.mul_add_distr_l, Z.mul_assoc, Ep; lia).
    change (2 ^ 128) with (2 ^ 64 * 2 ^ 64). rewrite <- div_div by reflexivity.
    rewrite Z.div_add_l by discriminate. rewrite (Z.div_small _ _ Hm), Z.add_0_r.
    rewrite Z.div_add_l by discriminate. reflexivity. }
  rewrite Goal_eq.
  assert (Hc : 0 <= (g0l + g10) / 2 ^ 64 <= 1).
  { split; [apply div_nonneg; [reflexivity | lia]|].
    apply Z.lt_succ_r. apply div_lt; [reflexivity|]. pow_consts; lia. }
  assert (Hsum : g0h + (g0l + g10) / 2 ^ 64 < 2 ^ 64) by (pow_consts; lia).
  destruct (cfg_mul cfg).
  - unfold u128_of_internal, u128_internal; cbn [u128_high u128_low].
    rewrite lor_shiftl_add by lia.
    assert (Hsmall : 0 <= g0h * 2 ^ 64 + g0l + g10 < 2 ^ 128) by (pow_consts; lia).
    rewrite (wrap_small 128) by exact Hsmall. rewrite shiftr_div by lia.
    rewrite <- Z.add_assoc, Z.div_add_l by discriminate. apply wrap_small. lia.
  - rewrite shiftr_div by lia. apply wrap_small. lia.
  - assert (D := Z.div_mod (g0l + g10) (2 ^ 64) ltac:(discriminate)).
    pose proof (Z.mod_pos_bound (g0l + g10) (2 ^ 64) eq_refl) as Hm2.
    unfold wrap at 2.
    destruct (Z.ltb_spec ((g0l + g10) mod 2 ^ 64) g10) as [L|L].
    + assert ((g0l + g10) / 2 ^ 64 = 1) as -> by (pow_consts; lia). apply wrap_small. pow_consts; lia.
    + assert ((g0l + g10) / 2 ^ 64 = 0) as -> by (pow_consts; lia). apply wrap_small. lia.
Qed.

Lemma umul96_upper32_exact cfg x y :
  0 <= x < 2 ^ 32 -> 0 <= y < 2 ^ 64 -> umul96_upper32 cfg x y = x * y / 2 ^ 64.
Proof.
  intros Hx Hy. unfold umul96_upper32.
  pose proof (mul_range _ _ _ _ Hx Hy) as H.
  assert (Hr : 0 <= x * y / 2 ^ 64 < 2 ^ 32).
  { split; [apply div_nonneg; [reflexivity | lia] | apply div_lt; [reflexivity | lia]]. }
  destruct (cfg_x64 cfg).
  - rewrite umul128_upper64_exact by (pow_consts; lia). apply wrap_small. exact Hr.
  - rewrite !shiftr_div by lia.
    assert (Hc : 0 <= y / 2 ^ 32 < 2 ^ 32).
    { split; [apply div_nonneg; [reflexivity | lia] | apply div_lt; [reflexivity | pow_consts; lia]]. }
    rewrite (wrap_small 32 (y / 2 ^ 32)) by exact Hc.
    assert (Hd := wrap_range 32 y ltac:(lia)).
    rewrite !umul64_exact by assumption.
    pose proof (mul_range _ _ _ _ Hx Hc) as B1. pose proof (mul_range _ _ _ _ Hx Hd) as B2.
    assert (Ey : y = y / 2 ^ 32 * 2 ^ 32 + wrap 32 y).
    { unfold wrap. rewrite Z.mul_comm. apply Z.div_mod. discriminate. }
    assert (B3 : 0 <= x * wrap 32 y / 2 ^ 32 < 2 ^ 32).
    { split; [apply div_nonneg; [reflexivity | lia] | apply div_lt; [reflexivity | lia]]. }
    assert (B4 : x * (y / 2 ^ 32) <= (2 ^ 32 - 1) * (2 ^ 32 - 1)) by (pow_consts; nia).
    assert (E : (x * wrap 32 y / 2 ^ 32 + x * (y / 2 ^ 32)) = x * y / 2 ^ 32).
    { rewrite Ey at 3. rewrite Z.mul_add_distr_l, Z.mul_assoc, Z.div_add_l by discriminate. lia. }
    rewrite (wrap_small 64) by (pow_consts; lia).
    rewrite E, div_div by reflexivity. change (2 ^ 32 * 2 ^ 32) with (2 ^ 64).
    apply wrap_small. exact Hr.
Qed.

(** ** Powers and divisibility *)

Lemma compute_power_mod w b e : 0 <= w -> compute_power w b e = (b ^ Z.of_nat e) mod 2 ^ w.
Proof.
  intros Hw. assert (0 < 2 ^ w) by (apply Z.pow_pos_nonneg; lia).
  induction e as [|e IH]; cbn [compute_power].
  - reflexivity.
  - rewrite IH. unfold wrap. rewrite Zmult_mod_idemp_l. f_equal.
    rewrite Nat2Z.inj_succ, Z.pow_succ_r by lia. ring.
Qed.

Lemma compute_power_exact w b e : 0 <= w -> 0 <= b -> b ^ Z.of_nat e < 2 ^ w ->
  compute_power w b e = b ^ Z.of_nat e.
Proof.
  intros Hw Hb H. rewrite compute_power_mod by exact Hw. apply Z.mod_small.
  split; [apply Z.pow_nonneg; exact Hb | exact H].
Qed.

Lemma power_of_10_exact f n : 0 <= n -> 10 ^ n < 2 ^ extended_precision f -> power_of_10 f n = 10 ^ n.
Proof.
  intros Hn H. unfold power_of_10. rewrite compute_power_exact; rewrite ?Z2Nat.id by lia; try lia.
  destruct f; cbn; lia.
Qed.

Lemma pos_ctz_nonneg p : 0 <= pos_ctz p.
Proof. induction p; cbn [pos_ctz]; lia. Qed.

Lemma pos_ctz_divide p n : 0 <= n -> (n <= pos_ctz p <-> (2 ^ n | Zpos p)).
Proof.
  revert n. induction p as [p IH|p IH|]; intros n Hn; cbn [pos_ctz].
  - split.
    + intros H. assert (n = 0) as -> by lia. apply Z.divide_1_l.
    + intros [q Hq]. destruct (Z.eq_dec n 0); [lia|].
      replace n with (1 + (n - 1)) in Hq by lia. rewrite Z.pow_add_r in Hq by lia.
      change (2 ^ 1) with 2 in Hq. exfalso. lia.
  - destruct (Z.eq_dec n 0) as [->|Hn0].
    + split; intros _; [apply Z.divide_1_l | pose proof (pos_ctz_nonneg p); lia].
    + specialize (IH (n - 1) ltac:(lia)).
      assert (E : 2 ^ n = 2 * 2 ^ (n - 1)).
      { rewrite <- Z.pow_succ_r by lia. f_equal; lia. }
      rewrite E. change (Z.pos p~0) with (2 * Z.pos p).
      split.
      * intros H. apply Z.mul_divide_mono_l. apply IH. lia.
      * intros H. apply Z.mul_divide_cancel_l in H; [|discriminate]. apply IH in H. lia.
  - split.
    + intros H. assert (n = 0) as -> by lia. apply Z.divide_1_l.
    + intros H. apply Z.divide_pos_le in H; [|lia].
      destruct (Z.eq_dec n 0); [lia|]. assert (2 ^ 1 <= 2 ^ n) by (apply Z.pow_le_mono_r; lia). lia.
Qed.

Lemma divide_mod_eqb a b : 0 < a -> (b mod a =? 0) = true <-> (a | b).
Proof. intros. rewrite Z.eqb_eq. apply Z.mod_divide. lia. Qed.

Definition divb (a b : Z) : bool := b mod a =? 0.
Lemma divb_true a b : 0 < a -> divb a b = true <-> (a | b).
Proof. apply divide_mod_eqb. Qed.

Lemma land_mask x n : 0 <= n -> Z.land x (2 ^ n - 1) = x mod 2 ^ n.
Proof. intros. rewrite <- Z.land_ones by lia. rewrite Z.ones_equiv. reflexivity. Qed.

Lemma divisible_by_power_of_2_exact cfg w x exp :
  0 < w -> 0 < x < 2 ^ w -> 1 <= exp ->
  divisible_by_power_of_2 cfg w x exp = Ok (divb (2 ^ exp) x).
Proof.
  intros Hw Hx He. unfold divisible_by_power_of_2, cassert.
  rewrite (proj2 (Z.leb_le 1 exp) He).
  assert (x =? 0 = false) as -> by (apply Z.eqb_neq; lia).
  assert (P2 : 0 < 2 ^ exp) by (apply Z.pow_pos_nonneg; lia).
  destruct (cfg_ndebug cfg); cbn [negb bind];
  (destruct (cfg_ctz cfg);
   [ f_equal; apply eq_iff_eq_true; rewrite Z.leb_le, divb_true by exact P2;
     destruct x as [|p|p]; try lia; cbn [ctz]; apply pos_ctz_divide; lia
   | f_equal; apply eq_iff_eq_true; rewrite Z.leb_le, divb_true by exact P2;
     destruct x as [|p|p]; try lia; cbn [ctz]; apply pos_ctz_divide; lia
   | destruct (Z.leb_spec w exp) as [L|L];
     [ f_equal; symmetry; apply not_true_is_false; rewrite divb_true by exact P2;
       intros H; apply Z.divide_pos_le in H; [|lia];
       assert (2 ^ w <= 2 ^ exp) by (apply Z.pow_le_mono_r; lia); lia
     | unfold shl; rewrite (proj2 (Z.leb_le 0 exp)) by lia; rewrite (proj2 (Z.ltb_lt exp w) L);
       cbn [andb bind]; rewrite shiftl_mul, Z.mul_1_l by lia;
       assert (2 ^ exp < 2 ^ w) by (apply Z.pow_lt_mono_r; lia);
       rewrite (wrap_small w (2 ^ exp)) by lia; rewrite wrap_small by lia;
       rewrite land_mask by lia; reflexivity ] ]).
Qed.

(** The modular inverse computed by the squaring loop. *)
Lemma mod_inv_32 : (5 * compute_modular_inverse_of_5 32) mod 2 ^ 32 = 1.
Proof. vm_compute; reflexivity. Qed.
Lemma mod_inv_64 : (5 * compute_modular_inverse_of_5 64) mod 2 ^ 64 = 1.
Proof. vm_compute; reflexivity. Qed.

(** Granlund-Montgomery: with m*inv = 1 mod M, x divisible by m iff x*inv mod M <= (M-1)/m. *)
Lemma granlund M m inv x : 0 < m -> 0 < M -> (m * inv) mod M = 1 mod M -> 0 <= x < M -> m < M ->
  ((x * inv) mod M <=? (M - 1) / m) = divb m x.
Proof.
  intros Hm HM Hinv Hx HmM. apply eq_iff_eq_true. rewrite Z.leb_le, divb_true by exact Hm.
  split.
  - intros H. set (t := (x * inv) mod M) in *.
    assert (Ht : 0 <= t < M) by (apply Z.mod_pos_bound; lia).
    assert (m * t <= M - 1).
    { transitivity (m * ((M - 1) / m)); [nia|]. apply Z.mul_div_le; lia. }
    assert (E : (m * t) mod M = x mod M).
    { unfold t. rewrite Zmult_mod_idemp_r. replace (m * (x * inv)) with (x * (m * inv)) by ring.
      rewrite <- Zmult_mod_idemp_r, Hinv, Zmult_mod_idemp_r, Z.mul_1_r. reflexivity. }
    rewrite !Z.mod_small in E by nia. exists t. lia.
  - intros [t Ht]. subst x.
    assert (0 <= t) by nia.
    assert (E : (t * m * inv) mod M = t).
    { replace (t * m * inv) with (t * (m * inv)) by ring.
      rewrite <- Zmult_mod_idemp_r, Hinv, Zmult_mod_idemp_r, Z.mul_1_r.
      apply Z.mod_small. nia. }
    rewrite E. apply Z.div_le_lower_bound; lia.
Qed.

Lemma inv_pow_mod M a b i : 1 < M -> (a * b) mod M = 1 ->
  (a ^ Z.of_nat i * b ^ Z.of_nat i) mod M = 1 mod M.
Proof.
  intros HM H. rewrite <- Z.pow_mul_l. induction i as [|i IH].
  - reflexivity.
  - rewrite Nat2Z.inj_succ, Z.pow_succ_r by lia.
    rewrite Z.mul_mod, IH, H by lia. rewrite !Z.mod_1_l by lia. reflexivity.
Qed.

Lemma read_array_ok {A} (l : list A) i a : 0 <= i -> nth_error l (Z.to_nat i) = Some a ->
  read_array l i = Ok a.
Proof.
  intros Hi H. unfold read_array. rewrite (proj2 (Z.ltb_ge i 0)) by lia. rewrite H. reflexivity.
Qed.

Lemma divisibility_table_nth w size i : (i < size)%nat ->
  nth_error (generate_divisibility_test_table w size) i
  = Some ((2 ^ w - 1) / compute_power w 5 i, compute_power w (compute_modular_inverse_of_5 w) i).
Proof.
  intros H. unfold generate_divisibility_test_table. cbv zeta.
  erewrite map_nth_error; [reflexivity|].
  rewrite nth_error_nth' with (d := 0%nat) by (rewrite seq_length; lia).
  f_equal. apply seq_nth. lia.
Qed.

Lemma divisible_by_power_of_5_exact cfg f x exp :
  0 <= x < 2 ^ extended_precision f -> 0 <= exp < Z.of_nat (divisibility_table_size f) ->
  divisible_by_power_of_5 cfg f (extended_precision f) x exp = Ok (divb (5 ^ exp) x).
Proof.
  intros Hx He. unfold divisible_by_power_of_5.
  assert (He32 : wrap 32 exp = exp).
  { apply wrap_small. destruct f; cbn in He; pow_consts; lia. }
  cbv zeta. rewrite He32. unfold cassert. rewrite (proj2 (Z.ltb_lt exp _)) by lia.
  destruct (cfg_ndebug cfg); cbn [bind].
  all: erewrite read_array_ok; [| lia | apply divisibility_table_nth; lia].
  all: cbn [bind fst snd]; f_equal.
  all: assert (P5 : 0 < 5 ^ exp) by (apply Z.pow_pos_nonneg; lia).
  all: assert (B5 : 5 ^ exp < 2 ^ extended_precision f) by
    (apply Z.le_lt_trans with (5 ^ (Z.of_nat (divisibility_table_size f) - 1));
     [apply Z.pow_le_mono_r; lia | destruct f; reflexivity]).
  all: rewrite (compute_power_exact _ 5) by (rewrite ?Z2Nat.id by lia; destruct f; cbn; lia || exact B5).
  all: rewrite (compute_power_mod _ (compute_modular_inverse_of_5 _)) by (destruct f; cbn; lia).
  all: unfold wrap; rewrite Zmult_mod_idemp_r, Z2Nat.id by lia.
  all: apply granlund; [exact P5 | destruct f; reflexivity | | exact Hx | exact B5].
  all: rewrite <- (Z2Nat.id exp) by lia; apply inv_pow_mod;
    [destruct f; reflexivity | destruct f; [exact mod_inv_32 | exact mod_inv_64]].
Qed.
