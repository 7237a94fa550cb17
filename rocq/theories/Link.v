(** * Steps 1-3: from the bit pattern to the search *)

From Coq Require Import ZArith List Bool Lia.
From Verif Require Import Machine Tables Model Arith ExpFacts Products IntCheck Core.
Import ListNotations.
Open Scope Z_scope.

(** the fields of a bit pattern, and the integers n, e with value n * 2^(e + exponent_bits) *)
Definition frac (f : fmt) (x : Z) : Z := x mod 2 ^ precision f.
Definition expo (f : fmt) (x : Z) : Z := (x / 2 ^ precision f) mod 2 ^ exponent_bits f.
Definition n_of (f : fmt) (x : Z) : Z :=
  if expo f x =? 0 then frac f x else 2 ^ precision f + frac f x.
Definition e_of (f : fmt) (x : Z) : Z :=
  if expo f x =? 0 then exp_min f else exp_min f + expo f x - 1.

Lemma pp f : 0 < 2 ^ precision f. Proof. destruct f; reflexivity. Qed.
Lemma pe f : 0 < 2 ^ exponent_bits f. Proof. destruct f; reflexivity. Qed.
Lemma frac_range f x : 0 <= frac f x < 2 ^ precision f.
Proof. apply Z.mod_pos_bound, pp. Qed.
Lemma expo_range f x : 0 <= expo f x < 2 ^ exponent_bits f.
Proof. apply Z.mod_pos_bound, pe. Qed.

Lemma lor_top b p : 0 <= p -> 0 <= b < 2 ^ p -> Z.lor b (2 ^ p) = b + 2 ^ p.
Proof.
  intros Hp Hb. rewrite <- Z.lxor_lor, <- Z.add_nocarry_lxor; [reflexivity| |].
  all: apply Z.bits_inj'; intros i Hi; rewrite Z.land_spec, Z.bits_0, Z.pow2_bits_eqb by lia;
    destruct (Z.eqb_spec p i) as [<-|]; [|apply andb_false_r]; rewrite andb_true_r;
    destruct (Z.eq_dec b 0) as [->|]; [apply Z.bits_0|];
    apply Z.bits_above_log2; [lia|]; apply Z.log2_lt_pow2; lia.
Qed.

Lemma mask_mod x p k : 0 <= p -> 0 <= k -> Z.land x (Z.shiftl (Z.shiftl 1 k - 1) p) = ((x / 2 ^ p) mod 2 ^ k) * 2 ^ p.
Proof.
  intros Hp Hk. rewrite <- Z.land_ones, <- Z.shiftr_div_pow2, <- Z.shiftl_mul_pow2 by assumption.
  rewrite Z.ones_equiv, Z.shiftl_1_l, Z.sub_1_r.
  apply Z.bits_inj'; intros i Hi. rewrite Z.land_spec.
  destruct (Z.lt_ge_cases i p).
  - rewrite !Z.shiftl_spec_low by lia. apply andb_false_r.
  - rewrite !Z.shiftl_spec by lia. rewrite Z.land_spec, Z.shiftr_spec by lia.
    replace (i - p + p) with i by lia. reflexivity.
Qed.

Lemma is_finite_expo f x : is_finite f x = negb (expo f x =? 2 ^ exponent_bits f - 1).
Proof.
  unfold is_finite, exponent_bits_mask. rewrite mask_mod by (destruct f; discriminate).
  fold (expo f x). f_equal. rewrite Z.shiftl_1_l, Z.shiftl_mul_pow2 by (destruct f; discriminate).
  pose proof (pp f).
  destruct (Z.eqb_spec (expo f x) (2 ^ exponent_bits f - 1)) as [->|N]; [apply Z.eqb_refl|].
  apply Z.eqb_neq. intros Q. apply N. apply Z.mul_cancel_r in Q; lia.
Qed.

Lemma fields f x : 0 <= x < 2 ^ extended_precision f ->
  exists s, (s = 0 \/ s = 1) /\ x = s * 2 ^ (extended_precision f - 1) + expo f x * 2 ^ precision f + frac f x
   /\ is_negative f x = (s =? 1).
Proof.
  intros Hx. exists (x / 2 ^ (extended_precision f - 1)).
  assert (E : 2 ^ extended_precision f = 2 * 2 ^ (extended_precision f - 1)) by (destruct f; reflexivity).
  assert (E2 : 2 ^ (extended_precision f - 1) = 2 ^ precision f * 2 ^ exponent_bits f) by (destruct f; reflexivity).
  pose proof (pp f) as P1. pose proof (pe f) as P2.
  assert (P3 : 0 < 2 ^ (extended_precision f - 1)) by (destruct f; reflexivity).
  assert (R : 0 <= x / 2 ^ (extended_precision f - 1) < 2).
  { split; [apply Z.div_pos; lia | apply Z.div_lt_upper_bound; lia]. }
  split; [lia|]. split.
  - unfold expo, frac. rewrite E2.
    pose proof (Z.div_mod x (2 ^ precision f) ltac:(lia)) as D1.
    pose proof (Z.div_mod (x / 2 ^ precision f) (2 ^ exponent_bits f) ltac:(lia)) as D2.
    rewrite Z.div_div in D2 by lia. rewrite D1 at 1. rewrite D2 at 1. ring.
  - unfold is_negative. rewrite Z.shiftr_div_pow2 by (destruct f; discriminate).
    set (q := x / _) in *. assert (q = 0 \/ q = 1) as [-> | ->] by lia; reflexivity.
Qed.

Lemma is_nonzero_fields f x : 0 <= x < 2 ^ extended_precision f ->
  is_nonzero f x = negb ((expo f x =? 0) && (frac f x =? 0)).
Proof.
  intros Hx. destruct (fields f x Hx) as (s & Hs & Ex & _).
  unfold is_nonzero. f_equal. unfold wrap. rewrite Z.shiftl_mul_pow2 by lia. change (2 ^ 1) with 2.
  pose proof (pp f) as P1. pose proof (frac_range f x) as Fr. pose proof (expo_range f x) as Er.
  assert (E : 2 ^ extended_precision f = 2 * 2 ^ (extended_precision f - 1)) by (destruct f; reflexivity).
  assert (E2 : 2 ^ (extended_precision f - 1) = 2 ^ precision f * 2 ^ exponent_bits f) by (destruct f; reflexivity).
  set (a := expo f x * 2 ^ precision f + frac f x) in *.
  assert (Ra : 0 <= a < 2 ^ (extended_precision f - 1)) by (unfold a; nia).
  replace (x * 2) with (2 * a + s * 2 ^ extended_precision f) by lia.
  rewrite Z_mod_plus_full, Z.mod_small by lia.
  destruct (Z.eqb_spec (2 * a) 0) as [A|A]; symmetry.
  - assert (0 <= expo f x * 2 ^ precision f) by nia. unfold a in A.
    apply andb_true_iff. rewrite !Z.eqb_eq. split; nia.
  - apply andb_false_iff. rewrite !Z.eqb_neq. unfold a in A.
    destruct (Z.eq_dec (expo f x) 0) as [Q|Q]; [right|left; exact Q]. rewrite Q in A. lia.
Qed.

Section Finite.
Variables (f : fmt) (x : Z).
Hypothesis Hx : 0 <= x < 2 ^ extended_precision f.
Hypothesis Hfin : is_finite f x = true.
Hypothesis Hnz : is_nonzero f x = true.

Lemma expo_lt : expo f x <= 2 ^ exponent_bits f - 2.
Proof using Hfin. clear Hx Hnz.
  pose proof (expo_range f x). rewrite is_finite_expo in Hfin. apply negb_true_iff, Z.eqb_neq in Hfin. lia.
Qed.
Lemma e_of_range : exp_min f <= e_of f x <= exp_max f.
Proof using Hfin. clear Hx Hnz.
  pose proof expo_lt as L. pose proof (expo_range f x). unfold e_of.
  assert (exp_max f = exp_min f + (2 ^ exponent_bits f - 2) - 1) by (destruct f; reflexivity).
  assert (3 < 2 ^ exponent_bits f) by (destruct f; reflexivity).
  destruct (Z.eqb_spec (expo f x) 0); lia.
Qed.
Lemma n_of_range : 0 < n_of f x < 2 ^ (precision f + 1).
Proof using Hx Hnz. clear Hfin.
  rewrite is_nonzero_fields in Hnz by exact Hx. apply negb_true_iff in Hnz.
  pose proof (frac_range f x). pose proof (pp f). unfold n_of.
  assert (2 ^ (precision f + 1) = 2 * 2 ^ precision f) by (destruct f; reflexivity).
  destruct (Z.eqb_spec (expo f x) 0) as [E|E]; [|lia].
  cbn [andb] in Hnz. apply Z.eqb_neq in Hnz. lia.
Qed.
Lemma n_of_normal : e_of f x <> exp_min f -> 2 ^ precision f <= n_of f x.
Proof using Type. clear Hx Hnz Hfin.
  unfold e_of, n_of. pose proof (frac_range f x). destruct (Z.eqb_spec (expo f x) 0); lia.
Qed.

Lemma decompose_ok : decompose f x = (fc f (n_of f x), e_of f x).
Proof using Type. clear Hx Hnz Hfin.
  unfold decompose, n_of, e_of.
  assert (EE : Z.land (Z.shiftr x (precision f)) (Z.shiftr (exponent_bits_mask f) (precision f)) = expo f x).
  { assert (M : Z.shiftr (exponent_bits_mask f) (precision f) = Z.ones (exponent_bits f)) by (destruct f; reflexivity).
    rewrite M, Z.land_ones, Z.shiftr_div_pow2 by (destruct f; discriminate). reflexivity. }
  rewrite EE. clear EE.
  pose proof (pp f) as P1. pose proof (pe f) as P2.
  assert (ES : wrap (extended_precision f) (Z.shiftl x (exponent_bits f)) = (x mod 2 ^ (precision f + 1)) * 2 ^ exponent_bits f).
  { unfold wrap. rewrite Z.shiftl_mul_pow2 by (destruct f; discriminate).
    replace (2 ^ extended_precision f) with (2 ^ (precision f + 1) * 2 ^ exponent_bits f) by (destruct f; reflexivity).
    rewrite Z.mul_mod_distr_r; [reflexivity | destruct f; discriminate | lia]. }
  rewrite ES. clear ES.
  assert (P3 : 2 ^ (precision f + 1) = 2 ^ precision f * 2) by (destruct f; reflexivity).
  assert (EM : x mod 2 ^ (precision f + 1) = frac f x + 2 ^ precision f * (expo f x mod 2)).
  { rewrite P3, Z.rem_mul_r by lia. unfold frac, expo. f_equal. f_equal.
    assert (P4 : 2 ^ exponent_bits f = 2 * 2 ^ (exponent_bits f - 1)) by (destruct f; reflexivity).
    rewrite P4, Z.rem_mul_r by (destruct f; discriminate || lia).
    rewrite Z.mul_comm, Z_mod_plus_full, Z.mod_mod by lia. reflexivity. }
  rewrite EM. clear EM.
  assert (EN : normal_interval_length f = 2 ^ exponent_bits f) by (destruct f; reflexivity).
  unfold fc. rewrite EN.
  pose proof (frac_range f x) as Fr.
  destruct (Z.eqb_spec (expo f x) 0) as [E0|E0]; cbn [negb].
  - rewrite E0. rewrite Z.mod_0_l, Z.mul_0_r, Z.add_0_r by lia. reflexivity.
  - f_equal.
    + assert (SB : sign_bit_mask f = 2 ^ precision f * 2 ^ exponent_bits f) by (destruct f; reflexivity).
      rewrite SB, <- !Z.shiftl_mul_pow2 by (destruct f; discriminate). rewrite <- Z.shiftl_lor. f_equal.
      assert (Hp : 0 <= precision f) by (destruct f; discriminate).
      pose proof (Z.mod_pos_bound (expo f x) 2 ltac:(lia)).
      assert (expo f x mod 2 = 0 \/ expo f x mod 2 = 1) as [M|M] by lia; rewrite M.
      * rewrite Z.mul_0_r, Z.add_0_r, lor_top by assumption. ring.
      * rewrite Z.mul_1_r, <- lor_top, <- Z.lor_assoc, Z.lor_diag, lor_top by assumption. ring.
    + assert (exp_min f = exponent_bias f - extended_precision f + 1 + 1) by (destruct f; reflexivity). lia.
Qed.
End Finite.

(** an interval type that fits each tag; the endpoints' positions do not depend on it *)
Definition some_itv (tag : mode_tag) : interval_type :=
  match tag with right_closed_directed_tag => right_closed_left_open | _ => left_closed_right_open end.
Lemma some_itvL tag : tag = left_closed_directed_tag -> some_itv tag = left_closed_right_open.
Proof. intros ->. reflexivity. Qed.
Lemma some_itvR tag : tag = right_closed_directed_tag -> some_itv tag = right_closed_left_open.
Proof. intros ->. reflexivity. Qed.

(** the right end point in the code, also when it wraps to 0 *)
Lemma compute_zi_ok cfg f tag e n :
  exp_min f <= e <= exp_max f -> 0 < n < 2 ^ (precision f + 1) ->
  compute_zi cfg f tag (right_endpoint f tag (fc f n)) (cache_at f (kexp e)) (mbexp e) = Ok (zi f tag e n).
Proof.
  intros He Hn.
  destruct (Z.eq_dec (n + 1) (2 ^ (precision f + 1))) as [A|A].
  - destruct tag.
    + unfold compute_zi. rewrite (right_endpoint_ok f to_nearest_tag (some_itv _) e n He Hn (some_itvL _) (some_itvR _)) by discriminate.
      rewrite (mul_ok cfg f e n He Hn).
      * reflexivity.
      * unfold hi_u. lia.
      * apply (hi_lt f to_nearest_tag (some_itv _) e n He Hn (some_itvL _) (some_itvR _)). discriminate.
    + assert (R : right_endpoint f left_closed_directed_tag (fc f n) = 0).
      { unfold right_endpoint, fc. replace (n * normal_interval_length f + normal_interval_length f)
          with ((n + 1) * normal_interval_length f) by ring. rewrite A.
        unfold wrap. destruct f; reflexivity. }
      rewrite R. unfold compute_zi. cbn [Z.eqb].
      assert (Z0 : zi f left_closed_directed_tag e n
                   = phi f (kexp e) / 2 ^ (extended_precision f + mbexp e)).
      { destruct (e_basic f e He) as [_ Hmb].
        unfold zi, Z_, hi_u, ulp. replace (4 * n + 4) with (8 * 2 ^ precision f).
        2:{ replace (2 ^ (precision f + 1)) with (2 * 2 ^ precision f) in A by (destruct f; reflexivity). lia. }
        replace (8 * 2 ^ precision f * (unit f * num e)) with (8 * 2 ^ precision f * unit f * anum e (kexp e))
          by (unfold num; ring).
        unfold den. rewrite <- mul_floor_exact; [|exact He | destruct f; vm_compute; split; discriminate].
        rewrite <- pow_split. 
        replace (2 * extended_precision f + mbexp e) with (extended_precision f + (extended_precision f + mbexp e)) by ring.
        rewrite Z.pow_add_r by (pose proof (qpos f); lia).
        rewrite Z.div_mul_cancel_l; [reflexivity | |].
        - apply Z.pow_nonzero; [lia|]. pose proof (qpos f). lia.
        - apply Z.pow_nonzero; [lia|]. pose proof (qpos f). lia. }
      rewrite Z0. destruct (e_basic f e He) as [Hk Hmb]. unfold phi, cache_at, cache_val.
      destruct f.
      * change (max_k Binary32) with 46 in Hk. change (min_k Binary32) with (-30) in *.
        pose proof (cache_float_range (Z.to_nat (kexp e - -30)) ltac:(lia)) as CR.
        change (extended_precision Binary32) with 32.
        unfold shr. change ((0 <=? 32) && (32 <? 64)) with true. cbn [bind].
        rewrite (proj2 (Z.leb_le 0 (mbexp e))), (proj2 (Z.ltb_lt (mbexp e) 64)) by lia. cbn [andb bind].
        rewrite !shiftr_div by lia. rewrite div_div by (try reflexivity; apply Z.pow_pos_nonneg; lia).
        rewrite <- Z.pow_add_r by lia. rewrite wrap_small; [reflexivity|].
        split; [apply Z.div_pos; [lia | apply Z.pow_pos_nonneg; lia]|].
        apply Z.div_lt_upper_bound; [apply Z.pow_pos_nonneg; lia|].
        rewrite <- Z.pow_add_r by lia. apply Z.lt_le_trans with (2 ^ 64); [lia | apply Z.pow_le_mono_r; lia].
      * change (max_k Binary64) with 325 in Hk. change (min_k Binary64) with (-290) in *.
        pose proof (cache_double_range (Z.to_nat (kexp e - -290)) ltac:(lia)) as CR. cbv zeta.
        destruct (nth (Z.to_nat (kexp e - -290)) cache_double (0, 0)) as [h l]. cbn [fst snd u128_high] in *.
        change (extended_precision Binary64) with 64.
        unfold shr. rewrite (proj2 (Z.leb_le 0 (mbexp e))), (proj2 (Z.ltb_lt (mbexp e) 64)) by lia. cbn [andb].
        rewrite shiftr_div by lia. f_equal.
        rewrite Z.pow_add_r by lia. rewrite <- div_div by (try reflexivity; apply Z.pow_pos_nonneg; lia).
        f_equal.
        apply Z.div_unique with l; lia.
    + unfold compute_zi. rewrite (right_endpoint_ok f right_closed_directed_tag (some_itv _) e n He Hn (some_itvL _) (some_itvR _)) by discriminate.
      rewrite (mul_ok cfg f e n He Hn).
      * reflexivity.
      * unfold hi_u. lia.
      * apply (hi_lt f right_closed_directed_tag (some_itv _) e n He Hn (some_itvL _) (some_itvR _)). discriminate.
  - assert (HL1 : tag = left_closed_directed_tag -> n + 1 < 2 ^ (precision f + 1)) by (intros; lia).
    unfold compute_zi. rewrite (right_endpoint_ok f tag (some_itv _) e n He Hn (some_itvL _) (some_itvR _) HL1).
    assert (E : compute_mul cfg f (hi_u tag n * unit f) (cache_at f (kexp e)) (mbexp e) = Ok (zi f tag e n)).
    { rewrite (mul_ok cfg f e n He Hn); [reflexivity | unfold hi_u; destruct tag; lia|].
      apply (hi_lt f tag (some_itv _) e n He Hn (some_itvL _) (some_itvR _) HL1). }
    rewrite E. destruct tag; try reflexivity.
    rewrite (proj2 (Z.eqb_neq _ 0)); [reflexivity|]. unfold hi_u. destruct (unit_vals f) as [-> | ->]; lia.
Qed.

Theorem compute_is_tail cfg f p crs x :
  0 <= x < 2 ^ extended_precision f -> is_finite f x = true -> is_nonzero f x = true ->
  compute cfg f p crs x
  = compute_tail cfg f (provider_tag p) crs (provider_call f p x) (e_of f x) (n_of f x).
Proof.
  intros Hx Hfin Hnz. pose proof (e_of_range f x Hfin) as He. pose proof (n_of_range f x Hx Hnz) as Hn.
  unfold compute. rewrite decompose_ok. set (e := e_of f x) in *. set (n := n_of f x) in *.
  destruct (e_basic f e He) as [Hk Hmb].
  assert (RE : -1650 <= e + 1 - alpha f <= 1650) by (destruct f; cbn in He |- *; lia).
  assert (RK : -330 <= kexp e <= 330) by (destruct f; cbn in Hk; lia).
  assert (K : - kexp e = Z.shiftr ((e + 1 - alpha f) * 315652) 20).
  { unfold kexp. rewrite Z.opp_involutive. do 2 f_equal. destruct f; cbn; ring. }
  unfold floor_log10_pow2. rewrite cassert_true by (apply andb_true_iff; rewrite !Z.leb_le; lia). cbn [bind].
  unfold i32 at 1. rewrite (proj2 (Z.leb_le (- 2 ^ 31) _)), (proj2 (Z.ltb_lt _ (2 ^ 31))) by lia. cbn [andb bind].
  rewrite <- K, Z.opp_involutive.
  unfold floor_log2_pow10. rewrite cassert_true by (apply andb_true_iff; rewrite !Z.leb_le; lia). cbn [bind].
  unfold i32 at 1. rewrite (proj2 (Z.leb_le (- 2 ^ 31) _)), (proj2 (Z.ltb_lt _ (2 ^ 31))) by lia. cbn [andb bind].
  fold (lexp (kexp e)). fold (mbexp e).
  unfold i32. rewrite (proj2 (Z.leb_le (- 2 ^ 31) _)), (proj2 (Z.ltb_lt _ (2 ^ 31))) by lia. cbn [andb bind].
  rewrite cassert_true.
  2:{ apply andb_true_iff. rewrite !Z.leb_le. destruct f; cbn; lia. }
  cbn [bind]. rewrite get_cache_ok by exact Hk. cbn [bind].
  rewrite compute_zi_ok by assumption. cbn [bind].
  rewrite (sign_bit_n f e n He Hn).
  fold (exp_min f). fold (is_edge f e n).
  rewrite (delta_ok f (provider_tag p) (some_itv _) e n He Hn (some_itvL _) (some_itvR _)). cbn [bind].
  reflexivity.
Qed.
