(** * From bit patterns and scaled integers to real numbers *)

From Coq Require Import ZArith Reals Lra Lia Bool.
From Flocq Require Import Core IEEE754.Binary IEEE754.Bits.
From Verif Require Import Machine Tables Model Arith ExpFacts Products IntCheck Core Link Spec Reading.
Open Scope R_scope.

(** ** The fields of a bit pattern *)
Definition ff (f : fmt) (x : Z) : full_float := binary_float_of_bits_aux (precision f) (exponent_bits f) x.

Lemma value_ff f x : value f x = FF2R radix2 (ff f x).
Proof. destruct f; unfold value, b32_of_bits, b64_of_bits, binary_float_of_bits; rewrite B2R_FF2B; reflexivity. Qed.
Lemma finite_ff f x : finite f x = is_finite_FF (ff f x).
Proof. destruct f; unfold finite, b32_of_bits, b64_of_bits, binary_float_of_bits; rewrite is_finite_FF2B; reflexivity. Qed.
Lemma nan_ff f x : nan f x = is_nan_FF (ff f x).
Proof. destruct f; unfold nan, b32_of_bits, b64_of_bits, binary_float_of_bits; rewrite is_nan_FF2B; reflexivity. Qed.
Lemma negative_ff f x : negative f x = sign_FF (ff f x).
Proof. destruct f; unfold negative, b32_of_bits, b64_of_bits, binary_float_of_bits; rewrite Bsign_FF2B; reflexivity. Qed.

Definition sgn (f : fmt) (x : Z) : bool := (2 ^ precision f * 2 ^ exponent_bits f <=? x)%Z.

Lemma sgn_negative f x : pattern f x -> sgn f x = is_negative f x.
Proof.
  intros Hx. assert (Hx' : (0 <= x < 2 ^ extended_precision f)%Z) by (destruct f; exact Hx).
  destruct (fields f x Hx') as (s & Hs & Ex & Hneg). rewrite Hneg. unfold sgn.
  pose proof (frac_range f x) as Fr. pose proof (expo_range f x) as Er. pose proof (pp f) as P1.
  assert (E2 : (2 ^ (extended_precision f - 1) = 2 ^ precision f * 2 ^ exponent_bits f)%Z) by (destruct f; reflexivity).
  rewrite E2 in Ex. set (A := (2 ^ precision f)%Z) in *. set (C := (2 ^ exponent_bits f)%Z) in *.
  assert (0 <= expo f x * A + frac f x < A * C)%Z by nia.
  destruct Hs as [-> | ->]; cbn [Z.eqb Pos.eqb].
  - apply Z.leb_gt. lia.
  - apply Z.leb_le. lia.
Qed.

Lemma Zeq_bool_eqb a b : Zeq_bool a b = (a =? b)%Z.
Proof. unfold Zeq_bool. rewrite <- Z.eqb_compare. reflexivity. Qed.

Lemma ff_cases f x : ff f x =
  if (expo f x =? 0)%Z then
    match frac f x with Z0 => F754_zero (sgn f x) | Zpos p => F754_finite (sgn f x) p (emin f) | Zneg _ => F754_nan false xH end
  else if (expo f x =? 2 ^ exponent_bits f - 1)%Z then
    match frac f x with Z0 => F754_infinity (sgn f x) | Zpos p => F754_nan (sgn f x) p | Zneg _ => F754_nan false xH end
  else match (frac f x + 2 ^ precision f)%Z with
       | Zpos p => F754_finite (sgn f x) p (expo f x + emin f - 1)
       | _ => F754_nan false xH end.
Proof.
  unfold ff, binary_float_of_bits_aux, split_bits. fold (sgn f x). fold (frac f x). fold (expo f x).
  rewrite !Zeq_bool_eqb. destruct f; reflexivity.
Qed.

Lemma finite_model f x : finite f x = is_finite f x.
Proof.
  rewrite finite_ff, ff_cases, is_finite_expo. pose proof (frac_range f x) as Fr. pose proof (pp f) as P1.
  assert (P2 : (1 < 2 ^ exponent_bits f)%Z) by (destruct f; reflexivity).
  destruct (Z.eqb_spec (expo f x) 0) as [E|E].
  - rewrite E, (proj2 (Z.eqb_neq _ _)) by lia. destruct (frac f x); try reflexivity. lia.
  - destruct (Z.eqb_spec (expo f x) (2 ^ exponent_bits f - 1)) as [E2|E2].
    + destruct (frac f x); try reflexivity.
    + destruct (frac f x + 2 ^ precision f)%Z eqn:Q; try reflexivity; lia.
Qed.

Lemma nan_model f x : nan f x = is_nan f x.
Proof.
  assert (EF : extract_significand_bits f x = frac f x).
  { unfold extract_significand_bits, frac. rewrite <- Z.land_ones, Z.ones_equiv, Z.shiftl_1_l, Z.sub_1_r by (destruct f; discriminate).
    reflexivity. }
  unfold is_nan. rewrite EF, <- finite_model, nan_ff, finite_ff, ff_cases.
  pose proof (frac_range f x) as Fr. pose proof (pp f) as P1.
  destruct (expo f x =? 0)%Z; [|destruct (expo f x =? 2 ^ exponent_bits f - 1)%Z].
  - destruct (frac f x); try reflexivity.
  - destruct (frac f x); try reflexivity.
  - destruct (frac f x + 2 ^ precision f)%Z eqn:Q; try reflexivity; lia.
Qed.

Lemma negative_model f x : pattern f x -> negative f x = is_negative f x.
Proof.
  intros Hx. rewrite negative_ff, ff_cases, <- sgn_negative by exact Hx.
  pose proof (frac_range f x) as Fr. pose proof (pp f) as P1.
  destruct (expo f x =? 0)%Z; [|destruct (expo f x =? 2 ^ exponent_bits f - 1)%Z].
  - destruct (frac f x); try reflexivity; lia.
  - destruct (frac f x); try reflexivity; lia.
  - destruct (frac f x + 2 ^ precision f)%Z eqn:Q; try reflexivity; lia.
Qed.

Definition e0_of (f : fmt) (x : Z) : Z := (e_of f x + exponent_bits f)%Z.

Lemma value_fields f x : finite f x = true ->
  value f x = cond_Ropp (sgn f x) (IZR (n_of f x) * bpow radix2 (e0_of f x)).
Proof.
  rewrite finite_ff, value_ff, ff_cases. unfold n_of, e0_of, e_of. pose proof (frac_range f x) as Fr. pose proof (pp f) as P1.
  destruct (expo f x =? 0)%Z.
  - destruct (frac f x) eqn:Q; cbn [FF2R is_finite_FF]; intros; [| |discriminate].
    + rewrite Rmult_0_l. destruct (sgn f x); cbn; [rewrite Ropp_0|]; reflexivity.
    + rewrite F2R_cond_Zopp. f_equal. unfold F2R. cbn [Fnum Fexp]. f_equal. destruct f; reflexivity.
  - destruct (expo f x =? 2 ^ exponent_bits f - 1)%Z.
    + destruct (frac f x); discriminate.
    + rewrite Z.add_comm. destruct (2 ^ precision f + frac f x)%Z eqn:Q; try discriminate. intros _.
      cbn [FF2R]. rewrite F2R_cond_Zopp. f_equal. unfold F2R. cbn [Fnum Fexp]. f_equal. f_equal.
      assert (emin f = exp_min f + exponent_bits f)%Z by (destruct f; reflexivity). lia.
Qed.

Lemma nonzero_model f x : pattern f x -> finite f x = true -> (value f x <> 0 <-> is_nonzero f x = true).
Proof.
  intros Hx Hf. assert (Hx' : (0 <= x < 2 ^ extended_precision f)%Z) by (destruct f; exact Hx).
  rewrite is_nonzero_fields by exact Hx'. rewrite (value_fields f x Hf).
  pose proof (frac_range f x) as Fr. pose proof (pp f) as P1. pose proof (bpow_gt_0 radix2 (e0_of f x)) as P.
  unfold n_of. rewrite negb_true_iff, andb_false_iff, !Z.eqb_neq.
  destruct (Z.eqb_spec (expo f x) 0) as [E|E].
  - split.
    + intros H. right. intros Q. apply H. rewrite Q, Rmult_0_l. destruct (sgn f x); cbn; [apply Ropp_0 | reflexivity].
    + intros [H|H]; [contradiction|]. assert (0 < IZR (frac f x) * bpow radix2 (e0_of f x)).
      { apply Rmult_lt_0_compat; [apply IZR_lt; lia | exact P]. }
      destruct (sgn f x); cbn; lra.
  - split; [tauto|]. intros _. assert (0 < IZR (2 ^ precision f + frac f x) * bpow radix2 (e0_of f x)).
    { apply Rmult_lt_0_compat; [apply IZR_lt; lia | exact P]. }
    destruct (sgn f x); cbn [cond_Ropp]; lra.
Qed.

(** everything known about the fields of a finite nonzero input *)
Lemma input_facts f x : input f x ->
  (0 <= x < 2 ^ extended_precision f)%Z /\ is_finite f x = true /\ is_nonzero f x = true /\
  (exp_min f <= e_of f x <= exp_max f)%Z /\ (0 < n_of f x < 2 ^ (precision f + 1))%Z /\
  (e_of f x = exp_min f \/ 2 ^ precision f <= n_of f x)%Z.
Proof.
  intros (Hx & Hf & Hv). assert (Hx' : (0 <= x < 2 ^ extended_precision f)%Z) by (destruct f; exact Hx).
  pose proof Hf as Hf'. rewrite finite_model in Hf'. apply (nonzero_model f x Hx Hf) in Hv.
  repeat split; try assumption; try apply Hx'; try apply (e_of_range f x Hf'); try apply (n_of_range f x Hx' Hv).
  destruct (Z.eq_dec (e_of f x) (exp_min f)) as [E|E]; [left; exact E | right; apply n_of_normal; exact E].
Qed.

(** ** Scaled integers *)
Definition radix5 : radix := Build_radix 5 eq_refl.

Lemma bpow10_split k : bpow radix10 k = bpow radix2 k * bpow radix5 k.
Proof.
  rewrite !bpow_powerRZ. change (IZR radix10) with (2 * 5). change (IZR radix2) with 2. change (IZR radix5) with 5.
  apply powerRZ_mult.
Qed.

Lemma bpow_parts (r : radix) k : bpow r k * IZR (r ^ pos_part (- k)) = IZR (r ^ pos_part k).
Proof.
  unfold pos_part. destruct (Z.ltb_spec 0 k) as [H|H].
  - rewrite (proj2 (Z.ltb_ge 0 (- k))) by lia. rewrite Z.pow_0_r, Rmult_1_r. symmetry. apply IZR_Zpower. lia.
  - destruct (Z.ltb_spec 0 (- k)) as [H2|H2].
    + rewrite (IZR_Zpower r (- k)) by lia. rewrite <- bpow_plus. replace (k + - k)%Z with 0%Z by ring. reflexivity.
    + replace k with 0%Z by lia. cbn. lra.
Qed.

Lemma ratio e k : IZR (anum e k) = bpow radix2 e * bpow radix10 k * IZR (aden e k).
Proof.
  unfold anum, aden. rewrite !mult_IZR, bpow10_split.
  pose proof (bpow_parts radix2 (e + k)) as P2. pose proof (bpow_parts radix5 k) as P5.
  change (radix_val radix2) with 2%Z in P2. change (radix_val radix5) with 5%Z in P5.
  rewrite <- P2, <- P5, bpow_plus. ring.
Qed.

(** ** Membership in the rounding interval, over the reals *)
Definition quarter (f : fmt) (e : Z) : R := IZR (unit f) * bpow radix2 e.
Definition rin (f : fmt) (tag : mode_tag) (itv : interval_type) (e n : Z) (y : R) : Prop :=
  (IZR (lo_u f tag e n) * quarter f e < y \/ (include_left_endpoint itv = true /\ y = IZR (lo_u f tag e n) * quarter f e)) /\
  (y < IZR (hi_u tag n) * quarter f e \/ (include_right_endpoint itv = true /\ y = IZR (hi_u tag n) * quarter f e)).

Lemma quarter_pos f e : 0 < quarter f e.
Proof. unfold quarter. apply Rmult_lt_0_compat; [apply IZR_lt; destruct f; reflexivity | apply bpow_gt_0]. Qed.

(** v/10^k compared with m quarters of the spacing *)
Lemma ulp_ratio f e : IZR (ulp f e) = quarter f e * bpow radix10 (kexp e) * IZR (den e).
Proof. unfold ulp, num, den, quarter. rewrite mult_IZR, ratio. ring. Qed.

Section Scale.
Variables (f : fmt) (e : Z).
Definition unscale (v : R) : R := v * bpow radix10 (- kexp e).

Lemma unscale_spec v m : v * IZR (den e) - IZR m * IZR (ulp f e)
  = (unscale v - IZR m * quarter f e) * (bpow radix10 (kexp e) * IZR (den e)).
Proof.
  rewrite ulp_ratio. unfold unscale. 
  assert (E : bpow radix10 (- kexp e) * bpow radix10 (kexp e) = 1).
  { rewrite <- bpow_plus. replace (- kexp e + kexp e)%Z with 0%Z by ring. reflexivity. }
  transitivity (v * (bpow radix10 (- kexp e) * bpow radix10 (kexp e)) * IZR (den e) - IZR m * quarter f e * (bpow radix10 (kexp e) * IZR (den e))).
  - rewrite E. ring.
  - ring.
Qed.
Lemma factor_pos : 0 < bpow radix10 (kexp e) * IZR (den e).
Proof. apply Rmult_lt_0_compat; [apply bpow_gt_0 | apply IZR_lt, HB]. Qed.

Lemma cmp_lt v m : (m * ulp f e < v * den e)%Z <-> IZR m * quarter f e < unscale (IZR v).
Proof.
  pose proof (unscale_spec (IZR v) m) as S. pose proof factor_pos as P. set (F := bpow radix10 (kexp e) * IZR (den e)) in *.
  split; intros H.
  - apply IZR_lt in H. rewrite !mult_IZR in H.
    assert (0 < (unscale (IZR v) - IZR m * quarter f e) * F) by lra.
    apply Rmult_lt_reg_r with F; [exact P|]. lra.
  - apply lt_IZR. rewrite !mult_IZR.
    assert (0 < (unscale (IZR v) - IZR m * quarter f e) * F) by (apply Rmult_lt_0_compat; lra). lra.
Qed.
Lemma cmp_gt v m : (v * den e < m * ulp f e)%Z <-> unscale (IZR v) < IZR m * quarter f e.
Proof.
  pose proof (unscale_spec (IZR v) m) as S. pose proof factor_pos as P. set (F := bpow radix10 (kexp e) * IZR (den e)) in *.
  split; intros H.
  - apply IZR_lt in H. rewrite !mult_IZR in H.
    assert ((unscale (IZR v) - IZR m * quarter f e) * F < 0 * F) by lra.
    assert (unscale (IZR v) - IZR m * quarter f e < 0) by (apply Rmult_lt_reg_r with F; assumption). lra.
  - apply lt_IZR. rewrite !mult_IZR.
    assert ((unscale (IZR v) - IZR m * quarter f e) * F < 0 * F) by (apply Rmult_lt_compat_r; lra). lra.
Qed.
Lemma cmp_eq v m : (v * den e = m * ulp f e)%Z <-> unscale (IZR v) = IZR m * quarter f e.
Proof.
  pose proof (cmp_lt v m) as A. pose proof (cmp_gt v m) as C. split; intros H.
  - destruct (Rtotal_order (unscale (IZR v)) (IZR m * quarter f e)) as [L|[L|L]]; [|exact L|].
    + apply C in L. lia.
    + apply A in L. lia.
  - destruct (Z.lt_trichotomy (v * den e) (m * ulp f e)) as [L|[L|L]]; [|exact L|].
    + apply C in L. lra.
    + apply A in L. lra.
Qed.

Lemma in_int_rin tag itv n v : in_int f tag itv e n v = true <-> rin f tag itv e n (unscale (IZR v)).
Proof.
  unfold in_int, inL, inR, rin, X, Z_. rewrite andb_true_iff, !orb_true_iff, !andb_true_iff, !Z.ltb_lt, !Z.eqb_eq.
  rewrite <- cmp_lt, <- cmp_gt, <- !cmp_eq.
  split; (intros [[A|[A1 A2]] [C|[C1 C2]]]; split; [left | left | left | right | right | left | right | right]); auto; split; auto.
Qed.
End Scale.
