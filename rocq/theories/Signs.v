(** * Signs, static-boundary variants, the case handler and classification *)

From Coq Require Import ZArith Reals Lra Lia Bool.
From Flocq Require Import Core IEEE754.Binary IEEE754.Bits.
From Verif Require Import Machine Tables Model Arith ExpFacts Products IntCheck Core Link Spec Reading Bridge Congruence.
Open Scope Z_scope.

(** ** Negation of a pattern *)
Lemma half_w f : 2 ^ (width f - 1) = 2 ^ precision f * 2 ^ exponent_bits f. Proof. destruct f; reflexivity. Qed.
Lemma full_w f : 2 ^ width f = 2 * 2 ^ (width f - 1). Proof. destruct f; reflexivity. Qed.

Lemma negate_pattern f x : pattern f x -> pattern f (negate f x).
Proof. unfold pattern, negate. rewrite full_w. intros H. destruct (Z.ltb_spec x (2 ^ (width f - 1))); lia. Qed.
Lemma negate_shift f x : exists c, (c = 1 \/ c = -1) /\ negate f x = x + c * 2 ^ exponent_bits f * 2 ^ precision f.
Proof.
  unfold negate. rewrite half_w. destruct (x <? _); [exists 1 | exists (-1)]; (split; [auto | ring]).
Qed.
Lemma negate_frac f x : frac f (negate f x) = frac f x.
Proof. destruct (negate_shift f x) as (c & _ & ->). unfold frac. apply Z_mod_plus_full. Qed.
Lemma negate_expo f x : expo f (negate f x) = expo f x.
Proof.
  destruct (negate_shift f x) as (c & _ & ->). unfold expo. pose proof (pp f).
  rewrite Z.div_add by lia. apply Z_mod_plus_full.
Qed.
Lemma negate_parity f x : negate f x mod 2 = x mod 2.
Proof.
  destruct (negate_shift f x) as (c & _ & ->).
  replace (2 ^ precision f) with (2 ^ (precision f - 1) * 2) by (destruct f; reflexivity).
  rewrite Z.mul_assoc. apply Z_mod_plus_full.
Qed.
Lemma negate_sign f x : pattern f x -> is_negative f (negate f x) = negb (is_negative f x).
Proof.
  intros Hx. rewrite <- !sgn_negative by (try apply negate_pattern; exact Hx).
  unfold sgn, negate. rewrite <- half_w. unfold pattern in Hx. rewrite full_w in Hx.
  destruct (Z.ltb_spec x (2 ^ (width f - 1))) as [L|L].
  - rewrite (proj2 (Z.leb_gt _ x)) by lia. apply Z.leb_le. lia.
  - rewrite (proj2 (Z.leb_le _ x)) by lia. apply Z.leb_gt. lia.
Qed.
Lemma negate_decompose f x : decompose f (negate f x) = decompose f x.
Proof. rewrite !decompose_ok. unfold n_of, e_of. rewrite negate_frac, negate_expo. reflexivity. Qed.
Lemma negate_finite f x : Model.is_finite f (negate f x) = Model.is_finite f x.
Proof. rewrite !is_finite_expo, negate_expo. reflexivity. Qed.

Lemma negate_value f x : pattern f x -> (value f (negate f x) = - value f x)%R.
Proof.
  intros Hx. pose proof (negate_sign f x Hx) as S.
  rewrite <- !sgn_negative in S by (try apply negate_pattern; exact Hx).
  rewrite !value_ff, !ff_cases, negate_frac, negate_expo, S.
  assert (Z0 : (0 = - 0)%R) by ring.
  destruct (_ =? 0).
  - destruct (frac f x) as [|q|q]; cbn [FF2R]; try exact Z0.
    destruct (sgn f x); cbn [negb cond_Zopp]; rewrite <- F2R_Zopp; reflexivity.
  - destruct (_ =? _).
    + destruct (frac f x) as [|q|q]; cbn [FF2R]; exact Z0.
    + destruct (_ + _) as [|q|q]; cbn [FF2R]; try exact Z0.
      destruct (sgn f x); cbn [negb cond_Zopp]; rewrite <- F2R_Zopp; reflexivity.
Qed.

Lemma compute_mirror cfg f m crs x : pattern f x ->
  compute cfg f (delegate f (mirror m) (negate f x)) crs (negate f x) = compute cfg f (delegate f m x) crs x.
Proof.
  intros Hx. pose proof (negate_sign f x Hx) as S. pose proof (negate_parity f x) as P. pose proof (negate_decompose f x) as D.
  assert (G : forall p q, provider_tag p = provider_tag q ->
     include_left_endpoint (provider_call f p (negate f x)) = include_left_endpoint (provider_call f q x) ->
     include_right_endpoint (provider_call f p (negate f x)) = include_right_endpoint (provider_call f q x) ->
     is_symmetric (provider_call f p (negate f x)) = is_symmetric (provider_call f q x) ->
     (forall y, is_symmetric (provider_call f p y) = is_symmetric (provider_call f q y)) ->
     compute cfg f p crs (negate f x) = compute cfg f q crs x).
  { intros p q T L R Sy _. unfold compute. rewrite D, <- T. destruct (decompose f x) as [fc ex].
    do 3 (apply bind_ext; intros ?). apply bind_ext. intros _. do 3 (apply bind_ext; intros ?).
    destruct (_ <? _); [apply increasing_label_eq; assumption|]. destruct (_ =? _); [|apply decreasing_eq; assumption].
    rewrite (zf_eq _ _ _ _ _ (provider_call f q x)) by exact L. apply bind_ext.
    intros []; [apply increasing_label_eq | apply decreasing_eq]; assumption. }
  destruct m; cbn [mirror delegate]; rewrite ?S, ?P; try destruct (x mod 2 =? 0) eqn:Q; try destruct (is_negative f x) eqn:N; cbn [negb];
    apply G; cbn [provider_call provider_tag include_left_endpoint include_right_endpoint is_symmetric]; rewrite ?S, ?P, ?N, ?Q; reflexivity.
Qed.

Lemma mirror_result cfg f rs m crs h x : pattern f x ->
  grisu_exact cfg f rs (mirror m) crs h (negate f x) = map_outcome flip_sign (grisu_exact cfg f rs m crs h x).
Proof.
  intros Hx. unfold grisu_exact. rewrite compute_mirror, negate_sign by exact Hx.
  assert (H : run_case_handler cfg f h (negate f x) = run_case_handler cfg f h x).
  { destruct h; [|reflexivity]. cbn. rewrite negate_finite. reflexivity. }
  rewrite H. destruct (run_case_handler cfg f h x); cbn [bind map_outcome]; try reflexivity.
  destruct (compute cfg f (delegate f m x) crs x); cbn [bind map_outcome]; try reflexivity.
  destruct rs; reflexivity.
Qed.
Lemma negate_meaning f x : pattern f x ->
  pattern f (negate f x) /\ value f (negate f x) = (- value f x)%R /\ finite f (negate f x) = finite f x /\
  negative f (negate f x) = negb (negative f x).
Proof.
  intros Hx. pose proof (negate_pattern f x Hx) as Hn. split; [exact Hn|]. split; [apply negate_value, Hx|].
  rewrite !finite_model, !negative_model by assumption. split; [apply negate_finite | apply negate_sign, Hx].
Qed.
Lemma reading_mirror m v : reading (mirror m) (- v)%R = - reading m v.
Proof.
  assert (N : forall c d, (forall t, c t = negb (d (- (t + 1)))) -> Znearest c (- v)%R = - Znearest d v).
  { intros c d H. rewrite Znearest_opp. f_equal. unfold Znearest.
    destruct (Rcompare _ _); try reflexivity. rewrite H.
    replace (- (- (Zfloor v + 1) + 1)) with (Zfloor v) by ring. rewrite negb_involutive. reflexivity. }
  destruct m; cbn [mirror reading]; try (apply N; intros t);
    rewrite ?Z.even_opp, ?Z.add_1_r, ?Z.even_succ, <- ?Z.negb_even, ?negb_involutive; try reflexivity.
  - rewrite <- Z.leb_antisym. apply eq_iff_eq_true. rewrite Z.ltb_lt, Z.leb_le. lia.
  - rewrite <- Z.ltb_antisym. apply eq_iff_eq_true. rewrite Z.ltb_lt, Z.leb_le. lia.
  - unfold Zceil. rewrite Z.opp_involutive. reflexivity.
  - unfold Zceil. rewrite Ropp_involutive. reflexivity.
  - apply Ztrunc_opp.
  - apply Zaway_opp.
Qed.

Lemma result_sign cfg f m crs h x r : pattern f x -> grisu_exact cfg f true m crs h x = Ok r ->
  fp_is_negative r = Some (negative f x).
Proof.
  intros Hx. rewrite (negative_model f x Hx). unfold grisu_exact.
  destruct (run_case_handler cfg f h x); cbn [bind]; try discriminate.
  destruct (compute cfg f (delegate f m x) crs x); cbn [bind]; try discriminate. intros H. injection H as <-. reflexivity.
Qed.

(** ** return_sign = false *)
Lemma drop_sign_result cfg f m crs h x :
  grisu_exact cfg f false m crs h x = map_outcome drop_sign (grisu_exact cfg f true m crs h x).
Proof.
  unfold grisu_exact. destruct (run_case_handler cfg f h x); cbn [bind map_outcome]; try reflexivity.
  destruct (compute cfg f (delegate f m x) crs x); cbn [bind map_outcome]; reflexivity.
Qed.

(** ** Static boundary *)
Lemma static_result cfg f rs m crs h x :
  grisu_exact cfg f rs m crs h x = grisu_exact cfg f rs (plain m) crs h x.
Proof.
  unfold grisu_exact. apply bind_ext. intros _.
  assert (C : compute cfg f (delegate f m x) crs x = compute cfg f (delegate f (plain m) x) crs x).
  { destruct m; cbn [plain delegate]; try reflexivity;
      (destruct (x mod 2 =? 0) eqn:P; destruct (is_negative f x) eqn:N; [.. | ]);
      match goal with
      | |- compute _ _ p_nearest_toward_zero _ _ = compute _ _ p_nearest_toward_plus_infinity _ _ => idtac
      | _ => idtac
      end;
      try (apply compute_congr; cbn [provider_call provider_tag include_left_endpoint include_right_endpoint is_symmetric]; rewrite ?P, ?N; reflexivity). }
  rewrite C. reflexivity.
Qed.

(** ** The case handler *)
Lemma handler_rejects cfg f rs m crs x : finite f x = false -> cfg_ndebug cfg = false ->
  grisu_exact cfg f rs m crs assert_finite x = AssertFailed.
Proof. rewrite finite_model. intros F N. unfold grisu_exact. cbn. unfold cassert. rewrite N, F. reflexivity. Qed.
Lemma handler_passes cfg f rs m crs x : finite f x = true ->
  grisu_exact cfg f rs m crs assert_finite x = grisu_exact cfg f rs m crs ignore_special_cases x.
Proof. rewrite finite_model. intros F. unfold grisu_exact. cbn. unfold cassert. rewrite F. destruct (cfg_ndebug cfg); reflexivity. Qed.

(** ** Classification *)
Lemma infinite_ff f x : infinite f x = match ff f x with F754_infinity _ => true | _ => false end.
Proof.
  assert (G : forall p e (b : binary_float p e), match b with B754_infinity _ _ _ => true | _ => false end
     = match B2FF p e b with F754_infinity _ => true | _ => false end) by (intros p e []; reflexivity).
  destruct f; unfold infinite, b32_of_bits, b64_of_bits, binary_float_of_bits; rewrite G, B2FF_FF2B; reflexivity.
Qed.
Lemma infinite_fields f x : infinite f x = (expo f x =? 2 ^ exponent_bits f - 1) && (frac f x =? 0).
Proof.
  rewrite infinite_ff, ff_cases. pose proof (frac_range f x) as Fr. pose proof (pp f).
  assert (1 < 2 ^ exponent_bits f) by (destruct f; reflexivity).
  destruct (Z.eqb_spec (expo f x) 0) as [E|E].
  - rewrite E, (proj2 (Z.eqb_neq _ _)) by lia. destruct (frac f x); reflexivity.
  - destruct (_ =? _); destruct (frac f x) eqn:Q; cbn [andb]; try reflexivity; try (destruct (_ + _); reflexivity).
Qed.
Lemma mask_value f : exponent_bits_mask f = (2 ^ exponent_bits f - 1) * 2 ^ precision f.
Proof. destruct f; reflexivity. Qed.
Lemma sign_value f : sign_bit_mask f = 2 ^ (width f - 1). Proof. destruct f; reflexivity. Qed.
Lemma inf_value f : Z.lor (exponent_bits_mask f) (sign_bit_mask f) = 2 ^ (width f - 1) + (2 ^ exponent_bits f - 1) * 2 ^ precision f.
Proof. destruct f; reflexivity. Qed.

Lemma shape f x : pattern f x -> exists s, (s = 0 \/ s = 1) /\ is_negative f x = (s =? 1) /\
  x = s * (2 ^ precision f * 2 ^ exponent_bits f) + expo f x * 2 ^ precision f + frac f x.
Proof.
  intros Hx. assert (Hx' : 0 <= x < 2 ^ extended_precision f) by (destruct f; exact Hx).
  destruct (fields f x Hx') as (s & Hs & Ex & Hneg). exists s. split; [exact Hs|]. split; [exact Hneg|].
  rewrite Ex at 1. replace (2 ^ (extended_precision f - 1)) with (2 ^ precision f * 2 ^ exponent_bits f) by (destruct f; reflexivity). reflexivity.
Qed.

Lemma mul_small q A r : 0 < A -> q * A = r -> 0 <= r < A -> q = 0.
Proof. intros HA E R. destruct (Z.lt_trichotomy q 0) as [N|[Z|P]]; [nia | exact Z | nia]. Qed.

Lemma positive_infinity_ok f x : pattern f x -> is_positive_infinity f x = infinite f x && negb (negative f x).
Proof.
  intros Hx. rewrite (negative_model f x Hx), infinite_fields. unfold is_positive_infinity. rewrite mask_value.
  destruct (shape f x Hx) as (s & Hs & -> & Ex). pose proof (frac_range f x) as Fr. pose proof (expo_range f x) as Er. pose proof (pp f) as P.
  set (A := 2 ^ precision f) in *. set (B := 2 ^ exponent_bits f) in *.
  apply eq_iff_eq_true. rewrite !andb_true_iff, negb_true_iff, !Z.eqb_eq, Z.eqb_neq.
  split.
  - intros H. pose proof (eq_trans (eq_sym H) Ex) as Ey. clear Ex H. rename Ey into Ex. assert (S0 : s = 0) by nia. subst s.
    assert (E : B - 1 - expo f x = 0) by (apply (mul_small _ A (frac f x)); [exact P | lia | exact Fr]).
    assert (E' : expo f x = B - 1) by lia. rewrite E' in Ex. split; [split; [exact E' | nia] | lia].
  - intros [[E F] S]. rewrite Ex, E, F. destruct Hs; [|lia]. subst s. ring.
Qed.
Lemma negative_infinity_ok f x : pattern f x -> is_negative_infinity f x = infinite f x && negative f x.
Proof.
  intros Hx. rewrite (negative_model f x Hx), infinite_fields. unfold is_negative_infinity. rewrite inf_value, half_w.
  destruct (shape f x Hx) as (s & Hs & -> & Ex). pose proof (frac_range f x) as Fr. pose proof (expo_range f x) as Er. pose proof (pp f) as P.
  set (A := 2 ^ precision f) in *. set (B := 2 ^ exponent_bits f) in *.
  apply eq_iff_eq_true. rewrite !andb_true_iff, !Z.eqb_eq.
  split.
  - intros H. pose proof (eq_trans (eq_sym H) Ex) as Ey. clear Ex H. rename Ey into Ex. assert (0 <= expo f x * A + frac f x < A * B) by nia. assert (S1 : s = 1) by nia. subst s.
    assert (E : B - 1 - expo f x = 0) by (apply (mul_small _ A (frac f x)); [exact P | lia | exact Fr]).
    assert (E' : expo f x = B - 1) by lia. rewrite E' in Ex. split; [split; [exact E' | nia] | lia].
  - intros [[E F] S]. rewrite Ex, E, F, S. ring.
Qed.
Lemma infinity_ok f x : pattern f x -> is_infinity f x = infinite f x.
Proof.
  intros Hx. unfold is_infinity. rewrite positive_infinity_ok, negative_infinity_ok by exact Hx.
  destruct (infinite f x), (negative f x); reflexivity.
Qed.
Lemma three_kinds f x : (if finite f x then 1 else 0) + (if infinite f x then 1 else 0) + (if nan f x then 1 else 0) = 1.
Proof.
  rewrite finite_ff, infinite_ff, nan_ff. destruct (ff f x); reflexivity.
Qed.
Lemma nonzero_special f x : pattern f x -> finite f x = false -> is_nonzero f x = true.
Proof.
  intros Hx. rewrite finite_model, is_finite_expo. intros H. apply negb_false_iff, Z.eqb_eq in H.
  assert (Hx' : 0 <= x < 2 ^ extended_precision f) by (destruct f; exact Hx).
  rewrite is_nonzero_fields by exact Hx'. rewrite H.
  assert ((2 ^ exponent_bits f - 1 =? 0) = false) as -> by (destruct f; reflexivity). reflexivity.
Qed.
Lemma subnormal_expo f x : is_subnormal f x = (expo f x =? 0).
Proof.
  unfold is_subnormal, exponent_bits_mask. rewrite mask_mod by (destruct f; discriminate). fold (expo f x).
  apply eq_iff_eq_true. rewrite !Z.eqb_eq. pose proof (pp f). nia.
Qed.
Lemma subnormal_ok f x : is_subnormal f x = true <->
  finite f x = true /\ (Rabs (value f x) < bpow radix2 (emin f + prec f - 1))%R.
Proof.
  rewrite subnormal_expo, Z.eqb_eq. rewrite finite_model, is_finite_expo, negb_true_iff, Z.eqb_neq.
  assert (P2 : 1 < 2 ^ exponent_bits f) by (destruct f; reflexivity).
  pose proof (frac_range f x) as Fr. pose proof (expo_range f x) as Er.
  assert (V : expo f x <> 2 ^ exponent_bits f - 1 -> Rabs (value f x) = (IZR (n_of f x) * bpow radix2 (e0_of f x))%R).
  { intros H. rewrite value_fields by (rewrite finite_model, is_finite_expo; apply negb_true_iff, Z.eqb_neq; exact H).
    assert (0 <= IZR (n_of f x) * bpow radix2 (e0_of f x))%R.
    { apply Rmult_le_pos; [|apply bpow_ge_0]. apply IZR_le. unfold n_of. destruct (_ =? _); lia. }
    destruct (sgn f x); cbn [cond_Ropp]; rewrite ?Rabs_Ropp; apply Rabs_pos_eq; assumption. }
  assert (Ep : bpow radix2 (prec f - 1) = IZR (2 ^ precision f)) by (destruct f; reflexivity).
  split.
  - intros E. assert (N : expo f x <> 2 ^ exponent_bits f - 1) by lia. split; [exact N|]. rewrite (V N).
    unfold n_of, e0_of, e_of. rewrite E. cbn [Z.eqb].
    replace (exp_min f + exponent_bits f) with (emin f) by (destruct f; reflexivity).
    replace (emin f + prec f - 1) with (prec f - 1 + emin f) by ring. rewrite bpow_plus, Ep.
    apply Rmult_lt_compat_r; [apply bpow_gt_0 | apply IZR_lt; lia].
  - intros [N L]. rewrite (V N) in L. destruct (Z.eq_dec (expo f x) 0) as [E|E]; [exact E|]. exfalso.
    revert L. apply Rle_not_lt. unfold n_of, e0_of, e_of. rewrite (proj2 (Z.eqb_neq _ 0) E).
    assert (EM : exp_min f + exponent_bits f = emin f) by (destruct f; reflexivity).
    replace (exp_min f + expo f x - 1 + exponent_bits f) with (emin f + (expo f x - 1)) by lia.
    replace (emin f + prec f - 1) with (prec f - 1 + emin f) by ring.
    rewrite (bpow_plus radix2 (prec f - 1)), (bpow_plus radix2 (emin f)), Ep.
    assert (1 <= bpow radix2 (expo f x - 1))%R by (apply (bpow_le radix2 0); lia).
    assert (IZR (2 ^ precision f) <= IZR (2 ^ precision f + frac f x))%R by (apply IZR_le; lia).
    pose proof (bpow_gt_0 radix2 (emin f)). assert (0 < IZR (2 ^ precision f))%R by (apply IZR_lt, pp).
    apply Rmult_le_compat; [lra | lra | assumption | rewrite <- (Rmult_1_r (bpow radix2 (emin f))) at 1; apply Rmult_le_compat_l; lra].
Qed.
Lemma positive_ok f x : pattern f x -> is_positive f x = negb (negative f x).
Proof. intros Hx. rewrite (negative_model f x Hx). unfold is_positive, is_negative. rewrite negb_involutive. reflexivity. Qed.
Lemma indicator_bit f x : (Z.land (a_quiet_nan_bit_representation f) (Z.shiftl 1 (precision f - 1)) =? Z.land x (Z.shiftl 1 (precision f - 1)))
  = Z.testbit x (prec f - 2).
Proof.
  replace (Z.land (a_quiet_nan_bit_representation f) (Z.shiftl 1 (precision f - 1))) with (2 ^ (prec f - 2)) by (destruct f; reflexivity).
  replace (Z.shiftl 1 (precision f - 1)) with (2 ^ (prec f - 2)) by (destruct f; reflexivity).
  assert (P : 0 <= prec f - 2) by (destruct f; discriminate).
  assert (E : Z.land x (2 ^ (prec f - 2)) = if Z.testbit x (prec f - 2) then 2 ^ (prec f - 2) else 0).
  { apply Z.bits_inj'. intros n Hn. rewrite Z.land_spec.
    destruct (Z.eq_dec n (prec f - 2)) as [->|N].
    - rewrite Z.pow2_bits_true, andb_true_r by exact P. destruct (Z.testbit x (prec f - 2)); [rewrite Z.pow2_bits_true by exact P|rewrite Z.bits_0]; reflexivity.
    - rewrite Z.pow2_bits_false, andb_false_r by congruence.
      destruct (Z.testbit x (prec f - 2)); [rewrite Z.pow2_bits_false by congruence|rewrite Z.bits_0]; reflexivity. }
  rewrite E. destruct (Z.testbit x (prec f - 2)); [apply Z.eqb_refl|]. destruct f; reflexivity.
Qed.
Lemma quiet_ok f x : is_quiet_nan f x = nan f x && Z.testbit x (prec f - 2).
Proof. unfold is_quiet_nan. rewrite indicator_bit, nan_model. destruct (Model.is_nan f x); reflexivity. Qed.
Lemma signaling_ok f x : is_signaling_nan f x = nan f x && negb (Z.testbit x (prec f - 2)).
Proof. unfold is_signaling_nan. rewrite quiet_ok, nan_model. destruct (Model.is_nan f x); reflexivity. Qed.
Lemma payload_ok f x : get_nan_payload f x = x mod 2 ^ (prec f - 2).
Proof.
  unfold get_nan_payload. replace (Z.shiftl 1 (precision f - 1) - 1) with (Z.ones (prec f - 2)) by (destruct f; reflexivity).
  apply Z.land_ones. destruct f; discriminate.
Qed.
Lemma fraction_bits f x : extract_significand_bits f x = fraction f x.
Proof.
  unfold extract_significand_bits, fraction. replace (Z.shiftl 1 (precision f) - 1) with (Z.ones (prec f - 1)) by (destruct f; reflexivity).
  apply Z.land_ones. destruct f; discriminate.
Qed.
Lemma exponent_field_bits f x : extract_exponent_bits f x = exponent_field f x.
Proof.
  unfold extract_exponent_bits, exponent_field. replace (Z.shiftl 1 (exponent_bits f) - 1) with (Z.ones (width f - prec f)) by (destruct f; reflexivity).
  rewrite Z.land_ones, Z.shiftr_div_pow2 by (destruct f; discriminate). unfold wrap.
  replace (precision f) with (prec f - 1) by (destruct f; reflexivity).
  replace (2 ^ 32) with (2 ^ (32 - (width f - prec f)) * 2 ^ (width f - prec f)) by (destruct f; reflexivity).
  rewrite (Z.mul_comm (2 ^ (32 - _))). rewrite Z.rem_mul_r by (destruct f; discriminate || reflexivity).
  rewrite (Z.mul_comm (2 ^ (width f - prec f))), Z_mod_plus_full, Z.mod_mod by (destruct f; discriminate). reflexivity.
Qed.

(** all of it *)
Lemma classification f x : pattern f x ->
  (Model.is_finite f x = finite f x /\ Model.is_nan f x = nan f x /\ is_infinity f x = infinite f x /\
   is_negative f x = negative f x /\ is_positive f x = negb (negative f x) /\
   is_positive_infinity f x = infinite f x && negb (negative f x) /\
   is_negative_infinity f x = infinite f x && negative f x) /\
  ((finite f x = true -> (is_nonzero f x = true <-> value f x <> 0%R)) /\ (finite f x = false -> is_nonzero f x = true)) /\
  (is_subnormal f x = true <-> finite f x = true /\ (Rabs (value f x) < bpow radix2 (emin f + prec f - 1))%R) /\
  (is_quiet_nan f x = nan f x && Z.testbit x (prec f - 2) /\ is_signaling_nan f x = nan f x && negb (Z.testbit x (prec f - 2)) /\
   get_nan_payload f x = x mod 2 ^ (prec f - 2)) /\
  extract_significand_bits f x = fraction f x /\ extract_exponent_bits f x = exponent_field f x.
Proof.
  intros Hx. repeat split.
  - symmetry. apply finite_model.
  - symmetry. apply nan_model.
  - apply infinity_ok, Hx.
  - symmetry. apply negative_model, Hx.
  - apply positive_ok, Hx.
  - apply positive_infinity_ok, Hx.
  - apply negative_infinity_ok, Hx.
  - intros N. apply nonzero_model; assumption.
  - intros N. apply nonzero_model; assumption.
  - apply nonzero_special, Hx.
  - apply subnormal_ok in H. apply H.
  - apply subnormal_ok in H. apply H.
  - apply subnormal_ok.
  - apply quiet_ok.
  - apply signaling_ok.
  - apply payload_ok.
  - apply fraction_bits.
  - apply exponent_field_bits.
Qed.
