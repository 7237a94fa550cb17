(** * decompose_float of the live test *)

From Coq Require Import ZArith Reals Lra Lia Bool.
From Flocq Require Import Core.
From Verif Require Import Machine Model CheckModel Spec UserSpec ProgramSpec ExpFacts Core Link Bridge.
Open Scope Z_scope.

Lemma exponent_part f x : 0 <= x -> Z.shiftr (wrap (extended_precision f) (Z.shiftl x 1)) (precision f + 1) = expo f x.
Proof.
  intros Hx. unfold wrap, expo. rewrite Z.shiftl_mul_pow2, Z.shiftr_div_pow2 by (destruct f; cbn; lia).
  replace (2 ^ extended_precision f) with (2 ^ precision f * 2 ^ exponent_bits f * 2 ^ 1) by (destruct f; reflexivity).
  replace (2 ^ (precision f + 1)) with (2 ^ precision f * 2 ^ 1) by (destruct f; reflexivity).
  pose proof (pp f). pose proof (pe f).
  rewrite Z.mul_mod_distr_r, Z.div_mul_cancel_r by lia.
  rewrite Z.rem_mul_r by lia. rewrite (Z.mul_comm (2 ^ precision f)), Z.div_add, Z.div_small by (try apply Z.mod_pos_bound; lia). reflexivity.
Qed.
Lemma sign_part f x : 0 <= x < 2 ^ extended_precision f -> negb (Z.land x (sign_bit_mask f) =? 0) = is_negative f x.
Proof.
  intros Hx. unfold is_negative, sign_bit_mask. f_equal. rewrite Z.shiftr_div_pow2 by (destruct f; discriminate).
  change (Z.shiftl 1 (extended_precision f - 1)) with (Z.shiftl (Z.shiftl 1 1 - 1) (extended_precision f - 1)).
  rewrite mask_mod by (destruct f; cbn; lia). change (2 ^ 1) with 2.
  assert (E : 2 ^ extended_precision f = 2 * 2 ^ (extended_precision f - 1)) by (destruct f; reflexivity).
  assert (P : 0 < 2 ^ (extended_precision f - 1)) by (destruct f; reflexivity). set (B := 2 ^ (extended_precision f - 1)) in *. clearbody B.
  assert (R : 0 <= x / B < 2) by (split; [apply Z.div_pos; lia | apply Z.div_lt_upper_bound; lia]).
  rewrite Z.mod_small by exact R. destruct (Z.eqb_spec (x / B) 0) as [->|N]; [reflexivity|]. apply Z.eqb_neq. nia.
Qed.
Lemma decompose_float_ok cfg f x : pattern f x ->
  decompose_float cfg f x = Ok (mk_fp (fc f (n_of f x)) (if expo f x =? 0 then exp_min f - 1 else e_of f x) (Some (negative f x))).
Proof.
  intros Px. assert (Hx : 0 <= x < 2 ^ extended_precision f) by (destruct f; exact Px).
  unfold decompose_float. cbv zeta. rewrite exponent_part, sign_part, <- negative_model by (apply Hx || exact Hx || exact Px).
  pose proof (expo_range f x) as Er.
  assert (Eb : to_int (wrap 64 (expo f x + (exponent_bias f - extended_precision f + 1))) = expo f x + exp_min f - 1).
  { unfold to_int, wrap. rewrite Z.add_mod_idemp_l || idtac.
    replace (exponent_bias f - extended_precision f + 1) with (exp_min f - 1) by (destruct f; reflexivity).
    assert (R : - 2 ^ 31 <= expo f x + exp_min f - 1 < 2 ^ 31) by (destruct f; cbn in Er |- *; lia).
    replace (expo f x + (exp_min f - 1)) with (expo f x + exp_min f - 1) by ring. set (t := expo f x + exp_min f - 1) in *. clearbody t. clear - R.
    rewrite (Z.mod_eq t (2 ^ 64)) by lia. replace (t - 2 ^ 64 * (t / 2 ^ 64) + 2 ^ 31) with (t + 2 ^ 31 + (- (2 ^ 32 * (t / 2 ^ 64))) * 2 ^ 32) by lia.
    rewrite Z_mod_plus_full, Z.mod_small by lia. lia. }
  rewrite Eb.
  assert (A : negb (expo f x + exp_min f - 1 =? 1 - exponent_bias f) = true).
  { apply negb_true_iff, Z.eqb_neq. destruct f; cbn in Er |- *; lia. }
  rewrite A. unfold cassert. replace (if cfg_ndebug cfg then Ok tt else Ok tt) with (Ok tt) by (destruct cfg as [? ? ? []]; reflexivity). cbn [bind].
  pose proof (decompose_ok f x) as D. unfold decompose in D.
  assert (EE : Z.land (Z.shiftr x (precision f)) (Z.shiftr (exponent_bits_mask f) (precision f)) = expo f x).
  { assert (M : Z.shiftr (exponent_bits_mask f) (precision f) = Z.ones (exponent_bits f)) by (destruct f; reflexivity).
    rewrite M, Z.land_ones, Z.shiftr_div_pow2 by (destruct f; discriminate). reflexivity. }
  rewrite EE in D. change (extended_precision f - precision f - 1) with (exponent_bits f). unfold e_of.
  destruct (Z.eqb_spec (expo f x) 0) as [E0|E0]; cbn [negb] in D.
  - apply (f_equal fst) in D. cbn [fst] in D. rewrite Z.lor_0_r, D, E0. reflexivity.
  - apply (f_equal fst) in D. cbn [fst] in D. rewrite D. do 2 f_equal. lia.
Qed.

Open Scope R_scope.
Lemma fc_value f x e : F2R (Float radix2 (cond_Zopp (sgn f x) (fc f (n_of f x))) e) = cond_Ropp (sgn f x) (IZR (n_of f x) * bpow radix2 (e + exponent_bits f)).
Proof.
  rewrite F2R_cond_Zopp. f_equal. unfold F2R, fc. cbn [Fnum Fexp]. rewrite mult_IZR, bpow_plus.
  replace (IZR (normal_interval_length f)) with (bpow radix2 (exponent_bits f)) by (destruct f; unfold normal_interval_length, boundary_bit; cbn; lra). ring.
Qed.
Lemma normal_expo f x : finite f x = true -> normal f x -> expo f x <> 0%Z.
Proof.
  intros F N E. unfold normal in N. rewrite (value_fields f x F) in N. unfold n_of, e0_of, e_of in N. rewrite E in N. cbn [Z.eqb] in N.
  pose proof (frac_range f x) as R. pose proof (bpow_gt_0 radix2 (exp_min f + exponent_bits f)) as P.
  assert (A : Rabs (cond_Ropp (sgn f x) (IZR (frac f x) * bpow radix2 (exp_min f + exponent_bits f))) = IZR (frac f x) * bpow radix2 (exp_min f + exponent_bits f)).
  { assert (0 <= IZR (frac f x)) by (apply IZR_le; lia). destruct (sgn f x); cbn [cond_Ropp]; [rewrite Rabs_Ropp|]; apply Rabs_pos_eq; nra. }
  rewrite A in N. assert (L : IZR (frac f x) < bpow radix2 (precision f)).
  { replace (bpow radix2 (precision f)) with (IZR (2 ^ precision f)) by (destruct f; reflexivity). apply IZR_lt, R. }
  replace (emin f + prec f - 1)%Z with (precision f + (exp_min f + exponent_bits f))%Z in N by (destruct f; reflexivity). rewrite bpow_plus in N. nra.
Qed.
Lemma expo_normal f x : finite f x = true -> expo f x <> 0%Z -> normal f x.
Proof.
  intros F E. unfold normal. rewrite (value_fields f x F). unfold n_of, e0_of, e_of. rewrite (proj2 (Z.eqb_neq _ _) E).
  pose proof (frac_range f x) as R. pose proof (expo_range f x) as Re.
  set (n := (2 ^ precision f + frac f x)%Z). set (b := bpow radix2 (exp_min f + expo f x - 1 + exponent_bits f)). pose proof (bpow_gt_0 radix2 (exp_min f + expo f x - 1 + exponent_bits f)) as P. fold b in P.
  assert (N0 : IZR (2 ^ precision f) <= IZR n) by (apply IZR_le; unfold n; lia). pose proof (IZR_lt 0 _ (pp f)) as P0.
  assert (A : Rabs (cond_Ropp (sgn f x) (IZR n * b)) = IZR n * b).
  { assert (0 <= IZR n * b) by (apply Rmult_le_pos; lra). destruct (sgn f x); cbn [cond_Ropp]; [rewrite Rabs_Ropp|]; apply Rabs_pos_eq; assumption. }
  rewrite A. replace (IZR (2 ^ precision f)) with (bpow radix2 (precision f)) in * by (destruct f; reflexivity).
  apply Rle_trans with (bpow radix2 (precision f) * b); [|apply Rmult_le_compat_r; lra]. unfold b. rewrite <- bpow_plus. apply bpow_le.
  replace (emin f + prec f - 1)%Z with (precision f + (exp_min f + exponent_bits f))%Z by (destruct f; reflexivity). lia.
Qed.

Lemma decomposed cfg f x : pattern f x -> finite f x = true -> value f x = 0 \/ normal f x ->
  exists r, decompose_float cfg f x = Ok r /\ fp_is_negative r = Some (negative f x) /\ binary (signed f x r) (fp_exponent r) = value f x.
Proof.
  intros Px F H. eexists. split; [apply decompose_float_ok, Px|]. split; [reflexivity|]. unfold signed, binary. cbn [fp_significand fp_exponent].
  rewrite (negative_model f x Px), <- (sgn_negative f x Px), fc_value, (value_fields f x F).
  destruct (Z.eqb_spec (expo f x) 0) as [E|E]; [|reflexivity].
  destruct H as [H|H]; [|contradict E; apply normal_expo; assumption].
  rewrite (value_fields f x F) in H. pose proof (bpow_gt_0 radix2 (e0_of f x)).
  assert (N0 : IZR (n_of f x) = 0) by (destruct (sgn f x); cbn [cond_Ropp] in H; nra). rewrite N0, !Rmult_0_l. reflexivity.
Qed.
Lemma decomposed_subnormal cfg f x : pattern f x -> finite f x = true -> ~ normal f x ->
  exists r, decompose_float cfg f x = Ok r /\ 2 * binary (signed f x r) (fp_exponent r) = value f x.
Proof.
  intros Px F H. eexists. split; [apply decompose_float_ok, Px|]. unfold signed, binary. cbn [fp_significand fp_exponent].
  rewrite (negative_model f x Px), <- (sgn_negative f x Px), fc_value, (value_fields f x F).
  destruct (Z.eqb_spec (expo f x) 0) as [E|E]; [|contradict H; apply expo_normal; assumption].
  unfold e0_of, e_of. rewrite E. cbn [Z.eqb]. replace (exp_min f + exponent_bits f)%Z with (1 + (exp_min f - 1 + exponent_bits f))%Z by ring.
  rewrite (bpow_plus radix2 1). change (bpow radix2 1) with 2. destruct (sgn f x); cbn [cond_Ropp]; ring.
Qed.
Lemma decomposed_special cfg f x : pattern f x -> exists r, decompose_float cfg f x = Ok r.
Proof. intros Px. eexists. apply decompose_float_ok, Px. Qed.
