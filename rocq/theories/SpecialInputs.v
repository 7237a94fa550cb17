(** * Zeros, infinities and NaNs as arguments of grisu_exact *)

From Coq Require Import ZArith Reals List Bool Lia Lra.
From Flocq Require Import Core.
From Verif Require Import Machine Model Link Spec Bridge Main Claims Outputs.
Import ListNotations.
Open Scope Z_scope.

(** ** Infinities and NaNs: the index into the table of powers is too small *)
Definition special_exponent (f : fmt) : Z := Z.shiftr (exponent_bits_mask f) (precision f) + exponent_bias f - extended_precision f + 1.
Lemma special_decompose f x : is_finite f x = false -> snd (decompose f x) = special_exponent f.
Proof.
  unfold is_finite. intros H. apply negb_false_iff, Z.eqb_eq in H.
  assert (E : Z.land (Z.shiftr x (precision f)) (Z.shiftr (exponent_bits_mask f) (precision f)) = Z.shiftr (exponent_bits_mask f) (precision f)) by (rewrite <- Z.shiftr_land, H; reflexivity).
  unfold decompose. rewrite E. replace (Z.shiftr (exponent_bits_mask f) (precision f) =? 0) with false by (destruct f; reflexivity). reflexivity.
Qed.
Definition stops (cfg : config) {A : Type} : outcome A := if cfg_ndebug cfg then Undefined else AssertFailed.
Lemma special_compute cfg f p crs x : is_finite f x = false -> compute cfg f p crs x = stops cfg.
Proof.
  intros H. apply special_decompose in H. unfold compute. destruct (decompose f x) as [s e]. cbn [snd] in H. subst e.
  assert (E1 : exists k l b, floor_log10_pow2 cfg (special_exponent f + 1 - alpha f) = Ok k /\ floor_log2_pow10 cfg (- k) = Ok l /\
    i32 (- (special_exponent f + l + 1)) = Ok b /\ cassert cfg ((alpha f <=? - b) && (- b <=? gamma f)) = Ok tt /\ get_cache cfg f (- k) = stops cfg).
  { destruct cfg as [mul ctz x64 nd]. destruct f, nd; do 3 eexists; (split; [vm_compute; reflexivity|]); (split; [vm_compute; reflexivity|]); (split; [vm_compute; reflexivity|]); split; vm_compute; reflexivity. }
  destruct E1 as (k & l & b & -> & E2 & E3 & E4 & E5). cbn [bind]. rewrite E2. cbn [bind]. rewrite E3. cbn [bind]. rewrite E4. cbn [bind]. rewrite E5.
  unfold stops. destruct (cfg_ndebug cfg); reflexivity.
Qed.
Lemma special_inputs cfg f rs m crs h x : finite f x = false ->
  grisu_exact cfg f rs m crs h x = if cfg_ndebug cfg then Undefined else AssertFailed.
Proof.
  rewrite finite_model. intros H. unfold grisu_exact. rewrite special_compute by exact H. unfold run_case_handler, cassert, stops. rewrite H.
  destruct h, (cfg_ndebug cfg); reflexivity.
Qed.

(** ** Zeros: two inputs for each format *)
Lemma zero_input f x : pattern f x -> finite f x = true -> value f x = 0%R -> x = 0 \/ x = 2 ^ (width f - 1).
Proof.
  intros Hx Hf Hv. assert (N : is_nonzero f x = false).
  { destruct (is_nonzero f x) eqn:E; [exfalso; apply (proj2 (nonzero_model f x Hx Hf) E), Hv | reflexivity]. }
  unfold is_nonzero in N. apply negb_false_iff, Z.eqb_eq in N. unfold wrap in N. rewrite Z.shiftl_mul_pow2 in N by lia. unfold pattern in Hx.
  replace (extended_precision f) with (width f) in N by (destruct f; reflexivity).
  assert (E : width f = 1 + (width f - 1)) by ring. assert (W : 0 <= width f - 1) by (destruct f; discriminate). rewrite E in N, Hx. rewrite Z.pow_add_r in N, Hx by lia.
  apply Z.mod_divide in N; [|apply Z.neq_mul_0; split; [discriminate | apply Z.pow_nonzero; lia]]. destruct N as [q Q].
  assert (P : 0 < 2 ^ (width f - 1)) by (apply Z.pow_pos_nonneg; lia). change (2 ^ 1) with 2 in *. assert (X : x = q * 2 ^ (width f - 1)) by nia. assert (0 <= q < 2) by nia.
  assert (q = 0 \/ q = 1) by lia. rewrite X. lia.
Qed.

Definition zero_exponent (f : fmt) : Z := match f with Binary32 => -37 | Binary64 => -307 end.
Definition same_outcome (a b : outcome (Z * Z)) : bool :=
  match a, b with
  | Ok (s, e), Ok (s', e') => (s =? s') && (e =? e')
  | AssertFailed, AssertFailed | Undefined, Undefined => true
  | _, _ => false
  end.
Lemma same_outcome_eq a b : same_outcome a b = true -> a = b.
Proof.
  destruct a as [[s e]| | |], b as [[s' e']| | |]; cbn [same_outcome]; try discriminate; try reflexivity.
  intros H. apply andb_true_iff in H. destruct H as [H1 H2]. apply Z.eqb_eq in H1, H2. subst. reflexivity.
Qed.
(** what [compute] gives for a zero: the masking version of ctz accepts 0, the others do not *)
Definition zero_result (cfg : config) (f : fmt) (inward : bool) (crs : crs_tag) : outcome (Z * Z) :=
  if negb inward then Ok (0, zero_exponent f)
  else if negb (cfg_ndebug cfg) then AssertFailed
  else match cfg_ctz cfg with
       | CtzMask => Ok (match f with Binary32 => (1, -45) | Binary64 => (match crs with do_not_care => 4 | _ => 2 end, -324) end)
       | _ => Undefined
       end.
Definition every_config : list config :=
  flat_map (fun mul => flat_map (fun ctz => flat_map (fun x64 => map (fun nd => mk_config mul ctz x64 nd) [true; false]) [true; false]) [CtzBuiltin; CtzBitScan; CtzMask]) [MulInt128; MulMsvc; MulPortable].
Definition every_mode : list rounding_mode :=
  [nearest_to_even; nearest_to_odd; nearest_toward_plus_infinity; nearest_toward_minus_infinity; nearest_toward_zero; nearest_away_from_zero;
   nearest_to_even_static_boundary; nearest_to_odd_static_boundary; nearest_toward_plus_infinity_static_boundary; nearest_toward_minus_infinity_static_boundary;
   toward_plus_infinity; toward_minus_infinity; toward_zero; away_from_zero].
Definition every_rule : list crs_tag := [do_not_care; tie_to_even; tie_to_odd; tie_to_up; tie_to_down].
Lemma config_in cfg : In cfg every_config.
Proof. destruct cfg as [mul ctz x64 nd]. destruct mul, ctz, x64, nd; cbn; tauto. Qed.
Lemma mode_in m : In m every_mode.
Proof. destruct m; cbn; tauto. Qed.
Lemma rule_in c : In c every_rule.
Proof. destruct c; cbn; tauto. Qed.
Lemma format_in f : In f [Binary32; Binary64].
Proof. destruct f; cbn; tauto. Qed.
Lemma sign_in b : In b [true; false].
Proof. destruct b; cbn; tauto. Qed.
Definition zero_of (f : fmt) (neg : bool) : Z := if neg then 2 ^ (width f - 1) else 0.

(** one build with assertions decides for all: 14 modes, 5 policies, 2 zeros and 2 formats *)
Lemma zero_checked : forallb (fun f => forallb (fun neg => forallb (fun m => forallb (fun crs =>
    rounds_inward m neg || same_outcome (compute debug_build f (delegate f m (zero_of f neg)) crs (zero_of f neg)) (Ok (0, zero_exponent f)))
    every_rule) every_mode) [true; false]) [Binary32; Binary64] = true.
Proof. vm_compute. reflexivity. Qed.
(** modes toward zero: 36 builds, 5 policies, 2 zeros and 2 formats *)
Lemma inward_checked : forallb (fun f => forallb (fun neg => forallb (fun cfg => forallb (fun crs =>
    same_outcome (compute cfg f p_left_closed_directed crs (zero_of f neg)) (zero_result cfg f true crs))
    every_rule) every_config) [true; false]) [Binary32; Binary64] = true.
Proof. vm_compute. reflexivity. Qed.

Lemma zero_is f x : pattern f x -> finite f x = true -> value f x = 0%R -> x = zero_of f (negative f x).
Proof.
  intros Hx Hf Hv. rewrite (negative_model f x Hx). destruct (zero_input f x Hx Hf Hv) as [-> | ->]; destruct f; reflexivity.
Qed.
Lemma zero_compute f m crs neg : rounds_inward m neg = false ->
  compute debug_build f (delegate f m (zero_of f neg)) crs (zero_of f neg) = Ok (0, zero_exponent f).
Proof.
  intros Hm. pose proof zero_checked as Z. rewrite forallb_forall in Z. specialize (Z f (format_in f)).
  rewrite forallb_forall in Z. specialize (Z neg (sign_in neg)). rewrite forallb_forall in Z. specialize (Z m (mode_in m)).
  rewrite forallb_forall in Z. specialize (Z crs (rule_in crs)). cbv beta in Z. rewrite Hm in Z. apply same_outcome_eq, Z.
Qed.
Lemma inward_compute cfg f crs neg : compute cfg f p_left_closed_directed crs (zero_of f neg) = zero_result cfg f true crs.
Proof.
  pose proof inward_checked as Z. rewrite forallb_forall in Z. specialize (Z f (format_in f)).
  rewrite forallb_forall in Z. specialize (Z neg (sign_in neg)). rewrite forallb_forall in Z. specialize (Z cfg (config_in cfg)).
  rewrite forallb_forall in Z. specialize (Z crs (rule_in crs)). cbv beta in Z. apply same_outcome_eq, Z.
Qed.
Lemma inward_provider f m neg : rounds_inward m neg = true -> delegate f m (zero_of f neg) = p_left_closed_directed.
Proof. destruct m; try discriminate; destruct neg; try discriminate; destruct f; reflexivity. Qed.
Lemma handled cfg f h x : is_finite f x = true -> run_case_handler cfg f h x = Ok tt.
Proof. intros H. unfold run_case_handler, cassert. rewrite H. destruct h, (cfg_ndebug cfg); reflexivity. Qed.
Lemma inward_inputs cfg f rs m crs h x : pattern f x -> finite f x = true -> value f x = 0%R -> rounds_inward m (negative f x) = true ->
  grisu_exact cfg f rs m crs h x = (se <- zero_result cfg f true crs ;; Ok (mk_fp (fst se) (snd se) (if rs then Some (negative f x) else None))).
Proof.
  intros Hx Hf Hv Hm. unfold grisu_exact. rewrite <- (negative_model f x Hx), handled by (rewrite <- finite_model; exact Hf). cbn [bind].
  rewrite (zero_is f x Hx Hf Hv) at 1 2. rewrite inward_provider, inward_compute by exact Hm. reflexivity.
Qed.
Lemma zero_returned cfg f rs m crs h x : pattern f x -> finite f x = true -> value f x = 0%R -> rounds_inward m (negative f x) = false ->
  grisu_exact cfg f rs m crs h x = Ok (mk_fp 0 (match f with Binary32 => -37 | Binary64 => -307 end) (if rs then Some (negative f x) else None)).
Proof.
  intros Hx Hf Hv Hm. apply (debug_decides debug_build); [reflexivity|]. unfold grisu_exact. rewrite <- (negative_model f x Hx), handled by (rewrite <- finite_model; exact Hf). cbn [bind].
  rewrite (zero_is f x Hx Hf Hv) at 1 2. rewrite zero_compute by exact Hm. reflexivity.
Qed.

(** ** What is returned for a zero reads back *)
Open Scope R_scope.
Lemma floor_small f v : 0 <= v < bpow radix2 (emin f) -> round radix2 (FLT_exp (emin f) (prec f)) Zfloor v = 0.
Proof.
  intros [P L]. assert (Hp : Prec_gt_0 (prec f)) by (destruct f; reflexivity). pose proof (FLT_exp_valid (emin f) (prec f)) as Vf.
  set (w := round radix2 (FLT_exp (emin f) (prec f)) Zfloor v).
  assert (W : 0 <= w <= v).
  { split; [|apply round_DN_pt; assumption]. rewrite <- (round_0 radix2 (FLT_exp (emin f) (prec f)) Zfloor). apply round_le; [assumption | typeclasses eauto | exact P]. }
  destruct (Rle_lt_or_eq_dec 0 w (proj1 W)) as [G|E]; [exfalso|symmetry; exact E].
  assert (B : bpow radix2 (emin f) <= w); [|lra]. apply (generic_format_ge_bpow radix2 (FLT_exp (emin f) (prec f))); [intros e; apply Z.le_max_r | exact G | apply generic_format_round; [assumption | typeclasses eauto]].
Qed.
Lemma inward_small f m neg v : rounds_inward m neg = true -> 0 <= v < bpow radix2 (emin f) -> read f m (cond_Ropp neg v) = 0.
Proof.
  intros Hm B. pose proof (floor_small f v B) as F. unfold read.
  destruct m; try discriminate Hm; cbn [reading]; destruct neg; try discriminate Hm; cbn [cond_Ropp]; try exact F.
  - rewrite round_UP_opp, F. apply Ropp_0.
  - rewrite round_ZR_opp, round_ZR_DN, F by apply B. apply Ropp_0.
  - rewrite round_ZR_DN by apply B. exact F.
Qed.
Lemma tiny f s e : (0 <= s)%Z -> (e < 0)%Z -> (s * 2 ^ (- emin f) <? 10 ^ (- e))%Z = true -> 0 <= decimal s e < bpow radix2 (emin f).
Proof.
  intros Hs He H. apply Z.ltb_lt, IZR_lt in H. rewrite mult_IZR in H. change 2%Z with (radix_val radix2) in H. change 10%Z with (radix_val radix10) in H.
  rewrite !IZR_Zpower in H by (destruct f; cbn; lia). unfold decimal, F2R. cbn [Fnum Fexp].
  pose proof (bpow_gt_0 radix10 e). pose proof (bpow_gt_0 radix2 (emin f)). assert (0 <= IZR s) by (apply IZR_le; exact Hs).
  split; [apply Rmult_le_pos; lra|]. rewrite !bpow_opp in H.
  apply Rmult_lt_reg_r with (/ bpow radix2 (emin f) * / bpow radix10 e); [apply Rmult_lt_0_compat; apply Rinv_0_lt_compat; assumption|].
  replace (IZR s * bpow radix10 e * (/ bpow radix2 (emin f) * / bpow radix10 e)) with (IZR s * / bpow radix2 (emin f)) by (field; lra).
  replace (bpow radix2 (emin f) * (/ bpow radix2 (emin f) * / bpow radix10 e)) with (/ bpow radix10 e) by (field; lra). exact H.
Qed.
Close Scope R_scope.

Lemma zero_inward cfg f rs m crs h x : pattern f x -> finite f x = true -> value f x = 0%R -> rounds_inward m (negative f x) = true ->
  (cfg_ndebug cfg = false -> grisu_exact cfg f rs m crs h x = AssertFailed) /\
  (cfg_ndebug cfg = true -> cfg_ctz cfg <> CtzMask -> grisu_exact cfg f rs m crs h x = Undefined) /\
  (cfg_ndebug cfg = true -> cfg_ctz cfg = CtzMask ->
    exists r, grisu_exact cfg f rs m crs h x = Ok r /\ 0 < fp_significand r /\ reads_back f m x (signed f x r) (fp_exponent r)).
Proof.
  intros Hx Hf Hv Hm. rewrite (inward_inputs cfg f rs m crs h x Hx Hf Hv Hm). unfold zero_result. cbn [negb]. repeat apply conj.
  - intros ->. reflexivity.
  - intros -> C. destruct (cfg_ctz cfg); [reflexivity | reflexivity | congruence].
  - intros -> ->. cbn [negb bind]. eexists. split; [reflexivity|]. unfold reads_back, signed. rewrite Hv. cbn [fp_significand fp_exponent].
    rewrite decimal_signed. split; [destruct f, crs; reflexivity|].
    apply inward_small; [exact Hm|]. destruct f; [|destruct crs]; cbn [fst snd]; apply tiny; try lia; vm_compute; reflexivity.
Qed.
Lemma special_stops cfg f rs m crs h x : finite f x = false ->
  (cfg_ndebug cfg = false -> grisu_exact cfg f rs m crs h x = AssertFailed) /\
  (cfg_ndebug cfg = true -> grisu_exact cfg f rs m crs h x = Undefined).
Proof. intros H. rewrite (special_inputs cfg f rs m crs h x H). split; intros ->; reflexivity. Qed.
