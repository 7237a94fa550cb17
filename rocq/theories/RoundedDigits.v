(** * The result is the input rounded to its number of digits; other readers *)

From Coq Require Import ZArith Reals List Bool Lia Lra.
From Flocq Require Import Core.
From Verif Require Import Machine Model ExpFacts Core Link Spec UserSpec RoundSpec Bridge ReadsBack Results Claims Main Shortest Chars Outputs Inward Users Formats RyuDecimal.
Open Scope R_scope.

Lemma exponent_field_eq f x : exponent_field f x = expo f x. Proof. destruct f; reflexivity. Qed.
Lemma cond_Zopp_twice b s : cond_Zopp b (cond_Zopp b s) = s. Proof. destruct b; cbn [cond_Zopp]; lia. Qed.
Lemma digits_cond b s : digits (cond_Zopp b s) = digits s. Proof. destruct b; [apply Zdigits_opp | reflexivity]. Qed.
Lemma ends_alike f m x : alike m = true -> include_left_endpoint (provider_call f (delegate f m x) x) = include_right_endpoint (provider_call f (delegate f m x) x).
Proof.
  intros H. destruct m; try discriminate H; unfold delegate; destruct (x mod 2 =? 0)%Z eqn:Q; cbn [provider_call]; rewrite ?Q; reflexivity.
Qed.
Section Input.
Variables (f : fmt) (m : rounding_mode) (x : Z).
Hypothesis Hin : input f x.
Hypothesis Hm : is_nearest m = true.
Hypothesis Hg : even_gaps f x.
Local Notation neg := (Model.is_negative f x).
Local Notation n := (n_of f x).
Local Notation e2 := (e_of f x).
Local Notation q := (quarter f e2).
Let X := IZR n * bpow radix2 (e0_of f x).

Lemma not_edge : is_edge f e2 n = false.
Proof using Hg.
  unfold is_edge. destruct Hg as [F|F]; [rewrite fraction_eq in F | rewrite exponent_field_eq in F]; unfold n_of, e_of.
  - pose proof (frac_range f x). destruct (Z.eqb_spec (expo f x) 0).
    + destruct (Z.eqb_spec (frac f x) (2 ^ precision f)); [lia | reflexivity].
    + destruct (Z.eqb_spec (2 ^ precision f + frac f x) (2 ^ precision f)); [lia | reflexivity].
  - pose proof (expo_range f x). destruct (Z.eqb_spec (expo f x) 0); [rewrite Z.eqb_refl; apply andb_false_r|].
    replace (exp_min f + expo f x - 1)%Z with (exp_min f) by lia. rewrite Z.eqb_refl. apply andb_false_r.
Qed.
Lemma X_quarters : X = 4 * IZR n * q.
Proof using. unfold X. rewrite x_quarters, mult_IZR. ring. Qed.
Lemma n_one : 1 <= IZR n.
Proof using Hin. apply IZR_le. pose proof (input_facts f x Hin). lia. Qed.
(** the interval of the input *)
Lemma interval y : 0 < y -> (read f m (cond_Ropp neg y) = value f x <->
  (X - 2 * q < y \/ (include_left_endpoint (provider_call f (delegate f m x) x) = true /\ y = X - 2 * q)) /\
  (y < X + 2 * q \/ (include_right_endpoint (provider_call f (delegate f m x) x) = true /\ y = X + 2 * q))).
Proof using Hin Hm Hg.
  intros Hy. rewrite (reads_iff f m x Hin y Hy). unfold rin. rewrite (tag_nearest f m x Hm). unfold lo_u, hi_u. rewrite not_edge.
  rewrite minus_IZR, plus_IZR, mult_IZR. replace ((4 * IZR n - 2) * q) with (X - 2 * q) by (rewrite X_quarters; ring).
  replace ((4 * IZR n + 2) * q) with (X + 2 * q) by (rewrite X_quarters; ring). reflexivity.
Qed.
Lemma pos_X : 4 * q <= X /\ 0 < q.
Proof using Hin.
  pose proof (quarter_pos f e2). split; [|assumption]. rewrite X_quarters. pose proof n_one.
  replace (4 * IZR n * q) with (4 * q + (IZR n - 1) * (4 * q)) by ring. assert (0 <= (IZR n - 1) * (4 * q)) by (apply Rmult_le_pos; lra). lra.
Qed.
Lemma closer y y' : read f m (cond_Ropp neg y) = value f x -> Rabs (y' - X) < Rabs (y - X) -> read f m (cond_Ropp neg y') = value f x.
Proof using Hin Hm Hg.
  intros Ry L. pose proof (reads_pos f m x Hin y Ry) as P. pose proof pos_X as [PX Pq]. apply (interval y P) in Ry.
  assert (D : Rabs (y - X) <= 2 * q) by (apply Rabs_le; destruct Ry as [[A|[_ A]] [B|[_ B]]]; lra).
  assert (D' : - (2 * q) < y' - X < 2 * q) by (assert (L2 : Rabs (y' - X) < 2 * q) by lra; apply Rabs_def2 in L2; lra).
  apply interval; [lra|]. split; left; lra.
Qed.
Lemma mirror y : alike m = true -> read f m (cond_Ropp neg y) = value f x -> read f m (cond_Ropp neg (2 * X - y)) = value f x.
Proof using Hin Hm Hg.
  intros Ha Ry. pose proof (reads_pos f m x Hin y Ry) as P. pose proof pos_X as [PX Pq]. apply (interval y P) in Ry.
  pose proof (ends_alike f m x Ha) as E. apply interval.
  - destruct Ry as [_ [B|[_ B]]]; lra.
  - rewrite E in *. split; [destruct Ry as [_ [B|[T B]]] | destruct Ry as [[B|[T B]] _]]; try (left; lra); right; (split; [exact T | lra]).
Qed.
Lemma error_mag s e : error f x s e = Rabs (decimal (cond_Zopp neg s) e - X).
Proof using Hin.
  unfold error. rewrite decimal_signed, (magnitude f x Hin). fold X. destruct neg; cbn [cond_Ropp]; [|reflexivity].
  rewrite <- Rabs_Ropp. f_equal. ring.
Qed.
Section Result.
Variables (crs : crs_tag) (s e : Z).
Hypothesis Hs : (0 < s)%Z.
Hypothesis RB : reads_back f m x (cond_Zopp neg s) e.
Hypothesis CL : closest f m x (cond_Zopp neg s) e.
Hypothesis TI : breaks_ties crs f m x (cond_Zopp neg s) e.
Lemma no_better s' e' : (digits s' <= digits s)%Z -> error f x (cond_Zopp neg s) e <= error f x s' e'.
Proof using All.
  intros D. destruct (Rle_lt_dec (error f x (cond_Zopp neg s) e) (error f x s' e')) as [L|L]; [exact L|].
  apply CL; [|rewrite digits_cond; exact D]. rewrite !error_mag, cond_Zopp_twice in L. unfold reads_back in *. rewrite decimal_signed in RB.
  pose proof (closer _ _ RB L) as C. rewrite <- decimal_signed, cond_Zopp_twice in C. exact C.
Qed.
(** the input in units of 10^e *)
Let Y := X * p10 (- e).
Lemma unit_error t : Rabs (decimal t e - X) = Rabs (IZR t - Y) * p10 e.
Proof using.
  unfold Y. pose proof (bpow_gt_0 radix10 e) as P. rewrite <- (Rabs_pos_eq (p10 e)) by lra. rewrite <- Rabs_mult. f_equal.
  rewrite decimal_eq, bpow_opp. field. lra.
Qed.
Lemma no_better_unit t : Rabs (IZR s - Y) <= Rabs (IZR t - Y).
Proof using All.
  pose proof (bpow_gt_0 radix10 e) as P. pose proof pos_X as [PX Pq].
  assert (YP : 0 < Y) by (apply Rmult_lt_0_compat; [lra | apply bpow_gt_0]).
  assert (G : forall t, (digits t <= digits s)%Z -> Rabs (IZR s - Y) <= Rabs (IZR t - Y)).
  { intros u D. pose proof (no_better (cond_Zopp neg u) e) as B. rewrite digits_cond in B. specialize (B D). rewrite !error_mag, !cond_Zopp_twice, !unit_error in B.
    apply Rmult_le_reg_r in B; assumption. }
  destruct (Z_lt_le_dec t 0) as [N|N].
  { eapply Rle_trans; [apply (G 0%Z); cbn; pose proof (proj1 (Chars.digits_bounds s Hs)); unfold digits in *; cbn; lia|].
    apply IZR_lt in N. rewrite !Rabs_left by lra. lra. }
  destruct (Z.eq_dec t 0) as [->|NZ]; [apply G; pose proof (proj1 (Chars.digits_bounds s Hs)); unfold digits in *; cbn; lia|].
  destruct (Z_le_gt_dec (digits t) (digits s)) as [D|D]; [apply G, D|].
  (* t is at least the power of ten above s *)
  set (k := digits s) in *. destruct (Chars.digits_bounds s Hs) as [K B]. fold k in K, B.
  assert (T : (10 ^ k <= t)%Z).
  { destruct (Chars.digits_bounds t ltac:(lia)) as [_ Bt]. assert (10 ^ k <= 10 ^ (digits t - 1))%Z by (apply Z.pow_le_mono_r; lia). lia. }
  assert (Pk : Rabs (IZR s - Y) <= Rabs (IZR (10 ^ k) - Y)).
  { pose proof (no_better (cond_Zopp neg 1) (e + k)) as Q. rewrite digits_cond in Q. specialize (Q ltac:(unfold k in K; change (digits 1) with 1%Z; lia)).
    rewrite !error_mag, !cond_Zopp_twice in Q. replace (decimal 1 (e + k)) with (decimal (10 ^ k) e) in Q by (rewrite <- (decimal_shift 1 e k) by lia; f_equal; ring).
    rewrite !unit_error in Q. apply Rmult_le_reg_r in Q; assumption. }
  apply IZR_le in T. assert (S : IZR s < IZR (10 ^ k)) by (apply IZR_lt; lia).
  destruct (Rle_lt_dec (IZR (10 ^ k)) Y) as [A|A].
  - exfalso. rewrite !Rabs_left1 in Pk by lra. lra.
  - eapply Rle_trans; [exact Pk|]. rewrite !Rabs_pos_eq by lra. lra.
Qed.
Lemma half_unit : Rabs (IZR s - Y) <= / 2.
Proof using All. eapply Rle_trans; [apply (no_better_unit (ZnearestE Y))|]. rewrite Rabs_minus_sym. apply Znearest_half. Qed.
Lemma rounded_unit : alike m = true -> crs <> do_not_care -> s = Znearest (upward crs) Y.
Proof using All.
  intros Ha Hc. destruct half_unit as [L|L]; [symmetry; apply Znearest_imp; rewrite Rabs_minus_sym; exact L|].
  pose proof (bpow_gt_0 radix10 e) as P.
  (* the other integer half a unit away *)
  assert (T : exists t, IZR t = 2 * Y - IZR s /\ (t = s + 1 \/ t = s - 1)%Z).
  { unfold Rabs in L. destruct (Rcase_abs (IZR s - Y)); [exists (s + 1)%Z; rewrite plus_IZR | exists (s - 1)%Z; rewrite minus_IZR]; (split; [lra | auto]). }
  destruct T as (t & Et & Dt).
  assert (Rt : read f m (cond_Ropp neg (decimal t e)) = value f x).
  { replace (decimal t e) with (2 * X - decimal s e); [apply mirror; [exact Ha | rewrite <- decimal_signed; exact RB]|].
    rewrite !decimal_eq, Et. unfold Y. rewrite bpow_opp. field. lra. }
  assert (Pt : (0 < t)%Z) by (apply lt_IZR; pose proof (reads_pos f m x Hin _ Rt) as Q; rewrite decimal_eq in Q; apply Rmult_lt_reg_r with (p10 e); lra).
  assert (W : wins_tie crs (cond_Zopp neg s) e (cond_Zopp neg t) e).
  { assert (W' : forall s' e', decimal s' e' = decimal t e -> (digits s' <= digits s)%Z -> wins_tie crs (cond_Zopp neg s) e (cond_Zopp neg s') e').
    { intros s' e' Ed D. apply TI.
      - unfold reads_back. rewrite decimal_signed, Ed. exact Rt.
      - rewrite !digits_cond. exact D.
      - rewrite !error_mag, !cond_Zopp_twice, Ed, !unit_error. f_equal. rewrite Et. replace (2 * Y - IZR s - Y) with (- (IZR s - Y)) by ring. apply Rabs_Ropp.
      - rewrite !decimal_signed, Ed. rewrite cond_Ropp_inj. intros Q. apply decimal_inj in Q. lia. }
    destruct (Z_le_gt_dec (digits t) (digits s)) as [D|D]; [apply W'; [reflexivity | exact D]|].
    set (k := digits s) in *. destruct (Chars.digits_bounds s Hs) as [K B]. destruct (Chars.digits_bounds t Pt) as [_ Bt]. fold k in K, B.
    assert (Tk : t = (10 ^ k)%Z) by (assert (10 ^ k <= 10 ^ (digits t - 1))%Z by (apply Z.pow_le_mono_r; lia); lia).
    assert (Ed : decimal 1 (e + k) = decimal t e) by (rewrite Tk, <- (decimal_shift 1 e k) by lia; f_equal; ring).
    specialize (W' 1%Z (e + k)%Z Ed ltac:(change (digits 1) with 1%Z; lia)).
    destruct crs; cbn [wins_tie] in *; try exact W'; rewrite !decimal_signed, ?Ed in *; exact W'. }
  assert (Even : Z.even (cond_Zopp neg s) = Z.even s) by (destruct neg; cbn [cond_Zopp]; [apply Z.even_opp | reflexivity]).
  assert (Mag : forall a, Rabs (decimal (cond_Zopp neg a) e) = Rabs (IZR a) * p10 e).
  { intros a. rewrite decimal_signed. destruct neg; cbn [cond_Ropp]; [rewrite Rabs_Ropp|]; rewrite decimal_eq, Rabs_mult, (Rabs_pos_eq (p10 e)) by lra; reflexivity. }
  assert (Up : upward crs (Z.min s t) = (t <? s)%Z).
  { apply IZR_lt in Pt as Pt'. apply IZR_lt in Hs as Hs'. destruct Dt as [D|D].
    - rewrite Z.min_l by lia. replace (t <? s)%Z with false by (symmetry; apply Z.ltb_ge; lia).
      destruct crs; cbn [upward wins_tie] in *; try reflexivity; try (rewrite Even in W; rewrite W; reflexivity).
      exfalso. rewrite !Mag in W. rewrite !Rabs_pos_eq in W by lra. apply Rmult_lt_reg_r in W; [|exact P]. apply lt_IZR in W. lia.
    - rewrite Z.min_r by lia. replace (t <? s)%Z with true by (symmetry; apply Z.ltb_lt; lia).
      assert (Z.even t = negb (Z.even s)) as Ev by (rewrite D, Z.sub_1_r, Z.even_pred, <- Z.negb_even; reflexivity).
      destruct crs; cbn [upward wins_tie] in *; try reflexivity; try contradiction; try (rewrite Even in W; rewrite Ev, W; reflexivity).
      exfalso. rewrite !Mag in W. rewrite !Rabs_pos_eq in W by lra. apply Rmult_lt_reg_r in W; [|exact P]. apply lt_IZR in W. lia. }
  assert (Fl : Zfloor Y = Z.min s t).
  { apply Zfloor_imp. rewrite plus_IZR. destruct Dt as [D|D]; [rewrite Z.min_l by lia | rewrite Z.min_r by lia];
      assert (IZR t = IZR s + 1 \/ IZR t = IZR s - 1) by (rewrite D, ?plus_IZR, ?minus_IZR; auto); rewrite D, ?plus_IZR, ?minus_IZR in Et; rewrite ?D, ?minus_IZR; lra. }
  unfold Znearest. rewrite Fl. assert (Hf : Y - IZR (Z.min s t) = / 2).
  { destruct Dt as [D|D]; [rewrite Z.min_l by lia | rewrite Z.min_r by lia]; rewrite D, ?plus_IZR, ?minus_IZR in Et; rewrite ?D, ?minus_IZR; lra. }
  rewrite Rcompare_Eq by exact Hf. rewrite Up. destruct (Z.ltb_spec t s).
  - symmetry. apply Zceil_imp. destruct Dt as [D|D]; [lia|]. rewrite minus_IZR. rewrite D, minus_IZR in Et. lra.
  - rewrite Z.min_l by lia. reflexivity.
Qed.
End Result.
End Input.

Lemma abs_value f x : input f x -> Rabs (value f x) = IZR (n_of f x) * bpow radix2 (e0_of f x).
Proof.
  intros Hin. rewrite (magnitude f x Hin). pose proof (input_facts f x Hin) as F.
  assert (0 <= IZR (n_of f x) * bpow radix2 (e0_of f x)) by (apply Rmult_le_pos; [apply IZR_le; lia | apply bpow_ge_0]).
  destruct (Model.is_negative f x); cbn [cond_Ropp]; [rewrite Rabs_Ropp|]; apply Rabs_pos_eq; assumption.
Qed.
Lemma rounded_digits cfg f rs m crs h x : input f x -> is_nearest m = true -> crs <> do_not_care -> even_gaps f x ->
  exists r, grisu_exact cfg f rs m crs h x = Ok r /\ best_of_digits f x (digits (fp_significand r)) (signed f x r) (fp_exponent r) /\
    Rabs (IZR (fp_significand r) - Rabs (value f x) * bpow radix10 (- fp_exponent r)) <= / 2 /\
    (alike m = true -> fp_significand r = Znearest (upward crs) (Rabs (value f x) * bpow radix10 (- fp_exponent r))).
Proof.
  intros Hin Hm Hc Hg. destruct (nearest_closest cfg f rs m crs h x Hin Hm Hc) as (r & E & C). destruct (nearest_ties cfg f rs m crs h x Hin Hm Hc) as (r' & E' & T).
  assert (r' = r) by congruence. subst r'. destruct (returned cfg f rs m crs h x Hin) as (r' & E2 & [Ps _ _ _] & R).
  { unfold returns, nearest_or_outward. rewrite Hm. reflexivity. }
  assert (r' = r) by congruence. subst r'. unfold signed in *. rewrite (neg_ok f x Hin) in *.
  exists r. split; [exact E|]. rewrite (abs_value f x Hin). split; [|split].
  - split; [rewrite digits_cond; lia|]. intros s' e' D. apply (no_better f m x Hin Hm Hg crs _ _ Ps R C T). exact D.
  - apply (half_unit f m x Hin Hm Hg crs _ _ Ps R C T).
  - intros Ha. apply (rounded_unit f m x Hin Hm Hg crs _ _ Ps R C T Ha Hc).
Qed.
(** the loop over the number of digits *)
Lemma least_digits cfg f rs m crs h x : input f x -> alike m = true -> even_gaps f x ->
  exists r, grisu_exact cfg f rs m crs h x = Ok r /\
  forall n s e, best_of_digits f x n s e -> (reads_back f m x s e <-> (digits (fp_significand r) <= n)%Z).
Proof.
  intros Hin Ha Hg. assert (Hm : is_nearest m = true) by (destruct m; try discriminate Ha; reflexivity).
  destruct (nearest_shortest cfg f rs m crs h x Hin Hm) as (r & E & R & S). exists r. split; [exact E|]. intros n s e [D B].
  split; [intros Rs; specialize (S s e Rs); lia|]. intros L. unfold signed in R. rewrite (neg_ok f x Hin) in R.
  specialize (B (cond_Zopp (Model.is_negative f x) (fp_significand r)) (fp_exponent r)). rewrite digits_cond in B. specialize (B L).
  rewrite !(error_mag f x Hin), !cond_Zopp_twice in B. unfold reads_back in *. rewrite decimal_signed in R.
  set (X := IZR (n_of f x) * bpow radix2 (e0_of f x)) in *. set (y := decimal (fp_significand r) (fp_exponent r)) in *.
  set (y' := decimal (cond_Zopp (Model.is_negative f x) s) e) in *.
  assert (G : read f m (cond_Ropp (Model.is_negative f x) y') = value f x).
  { destruct B as [B|B]; [exact (closer f m x Hin Hm Hg y y' R B)|].
    assert (y' = y \/ y' = 2 * X - y) as [->| ->]; [|exact R | exact (mirror f m x Hin Hm Hg y Ha R)].
    revert B. unfold Rabs. destruct (Rcase_abs (y' - X)), (Rcase_abs (y - X)); intros; lra. }
  unfold y' in G. rewrite <- decimal_signed, cond_Zopp_twice in G. exact G.
Qed.

(** ** Other readers *)
Lemma reading_faithful f m v : faithful f v (read f m v).
Proof.
  pose proof (valid_reading m) as W. pose proof (Users.valid_fexp f) as V. split; [apply generic_format_round; assumption|].
  intros w Hw [B|B].
  - assert (read f m v <= w) by (apply round_le_generic; [assumption | assumption | exact Hw | lra]). lra.
  - assert (w <= read f m v) by (apply round_ge_generic; [assumption | assumption | exact Hw | lra]). lra.
Qed.
Lemma other_readers cfg f rs m crs h x r y : input f x -> grisu_exact cfg f rs m crs h x = Ok r ->
  faithful f (decimal (signed f x r) (fp_exponent r)) y -> faithful f (value f x) y.
Proof.
  intros Hin E [Fy N]. split; [exact Fy|]. intros w Fw B.
  assert (R : reads_back f m x (signed f x r) (fp_exponent r)).
  { destruct (nearest_or_outward m (negative f x)) eqn:O.
    - apply (b_short _ _ _ _ _ (g_basic _ _ _ _ _ _ (either_result cfg f rs m crs h x Hin r O E))).
    - apply (inward_round_trip cfg f rs m crs h x Hin (inward_otherwise _ _ O)), E. }
  set (D := decimal (signed f x r) (fp_exponent r)) in *. unfold reads_back in R. fold D in R.
  pose proof (valid_reading m) as W. pose proof (Users.valid_fexp f) as V.
  apply (N w Fw). destruct B as [B|B]; [left | right].
  - split; [|lra]. destruct (Rlt_le_dec D w) as [L|L]; [exact L|]. assert (w <= read f m D) by (apply round_ge_generic; assumption). lra.
  - split; [lra|]. destruct (Rlt_le_dec w D) as [L|L]; [exact L|]. assert (read f m D <= w) by (apply round_le_generic; assumption). lra.
Qed.
Lemma adjacent f v y : of_format f v -> v <> 0 -> faithful f v y ->
  y = v \/ y = succ radix2 (FLT_exp (emin f) (prec f)) v \/ y = pred radix2 (FLT_exp (emin f) (prec f)) v.
Proof.
  intros Fv NZ [Fy N]. pose proof (Users.valid_fexp f) as V. unfold of_format in *.
  destruct (Rtotal_order v y) as [L|[L|L]]; [right; left | left; auto | right; right].
  - pose proof (succ_le_lt radix2 _ v y Fv Fy L) as S. pose proof (succ_gt_id radix2 (FLT_exp (emin f) (prec f)) v NZ) as G.
    destruct S as [S|S]; [|auto]. destruct (N _ (generic_format_succ radix2 _ v Fv)). left. lra.
  - pose proof (pred_ge_gt radix2 _ y v Fy Fv L) as S. pose proof (pred_lt_id radix2 (FLT_exp (emin f) (prec f)) v NZ) as G.
    destruct S as [S|S]; [|auto]. destruct (N _ (generic_format_pred radix2 _ v Fv)). right. lra.
Qed.
Lemma readers_near cfg f rs m crs h x r : input f x -> grisu_exact cfg f rs m crs h x = Ok r ->
  (forall m', faithful f (decimal (signed f x r) (fp_exponent r)) (read f m' (decimal (signed f x r) (fp_exponent r)))) /\
  forall y, faithful f (decimal (signed f x r) (fp_exponent r)) y ->
    y = value f x \/ y = succ radix2 (FLT_exp (emin f) (prec f)) (value f x) \/ y = pred radix2 (FLT_exp (emin f) (prec f)) (value f x).
Proof.
  intros Hin E. split; [intros m'; apply reading_faithful|]. intros y Hy.
  apply adjacent; [exact (value_format f x Hin) | apply Hin | exact (other_readers cfg f rs m crs h x r y Hin E Hy)].
Qed.
(** 2^-44 as a double *)
Lemma power_case : value Binary64 0x3d30000000000000 = / IZR (2 ^ 44).
Proof.
  rewrite value_fields by (vm_compute; reflexivity). change (n_of Binary64 0x3d30000000000000) with (2 ^ 52)%Z.
  change (e0_of Binary64 0x3d30000000000000) with (-96)%Z. change (sgn Binary64 0x3d30000000000000) with false. cbn [cond_Ropp].
  change (bpow radix2 (-96)) with (/ IZR (2 ^ 96)). replace (2 ^ 96)%Z with (2 ^ 52 * 2 ^ 44)%Z by reflexivity. rewrite mult_IZR. field. split; apply IZR_neq; discriminate.
Qed.
Lemma power_further : error Binary64 0x3d30000000000000 5684341886080801 (-29) < error Binary64 0x3d30000000000000 5684341886080802 (-29).
Proof.
  unfold error. rewrite power_case, !decimal_eq. change (bpow radix10 (-29)) with (/ IZR (10 ^ 29)).
  change (2 ^ 44)%Z with 17592186044416%Z. change (10 ^ 29)%Z with 100000000000000000000000000000%Z.
  rewrite Rabs_left, Rabs_pos_eq by lra. lra.
Qed.
