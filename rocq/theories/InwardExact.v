(** * Modes rounding toward zero: exactly when the result is the closest decimal *)

From Coq Require Import ZArith Reals List Lra Lia Bool.
From Flocq Require Import Core.
From Verif Require Import Machine Tables Model Arith ExpFacts Products IntCheck Core Nearest Directed Ones Link LeftExact
  Spec Reading Bridge ReadsBack Shortest Main Results Inward Claims Unique Nearby Lengths Logs StopSpec.
Import ListNotations.
Open Scope R_scope.

(** ** The counting unit *)
Lemma kexp_log e : (-1650 <= e + 6 <= 1650)%Z -> (- kexp e)%Z = Zfloor (ln (bpow radix2 (e + 6)) / ln 10).
Proof.
  intros H. unfold kexp. rewrite Z.opp_involutive.
  pose proof (log10_pow2 debug_build (e + 6) H) as A. rewrite (log10_pow2_ok debug_build (e + 6) H) in A. injection A as <-.
  reflexivity.
Qed.
Lemma unit_bounds e : (-1650 <= e + 6 <= 1650)%Z -> bpow radix10 (- kexp e) <= bpow radix2 (e + 6) < bpow radix10 (- kexp e + 1).
Proof.
  intros H. pose proof (kexp_log e H) as K. set (g := (- kexp e)%Z) in *.
  assert (L10 : 0 < ln 10) by (apply (ln_pos 10); lia).
  pose proof (Zfloor_lb (ln (bpow radix2 (e + 6)) / ln 10)) as A. pose proof (Zfloor_ub (ln (bpow radix2 (e + 6)) / ln 10)) as C.
  rewrite <- K in A, C.
  assert (E : ln (bpow radix2 (e + 6)) = ln (bpow radix2 (e + 6)) / ln 10 * ln 10) by (field; lra).
  assert (G1 : ln (bpow radix10 g) <= ln (bpow radix2 (e + 6))).
  { rewrite E, (ln_bpow radix10 g). change (IZR radix10) with 10. apply Rmult_le_compat_r; lra. }
  assert (G2 : ln (bpow radix2 (e + 6)) < ln (bpow radix10 (g + 1))).
  { rewrite E, (ln_bpow radix10 (g + 1)). change (IZR radix10) with 10. rewrite plus_IZR. apply Rmult_lt_compat_r; lra. }
  split.
  - destruct (Rle_or_lt (bpow radix10 g) (bpow radix2 (e + 6))) as [|Q]; [assumption|exfalso].
    apply ln_increasing in Q; [lra | apply bpow_gt_0].
  - apply ln_lt_inv; [apply bpow_gt_0 | apply bpow_gt_0 | exact G2].
Qed.

Section Exact.
Variables (cfg : config) (f : fmt) (rs : bool) (m : rounding_mode) (crs : crs_tag) (h : case_handler) (x : Z).
Hypothesis Hin : input f x.
Hypothesis Hm : rounds_inward m (negative f x) = true.
Local Notation n := (n_of f x).
Local Notation e := (e_of f x).
Local Notation p := (delegate f m x).
Local Notation itv := left_closed_right_open.
Local Notation tag := left_closed_directed_tag.
Let Hm' : rounds_inward m (is_negative f x) = true. Proof using Hin Hm. exact (Claims.Hm' f m x Hin Hm). Qed.

Lemma e_range : (-1650 <= e + 6 <= 1650)%Z.
Proof using Hin Hm. destruct (input_facts f x Hin) as (_ & _ & _ & He & _). destruct f; cbn in He; lia. Qed.
Lemma near_spacing : near f * spacing f x = bpow radix2 (e + 6).
Proof using Hin Hm.
  rewrite (spacing_quarter f m x Hin Hm'). unfold quarter. rewrite bpow_plus. unfold near.
  destruct f; [change (unit Binary32) with 64%Z | change (unit Binary64) with 512%Z]; change (bpow radix2 6) with 64; lra.
Qed.
Lemma unit_iff g : counting_unit f x g <-> g = (- kexp e)%Z.
Proof using Hin Hm.
  unfold counting_unit. rewrite near_spacing. pose proof (unit_bounds e e_range) as [A C]. split.
  - intros [A' C']. apply Z.le_antisymm.
    + apply Zlt_succ_le. apply (lt_bpow radix10). unfold Z.succ. lra.
    + apply Zlt_succ_le. apply (lt_bpow radix10). unfold Z.succ. lra.
  - intros ->. split; assumption.
Qed.

Lemma whole_quarters k : whole (- kexp e) (IZR k * quarter f e) = (k * ulp f e / den e)%Z.
Proof using Hin Hm.
  unfold whole. rewrite Z.opp_involutive.
  rewrite <- Zfloor_div by (pose proof (HB e); lia). f_equal.
  rewrite mult_IZR, ulp_ratio. assert (IZR (den e) <> 0) by (apply IZR_neq; pose proof (HB e); lia). field. assumption.
Qed.
Lemma abs_value : Rabs (value f x) = IZR (4 * n) * quarter f e.
Proof using Hin Hm.
  rewrite (input_value f x Hin), (x_quarters f x).
  assert (P : 0 <= IZR (4 * n) * quarter f e).
  { apply Rmult_le_pos; [apply IZR_le; destruct (input_facts f x Hin) as (_ & _ & _ & _ & Hn & _); lia | apply Rlt_le, quarter_pos]. }
  rewrite abs_cond_Ropp. apply Rabs_pos_eq; exact P.
Qed.
Lemma stop_iff u kap : (0 <= kap)%Z ->
  stop_point f x u (kap - kexp e) <-> (u * 10 ^ kap = Core.zi f tag e n - Core.deltai f tag e n)%Z.
Proof using Hin Hm.
  intros Hk. unfold stop_point.
  assert (W : (whole (- kexp e) (Rabs (value f x) + spacing f x) - whole (- kexp e) (spacing f x)
    = Core.zi f tag e n - Core.deltai f tag e n)%Z).
  { rewrite abs_value, (spacing_quarter f m x Hin Hm').
    replace (IZR (4 * n) * quarter f e + 4 * quarter f e) with (IZR (4 * n + 4) * quarter f e) by (rewrite plus_IZR; ring).
    rewrite !whole_quarters. reflexivity. }
  split.
  - intros (g & U & L & Q). apply unit_iff in U. subst g. rewrite W in Q. rewrite Q. f_equal. f_equal. ring.
  - intros Q. exists (- kexp e)%Z. split; [apply unit_iff; reflexivity|]. split; [lia|]. rewrite W, <- Q. f_equal. f_equal. ring.
Qed.

(** ** A result above another decimal of its exponent that reads back is not the closest *)
Lemma not_closest kap t v : (0 <= kap)%Z -> in_int f tag itv e n (v * 10 ^ kap) = true -> (v < t)%Z ->
  ~ closest f m x (cond_Zopp (negative f x) t) (kap - kexp e).
Proof using Hin Hm.
  intros Hk Iv L C. rewrite <- (tagL f m x Hm'), <- (itvLo f m x Hm') in Iv.
  pose proof (grid_reads f m x Hin kap v Hk Iv) as Rv.
  pose proof (g_pos f m x Hin kap v Hk Iv) as V0. pose proof (g_in f m x kap v Hk Iv) as Gv.
  specialize (C _ _ Rv). rewrite !digits_signed in C. specialize (C (digits_mono v t ltac:(lia))).
  rewrite !(neg_ok f x Hin), !(error_signed f x Hin) in C.
  pose proof (inward_lower f m x Hm' _ Gv) as Lv.
  assert (decimal v (kap - kexp e) < decimal t (kap - kexp e)).
  { rewrite !decimal_eq. apply Rmult_lt_compat_r; [apply bpow_gt_0 | apply IZR_lt; exact L]. }
  rewrite !Rabs_pos_eq in C by lra. lra.
Qed.

Lemma both_results : halts f x = false -> lengthened f x = false -> cares crs = true ->
  exists kap s t, both cfg f crs e n kap s t.
Proof using Hin Hm.
  intros Hh Hl Hc. destruct (input_facts f x Hin) as (_ & _ & _ & He & Hn & _).
  destruct (all_ones f x) eqn:O.
  - destruct (all_ones_n f m x Hin Hm' O) as [En Ee].
    unfold halts in Hh. unfold lengthened in Hl. rewrite O in Hh, Hl. cbn [andb] in Hh, Hl.
    rewrite En. apply (ones_both cfg f crs e He Hc).
    + rewrite stops_fields, Ee, memb_shift. exact Hh.
    + rewrite lengthens_fields, Ee, memb_shift. exact Hl.
  - pose proof (not_ones f m x Hin Hm' O) as N1. apply (right_answer cfg f crs e n He Hn Hc).
    intros kap _ _ _. apply (right_integer_ok cfg f tag itv e n He Hn); try discriminate; auto.
Qed.

Theorem exactly : halts f x = false -> lengthened f x = false -> crs <> do_not_care ->
  exists r r0, grisu_exact cfg f rs m crs h x = Ok r /\ grisu_exact cfg f rs m do_not_care h x = Ok r0 /\
    fp_exponent r0 = fp_exponent r /\
    (forall u, (u < fp_significand r0)%Z -> stop_point f x u (fp_exponent r) ->
      fp_significand r = u + above (fp_significand r0) u)%Z /\
    (closest f m x (signed f x r) (fp_exponent r) <-> ~ ends_early f m x (fp_significand r0) (fp_exponent r)).
Proof using Hin Hm.
  intros Hh Hl Hc. destruct (both_results Hh Hl (cares_true Hc)) as (kap & s & t & Et & Es & Hk & NC & It & Is & RT & RL).
  assert (M0 : (0 <= min_kappa f)%Z) by (destruct f; discriminate). assert (K0 : (0 <= kap)%Z) by lia.
  destruct (input_facts f x Hin) as (_ & _ & _ & He & Hn & _).
  eexists. eexists. split; [apply grisu_exact_ok; [exact Hin | rewrite (compute_left cfg f m crs x Hin Hm'); exact Et]|].
  split; [apply grisu_exact_ok; [exact Hin | rewrite (compute_left cfg f m do_not_care x Hin Hm'); exact Es]|].
  unfold signed. cbn [fp_significand fp_exponent]. split; [reflexivity|].
  split; [intros u Lu Hu; apply (stop_iff u kap K0) in Hu; apply RT; assumption|].
  pose proof (pow10_pos kap K0) as HD.
  assert (Least : (forall v, in_int f tag itv e n (v * 10 ^ kap) = true -> (t <= v)%Z) ->
    closest f m x (cond_Zopp (negative f x) t) (kap - kexp e)).
  { intros HM. pose proof It as It'. pose proof NC as NC'. rewrite <- (tagL f m x Hm'), <- (itvLo f m x Hm') in It', NC'.
    apply (grid_closest f m x Hin Hm' kap t); try assumption; [lia|].
    intros v Iv. rewrite (tagL f m x Hm'), (itvLo f m x Hm') in Iv. apply HM, Iv. }
  assert (Below : forall u, (u < s)%Z -> in_int f tag itv e n (u * 10 ^ kap) = Core.inL f tag itv e n (u * 10 ^ kap)).
  { intros u Lu. unfold in_int. replace (Core.inR f tag itv e n (u * 10 ^ kap)) with true; [apply andb_true_r|].
    symmetry. apply inR_lt. unfold in_int in Is. apply andb_true_iff in Is. destruct Is as [_ Is]. apply inR_le in Is.
    assert (u * 10 ^ kap < s * 10 ^ kap)%Z by (apply Z.mul_lt_mono_pos_r; lia). lia. }
  assert (Reads : forall u, reads_back f m x (cond_Zopp (negative f x) u) (kap - kexp e) <-> in_int f tag itv e n (u * 10 ^ kap) = true).
  { intros u. rewrite (neg_ok f x Hin), (reads_back_iff f m x Hin), (tagL f m x Hm'), (itvLo f m x Hm').
    rewrite in_int_rin, dec_unscale by exact K0. reflexivity. }
  assert (Next : forall u, (u < s)%Z -> (u * 10 ^ kap = Core.zi f tag e n - Core.deltai f tag e n)%Z ->
    in_int f tag itv e n ((u + 1) * 10 ^ kap) = true).
  { intros u Lu Hu. destruct (Z.eq_dec (u + 1) s) as [->|NE]; [exact Is|]. rewrite Below by lia.
    replace ((u + 1) * 10 ^ kap)%Z with (Core.zi f tag e n - (Core.deltai f tag e n - 10 ^ kap))%Z by lia.
    apply (inL_lt f tag itv e n); [reflexivity | discriminate | lia]. }
  assert (Pos : forall u, (u < s)%Z -> (1 <= above s u)%Z).
  { intros u Lu. unfold above. pose proof (Z.gcd_nonneg (s mod 10 / 2) (s - u)) as G0.
    destruct (Z.eq_dec (Z.gcd (s mod 10 / 2) (s - u)) 0) as [Q|]; [apply Z.gcd_eq_0_r in Q|]; lia. }
  split.
  - intros C (u & Lu & Hu & Bad). apply (stop_iff u kap K0) in Hu. pose proof (RT u Lu Hu) as T. fold (above s u) in T. pose proof (Pos u Lu) as A1.
    destruct Bad as [R|A2].
    + apply Reads in R. revert C. apply (not_closest kap t u K0 R). lia.
    + revert C. apply (not_closest kap t (u + 1) K0 (Next u Lu Hu)). lia.
  - intros Early. apply Least. intros v Iv.
    destruct (Z.eq_dec ((Core.zi f tag e n - Core.deltai f tag e n) mod 10 ^ kap) 0) as [D0|D0].
    + set (u := ((Core.zi f tag e n - Core.deltai f tag e n) / 10 ^ kap)%Z).
      assert (Hu : (u * 10 ^ kap = Core.zi f tag e n - Core.deltai f tag e n)%Z).
      { unfold u. pose proof (Z.div_mod (Core.zi f tag e n - Core.deltai f tag e n) (10 ^ kap) ltac:(lia)). lia. }
      destruct (Z_lt_le_dec u s) as [Lu|Lu].
      * pose proof (RT u Lu Hu) as T. fold (above s u) in T. pose proof (Pos u Lu) as A1.
        assert (NR : in_int f tag itv e n (u * 10 ^ kap) = false).
        { apply not_true_is_false. intros R. apply Early. exists u. split; [exact Lu|]. split; [apply (stop_iff u kap K0); exact Hu|]. left. apply Reads, R. }
        assert (A2 : above s u = 1%Z).
        { destruct (Z_lt_le_dec 1 (above s u)) as [G|]; [exfalso|lia]. apply Early. exists u. split; [exact Lu|]. split; [apply (stop_iff u kap K0); exact Hu|]. right. exact G. }
        rewrite Below in NR by exact Lu. unfold in_int in Iv. apply andb_true_iff in Iv. destruct Iv as [Iv _].
        destruct (Z_lt_le_dec u v) as [|G]; [lia|exfalso].
        assert (Core.inL f tag itv e n (u * 10 ^ kap) = true); [|congruence].
        apply inL_mono with (v * 10 ^ kap)%Z; [|exact Iv]. apply Z.mul_le_mono_nonneg_r; lia.
      * apply RL; [|exact Iv]. intros u' Lu' Hu'. assert (u' = u); [|lia]. rewrite <- Hu in Hu'. apply Z.mul_reg_r in Hu'; lia.
    + apply RL; [|exact Iv]. intros u _ Hu. apply D0. rewrite <- Hu. apply Z.mod_mul. lia.
Qed.
End Exact.

(** ** Concrete inputs *)
Definition early_float : Z := 0x31d914f9.
Lemma early_input : input Binary32 early_float.
Proof. apply input_check. reflexivity. Qed.
(** x lies above the stop point, which does not read back; the search ends four units above it *)
Lemma early_ends : ends_early Binary32 toward_zero early_float 63179159 (-16).
Proof.
  exists 63179155%Z. split; [lia|]. split; [|right; reflexivity].
  change (-16)%Z with (0 - kexp (e_of Binary32 early_float))%Z.
  apply (stop_iff Binary32 toward_zero early_float early_input eq_refl); [lia|]. vm_compute. reflexivity.
Qed.
Definition late_double : Z := 0x3ff0000000000001.
Lemma late_input : input Binary64 late_double.
Proof. apply input_check. reflexivity. Qed.
Lemma late_reaches : ~ ends_early Binary64 toward_zero late_double 10000000000000004 (-16).
Proof.
  intros (u & Lu & Hu & _). change (-16)%Z with (2 - kexp (e_of Binary64 late_double))%Z in Hu.
  apply (stop_iff Binary64 toward_zero late_double late_input eq_refl) in Hu; [|lia].
  assert (M : ((u * 10 ^ 2) mod 10 ^ 2 = 0)%Z) by (apply Z.mod_mul; lia).
  rewrite Hu in M. vm_compute in M. discriminate.
Qed.
