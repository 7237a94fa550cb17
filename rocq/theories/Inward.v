(** * The results of [grisu_exact] for the modes rounding toward zero *)

From Coq Require Import ZArith Reals List Lra Lia Bool.
From Flocq Require Import Core.
From Verif Require Import Machine Tables Model Arith ExpFacts Products IntCheck Core Nearest Directed Ones Link
  Spec Reading Bridge ReadsBack Shortest Main Results.
Import ListNotations.
Open Scope R_scope.

(** a one-digit competitor just below a power of ten does not occur *)
Definition tiny_left (f : fmt) : bool :=
  forallb (fun i => let n := Z.of_nat i in let e := exp_min f in
    forallb (fun j => let P := (10 ^ Z.of_nat j)%Z in
      negb ((P * den e <? (4 * n + 4) * ulp f e)%Z && (10 * (4 * n * ulp f e) <=? 9 * P * den e)%Z)) (seq 0 19)) (seq 1 10).
Lemma tiny_left_ok f : tiny_left f = true.
Proof. destruct f; vm_cast_no_check (eq_refl true). Qed.

Lemma memb_shift c b l : memb (c + b) (map (fun x => c + x)%Z l) = existsb (Z.eqb b) l.
Proof.
  unfold memb. induction l as [|a l IH]; [reflexivity|]. cbn [map existsb]. rewrite IH. f_equal.
  apply eq_iff_eq_true. rewrite !Z.eqb_eq. lia.
Qed.
Lemma stops_fields f : stops f = map (fun x => exp_min f - 1 + x)%Z (halting_fields f).
Proof. destruct f; reflexivity. Qed.
Lemma lengthens_fields f : lengthens f = map (fun x => exp_min f - 1 + x)%Z (lengthened_fields f).
Proof. destruct f; reflexivity. Qed.

Lemma fraction_eq f x : fraction f x = frac f x. Proof. destruct f; reflexivity. Qed.
Lemma field_eq f x : exponent_field f x = expo f x. Proof. destruct f; reflexivity. Qed.

Section Inward.
Variables (cfg : config) (f : fmt) (m : rounding_mode) (crs : crs_tag) (x : Z).
Hypothesis Hin : input f x.
Local Notation neg := (is_negative f x).
Hypothesis Hm : rounds_inward m neg = true.
Local Notation n := (n_of f x).
Local Notation e := (e_of f x).
Local Notation p := (delegate f m x).
Local Notation tag := (provider_tag p).
Local Notation itv := (provider_call f p x).
Local Notation I := (rin f tag itv e n).
Local Notation y := (IZR n * bpow radix2 (e0_of f x)).

Lemma tagL : tag = left_closed_directed_tag.
Proof. rewrite (inward_call f m x Hm). reflexivity. Qed.
Lemma itvLo : itv = left_closed_right_open.
Proof. apply (itvL f m x tagL). Qed.
Lemma compute_left : compute cfg f p crs x = compute_tail cfg f left_closed_directed_tag crs left_closed_right_open e n.
Proof.
  destruct (input_facts f x Hin) as (Hx & Hf & Hz & _). rewrite compute_is_tail by assumption.
  rewrite tagL, itvLo. reflexivity.
Qed.

Lemma all_ones_n : all_ones f x = true -> n = ones f /\ e = (exp_min f - 1 + exponent_field f x)%Z.
Proof.
  unfold all_ones. rewrite fraction_eq, field_eq, andb_true_iff, negb_true_iff, Z.eqb_eq.
  intros [A B]. unfold n_of, e_of. rewrite B. split; [|ring]. rewrite A. destruct f; reflexivity.
Qed.
Lemma not_ones : all_ones f x = false -> (n + 1 < 2 ^ (precision f + 1))%Z.
Proof.
  unfold all_ones. rewrite fraction_eq, field_eq. intros H. pose proof (frac_range f x) as R.
  assert (PW : (2 ^ (precision f + 1) = 2 * 2 ^ precision f)%Z) by (destruct f; reflexivity).
  assert (P1 : (1 < 2 ^ precision f)%Z) by (destruct f; reflexivity).
  replace (prec f - 1)%Z with (precision f) in H by (destruct f; reflexivity).
  unfold n_of. destruct (expo f x =? 0)%Z; [lia|]. cbn [negb] in H. rewrite andb_true_r in H.
  apply Z.eqb_neq in H. lia.
Qed.

(** ** A value is returned, it lies in the interval, no coarser one does *)
Theorem inward_grid : halts f x = false ->
  exists kap t, compute cfg f p crs x = Ok (t, kap - kexp e)%Z /\ (0 <= kap <= top_kappa f)%Z
    /\ in_int f tag itv e n (t * 10 ^ kap) = true
    /\ (lengthened f x = false -> no_coarser f tag itv e n kap)
    /\ (cares crs = true -> no_coarser f tag itv e n kap ->
        (forall u, in_int f tag itv e n (u * 10 ^ kap) = true -> (t <= u)%Z) \/
        exists S, (1 <= S <= 4 /\ (t - S) * 10 ^ kap = Core.zi f tag e n - Core.deltai f tag e n)%Z)
    /\ (all_ones f x = false -> cares crs = true -> forall u, (u * 10 ^ kap = Core.zi f tag e n - Core.deltai f tag e n)%Z ->
        in_int f tag itv e n ((u + 1) * 10 ^ kap) = true -> (u < t)%Z)
    /\ (all_ones f x = false -> cares crs = false -> forall u, in_int f tag itv e n (u * 10 ^ kap) = true -> (u <= t)%Z).
Proof using Hin Hm.
  intros Hh. rewrite compute_left, tagL, itvLo.
  destruct (input_facts f x Hin) as (_ & _ & _ & He & Hn & _).
  assert (M0 : (0 <= min_kappa f)%Z) by (destruct f; discriminate).
  destruct (all_ones f x) eqn:O.
  - destruct (all_ones_n O) as [En Ee].
    unfold halts in Hh. rewrite O in Hh. cbn [andb] in Hh.
    destruct (ones_result cfg f crs left_closed_right_open e He eq_refl) as (kap & t & Et & Hk & Hi & Hno & HC).
    { rewrite stops_fields, Ee, memb_shift. exact Hh. }
    rewrite <- En in *. exists kap, t. split; [exact Et|]. split; [lia|]. split; [exact Hi|].
    split; [|split; [exact HC | split; discriminate]].
    unfold lengthened. rewrite O. cbn [andb]. intros L. apply Hno. rewrite lengthens_fields, Ee, memb_shift. exact L.
  - pose proof (not_ones O) as N1.
    assert (Hri : forall kap, found f left_closed_directed_tag left_closed_right_open e n kap ->
       left_closed_directed_tag <> right_closed_directed_tag -> (Core.zi f left_closed_directed_tag e n mod 10 ^ kap = 0)%Z ->
       right_check cfg f left_closed_directed_tag e n = Ok (divb (den e) (Core.Z_ f left_closed_directed_tag e n))).
    { intros kap _ _ _. apply (right_integer_ok cfg f left_closed_directed_tag left_closed_right_open e n He Hn); try discriminate; auto. }
    destruct (cares crs) eqn:Hc.
    + destruct (left_result cfg f crs left_closed_right_open e n He Hn eq_refl Hc Hri) as (kap & t & Et & Hk & Hi & Hno & HC & HM).
      exists kap, t. repeat split; auto; try lia; try congruence.
    + destruct (largest_result cfg f left_closed_directed_tag crs left_closed_right_open e n He Hn) as (kap & t & Et & Hk & Hi & Hno & HC);
        try discriminate; auto.
      exists kap, t. repeat split; auto; try lia; try congruence.
Qed.

(** ** Failure on the listed inputs *)
Theorem inward_halts : halts f x = true ->
  (cfg_ndebug cfg = false -> compute cfg f p crs x = AssertFailed) /\
  (cfg_ndebug cfg = true -> cfg_ctz cfg <> CtzMask -> compute cfg f p crs x = Undefined).
Proof using Hin Hm.
  intros Hh. unfold halts in Hh. apply andb_true_iff in Hh. destruct Hh as [O Hh]. destruct (all_ones_n O) as [En Ee].
  destruct (input_facts f x Hin) as (_ & _ & _ & He & _).
  rewrite compute_left, En. apply ones_stop; [exact He | reflexivity |].
  rewrite stops_fields, Ee, memb_shift. exact Hh.
Qed.

(** ** Whatever is returned reads back *)
Lemma grid_reads kap t : (0 <= kap)%Z -> in_int f tag itv e n (t * 10 ^ kap) = true ->
  reads_back f m x (cond_Zopp (negative f x) t) (kap - kexp e).
Proof using Hin.
  intros Hk Hi. rewrite (neg_ok f x Hin). apply (reads_back_iff f m x Hin). apply g_in; assumption.
Qed.

Theorem inward_reads t E : compute cfg f p crs x = Ok (t, E) ->
  (0 < t)%Z /\ reads_back f m x (cond_Zopp (negative f x) t) E.
Proof using Hin Hm.
  intros H. assert (G : exists kap, (0 <= kap)%Z /\ E = (kap - kexp e)%Z /\ in_int f tag itv e n (t * 10 ^ kap) = true).
  { destruct (halts f x) eqn:Hh.
    - unfold halts in Hh. apply andb_true_iff in Hh. destruct Hh as [O _]. destruct (all_ones_n O) as [En _].
      destruct (input_facts f x Hin) as (_ & _ & _ & He & _).
      rewrite compute_left in H. rewrite tagL, itvLo. rewrite En in *.
      destruct (ones_in_interval cfg f crs left_closed_right_open e He eq_refl (t, E) H) as (kap & t' & Et & Hk & Hi).
      injection Et as -> ->. exists kap. assert (0 <= min_kappa f)%Z by (destruct f; discriminate). repeat split; [lia | exact Hi].
    - destruct (inward_grid Hh) as (kap & t' & Et & Hk & Hi & _). rewrite H in Et. injection Et as -> ->.
      exists kap. repeat split; [lia | exact Hi]. }
  destruct G as (kap & Hk & -> & Hi). split.
  - apply (g_pos f m x Hin kap t Hk Hi).
  - apply grid_reads; assumption.
Qed.

(** ** Shortest *)
Theorem inward_good : halts f x = false -> lengthened f x = false ->
  exists t E, compute cfg f p crs x = Ok (t, E) /\ basic f m x t E.
Proof using Hin Hm.
  intros Hh Hl. destruct (inward_grid Hh) as (kap & t & Et & Hk & Hi & Hno & _).
  exists t, (kap - kexp e)%Z. split; [exact Et|]. specialize (Hno Hl).
  apply grid_basic; try assumption; try lia.
  apply (I_lower f m x Hin kap t (proj1 Hk) Hi Hno); [rewrite tagL; discriminate | apply g_in; [lia | exact Hi]].
Qed.

(** ** Closest, unless a decimal of the same exponent is very near x *)
Lemma inward_lower a : I a -> y <= a.
Proof using Hm.
  intros [A _]. rewrite (x_quarters f x). rewrite tagL in A. unfold lo_u in A. rewrite Z.sub_0_r in A.
  destruct A as [A|[_ A]]; lra.
Qed.

Lemma no_low_competitor kap s : (0 <= kap <= top_kappa f)%Z -> I (p10 (kap - kexp e)) -> I s ->
  s <= 9 * p10 (kap - kexp e - 1) -> False.
Proof using Hin Hm.
  intros Hk HI Hs L9. pose proof (inward_lower _ Hs) as Ly. destruct HI as [_ C]. rewrite tagL, itvLo in C.
  destruct C as [C|[C _]]; [|discriminate]. unfold hi_u in C.
  assert (P1 : p10 (kap - kexp e) = 10 * p10 (kap - kexp e - 1)) by (rewrite <- p10_succ; f_equal; ring).
  pose proof (quarter_pos f e) as Q. rewrite (x_quarters f x) in Ly.
  destruct (input_facts f x Hin) as (_ & _ & _ & _ & Hn & Hor).
  assert (N9 : (n <= 9)%Z).
  { assert (IZR (4 * n) * quarter f e <= 36 * quarter f e).
    { rewrite plus_IZR in C. lra. }
    apply Rmult_le_reg_r in H; [|exact Q]. apply le_IZR in H. lia. }
  assert (Em : e = exp_min f).
  { destruct Hor as [H|H]; [exact H|exfalso]. assert (10 <= 2 ^ precision f)%Z by (destruct f; discriminate). lia. }
  assert (PE : unscale e (IZR (10 ^ kap)) = p10 (kap - kexp e)).
  { rewrite <- (Z.mul_1_l (10 ^ kap)), dec_unscale by lia. rewrite decimal_eq. ring. }
  pose proof (tiny_left_ok f) as TC. unfold tiny_left in TC. rewrite forallb_forall in TC.
  specialize (TC (Z.to_nat n)). rewrite in_seq in TC. specialize (TC ltac:(lia)). cbv zeta in TC. rewrite forallb_forall in TC.
  specialize (TC (Z.to_nat kap)). rewrite in_seq in TC.
  assert (top_kappa f <= 18)%Z by (destruct f; discriminate). specialize (TC ltac:(lia)).
  rewrite !Z2Nat.id in TC by lia. rewrite <- Em in TC.
  assert (B1 : (10 ^ kap * den e <? (4 * n + 4) * ulp f e)%Z = true).
  { apply Z.ltb_lt. apply cmp_gt. rewrite PE. exact C. }
  rewrite B1 in TC. cbn [andb] in TC. apply negb_true_iff, Z.leb_gt in TC.
  replace (10 * (4 * n * ulp f e))%Z with (10 * (4 * n) * ulp f e)%Z in TC by ring.
  apply cmp_gt in TC. rewrite (mult_IZR 10) in TC.
  unfold unscale in TC, PE. rewrite (mult_IZR 9), Rmult_assoc, PE in TC. lra.
Qed.


Lemma spacing_quarter : spacing f x = 4 * quarter f e.
Proof using Hin Hm.
  unfold spacing. rewrite (magnitude f x Hin), (q_eq f x), <- two2.
  assert (P : 0 < y) by (apply Rmult_lt_0_compat; [apply IZR_lt, (spec_n f x Hin) | apply bpow_gt_0]).
  assert (E : Ulp.ulp radix2 (FLT_exp (emin f) (prec f)) y = bpow radix2 (e0_of f x)).
  { rewrite ulp_neq_0 by lra. f_equal.
    apply (cexp_above (emin f) (prec f) (spec_prec f x Hin) n (e0_of f x) (spec_n f x Hin) (spec_e0 f x Hin) (spec_norm f x Hin)).
    rewrite plus_IZR. pose proof (bpow_gt_0 radix2 (e0_of f x)). lra. }
  destruct neg; cbn [cond_Ropp]; [rewrite ulp_opp|]; exact E.
Qed.

Lemma near_multiple kap : (0 <= kap)%Z -> (10 ^ kap | Core.zi f tag e n - Core.deltai f tag e n)%Z ->
  exists u, Rabs (decimal u (kap - kexp e) - y) < near f * spacing f x.
Proof using Hin Hm.
  intros Hk [u Hu]. exists u.
  destruct (input_facts f x Hin) as (_ & _ & _ & He & Hn & _).
  rewrite <- dec_unscale by exact Hk. rewrite <- Hu, tagL, spacing_quarter, (x_quarters f x).
  set (v := (Core.zi f left_closed_directed_tag e n - Core.deltai f left_closed_directed_tag e n)%Z).
  pose proof (zi_bounds f left_closed_directed_tag e n) as Z1.
  pose proof (deltai_bounds f left_closed_directed_tag left_closed_right_open e n (fun _ => eq_refl) ltac:(discriminate)) as Z2.
  pose proof (HUB f e He) as [UB _]. pose proof (HB e) as B0.
  assert (EX : Core.X f left_closed_directed_tag e n = (4 * n * ulp f e)%Z) by (unfold Core.X, lo_u; ring).
  set (c := match f with Binary32 => 1%Z | Binary64 => 8%Z end).
  assert (UB' : (c * den e <= ulp f e)%Z) by (unfold c; destruct f; [change (unit Binary32) with 64%Z in UB | change (unit Binary64) with 512%Z in UB]; lia).
  assert (W1 : (c * v * den e < (c * (4 * n) + 1) * ulp f e)%Z) by (unfold v, c in *; destruct f; lia).
  assert (W2 : ((c * (4 * n) - 1) * ulp f e < c * v * den e)%Z) by (unfold v, c in *; destruct f; lia).
  apply cmp_gt in W1. apply cmp_lt in W2.
  unfold unscale in *. rewrite (mult_IZR c v), Rmult_assoc in W1, W2. rewrite plus_IZR, (mult_IZR c) in W1. rewrite minus_IZR, (mult_IZR c) in W2.
  set (V := IZR v * p10 (- kexp e)) in *. pose proof (quarter_pos f e) as Q.
  unfold near. unfold c in *. apply Rabs_def1; destruct f; lra.
Qed.

Lemma grid_closest kap t : (0 <= kap <= top_kappa f)%Z -> in_int f tag itv e n (t * 10 ^ kap) = true ->
  no_coarser f tag itv e n kap -> (forall u, in_int f tag itv e n (u * 10 ^ kap) = true -> (t <= u)%Z) ->
  closest f m x (cond_Zopp (negative f x) t) (kap - kexp e).
Proof using Hin Hm.
  intros Hk Hi Hno Hmin. rewrite (neg_ok f x Hin).
  unfold closest. apply (competitors f m x Hin (fun s' e' => _ <= error f x s' e')).
  intros s e' Hs HI Hd. rewrite !(error_signed f x Hin).
  pose proof (g_pos f m x Hin kap t (proj1 Hk) Hi) as T0.
  pose proof (g_in f m x kap t (proj1 Hk) Hi) as G0.
  pose proof (inward_lower _ HI). pose proof (inward_lower _ G0). rewrite !Rabs_pos_eq by lra.
  destruct (grid_competitor I (I_convex f m x) t (kap - kexp e) T0 G0 (g_no f m x kap (proj1 Hk) Hno) s e' Hs HI Hd)
    as [->|(_ & IE & L9 & _)].
  + assert (decimal t (kap - kexp e) <= decimal s (kap - kexp e)); [|lra].
    apply decimal_le. apply Hmin. apply in_int_rin. rewrite dec_unscale by lia. exact HI.
  + exfalso. apply (no_low_competitor kap (decimal s e')); assumption.
Qed.

Theorem inward_close : halts f x = false -> lengthened f x = false -> cares crs = true ->
  exists t E, compute cfg f p crs x = Ok (t, E) /\
    (closest f m x (cond_Zopp (negative f x) t) E \/ exists u, error f x (cond_Zopp (negative f x) u) E < near f * spacing f x).
Proof using Hin Hm.
  intros Hh Hl Hc. destruct (inward_grid Hh) as (kap & t & Et & Hk & Hi & Hno & HC & _).
  exists t, (kap - kexp e)%Z. split; [exact Et|]. specialize (Hno Hl).
  destruct (HC Hc Hno) as [Hmin|(S & HS & HD)].
  - left. apply grid_closest; assumption.
  - right. rewrite (neg_ok f x Hin). destruct (near_multiple kap (proj1 Hk)) as [u Hu]; [exists (t - S)%Z; symmetry; exact HD|]. exists u. rewrite (error_signed f x Hin). exact Hu.
Qed.

(** ** At most four units of the last digit from the closest *)
Lemma in_int_split v : in_int f tag itv e n v = inL f tag itv e n v && inR f tag itv e n v.
Proof using. reflexivity. Qed.

Lemma least_stopped kap t S : (0 <= kap)%Z -> in_int f tag itv e n (t * 10 ^ kap) = true -> (1 <= S <= 4)%Z ->
  ((t - S) * 10 ^ kap = Core.zi f tag e n - Core.deltai f tag e n)%Z ->
  exists u, (0 <= t - u <= 4)%Z /\ in_int f tag itv e n (u * 10 ^ kap) = true /\
    forall v, in_int f tag itv e n (v * 10 ^ kap) = true -> (u <= v)%Z.
Proof using Hin Hm.
  intros Hk Hi HS HD. destruct (input_facts f x Hin) as (_ & _ & _ & He & Hn & _).
  assert (D0 : (0 < 10 ^ kap)%Z) by (apply Z.pow_pos_nonneg; lia).
  set (D := (10 ^ kap)%Z) in *. rewrite in_int_split in Hi. apply andb_true_iff in Hi. destruct Hi as [HL HR].
  assert (RR : forall v, (v <= t)%Z -> inR f tag itv e n (v * D) = true).
  { intros v Hv. destruct (Z.eq_dec v t) as [->|NE]; [exact HR|]. apply (inR_lt f tag itv e n).
    apply (inR_le f tag itv e n) in HR. nia. }
  assert (LL : forall v, (v < t - S)%Z -> inL f tag itv e n (v * D) = false).
  { intros v Hv. replace (v * D)%Z with (Core.zi f tag e n - (Core.zi f tag e n - v * D))%Z by ring.
    apply (inL_gt f tag itv e n); [intros _; exact itvLo | rewrite tagL; discriminate |]. assert (v * D < (t - S) * D)%Z by (apply Z.mul_lt_mono_pos_r; lia). lia. }
  destruct (inL f tag itv e n ((t - S) * D)) eqn:L0.
  - exists (t - S)%Z. split; [lia|]. split; [rewrite in_int_split, L0; apply RR; lia|].
    intros v Hv. rewrite in_int_split in Hv. apply andb_true_iff in Hv. destruct Hv as [Hv _].
    destruct (Z_lt_le_dec v (t - S)) as [L|]; [|assumption]. rewrite (LL v L) in Hv. discriminate.
  - exists (t - S + 1)%Z. split; [lia|]. split.
    + rewrite in_int_split. rewrite RR by lia. rewrite andb_true_r.
      replace ((t - S + 1) * D)%Z with (Core.zi f tag e n - (Core.deltai f tag e n - D))%Z by lia.
      apply (inL_lt f tag itv e n); [intros _; exact itvLo | rewrite tagL; discriminate | lia].
    + intros v Hv. rewrite in_int_split in Hv. apply andb_true_iff in Hv. destruct Hv as [Hv _].
      destruct (Z_lt_le_dec v (t - S + 1)) as [L|]; [|assumption]. exfalso.
      destruct (Z.eq_dec v (t - S)) as [->|NE]; [congruence|]. rewrite (LL v) in Hv by lia. discriminate.
Qed.

Theorem inward_distance : halts f x = false -> lengthened f x = false -> cares crs = true ->
  exists t E u, compute cfg f p crs x = Ok (t, E) /\ (0 <= t - u <= 4)%Z /\
    (0 < u)%Z /\ reads_back f m x (cond_Zopp (negative f x) u) E /\ closest f m x (cond_Zopp (negative f x) u) E.
Proof using Hin Hm.
  intros Hh Hl Hc. destruct (inward_grid Hh) as (kap & t & Et & Hk & Hi & Hno & HC & _).
  specialize (Hno Hl). exists t, (kap - kexp e)%Z.
  assert (G : exists u, (0 <= t - u <= 4)%Z /\ in_int f tag itv e n (u * 10 ^ kap) = true /\
    forall v, in_int f tag itv e n (v * 10 ^ kap) = true -> (u <= v)%Z).
  { destruct (HC Hc Hno) as [Hmin|(S & HS & HD)]; [exists t; repeat split; try lia; assumption|].
    apply (least_stopped kap t S); try assumption; lia. }
  destruct G as (u & Hu & Hui & Hmin). exists u. split; [exact Et|]. split; [exact Hu|].
  split; [apply (g_pos f m x Hin kap u (proj1 Hk) Hui)|].
  split; [|apply grid_closest; assumption]. apply grid_reads; [lia | assumption].
Qed.

(** ** An input that is exactly a decimal of the result's exponent is missed *)
Theorem inward_misses t E u : all_ones f x = false -> cares crs = true -> compute cfg f p crs x = Ok (t, E) ->
  y = decimal u E -> I (decimal (u + 1) E) -> (u < t)%Z.
Proof using Hin Hm.
  intros O Hc Et0 HV HI. assert (Hh : halts f x = false) by (unfold halts; rewrite O; reflexivity).
  destruct (inward_grid Hh) as (kap & t' & Et & Hk & _ & _ & _ & HM & _). rewrite Et0 in Et. injection Et as -> ->.
  apply (HM O Hc u).
  - assert (A : (u * 10 ^ kap * den e = 4 * n * ulp f e)%Z).
    { apply cmp_eq. rewrite dec_unscale by lia. rewrite <- HV. apply (x_quarters f x). }
    unfold Core.zi, Core.deltai, Z_. rewrite tagL. unfold hi_u, delta_units. pose proof (HB e : (0 < den e)%Z) as B0.
    replace ((4 * n + 4) * ulp f e)%Z with (4 * ulp f e + u * 10 ^ kap * den e)%Z by (rewrite A; ring).
    rewrite Z.div_add by lia. lia.
  - apply in_int_rin. rewrite dec_unscale by lia. exact HI.
Qed.
End Inward.
