(** * Step 4 for the nearest rounding modes: the closest multiple of 10^kappa in the interval *)

From Coq Require Import ZArith List Bool Lia.
From Verif Require Import Machine Tables Model Arith ExpFacts Products IntCheck Core EdgeCheck.
Import ListNotations.
Open Scope Z_scope.

(** the rule a policy imposes on the chosen [t] when [u] is equally close *)
Definition tie_ok (crs : crs_tag) (t u : Z) : Prop :=
  match crs with
  | do_not_care => True
  | tie_to_even => Z.even t = true
  | tie_to_odd => Z.odd t = true
  | tie_to_up => u < t
  | tie_to_down => t < u
  end.

(** [t] is the multiple of D nearest to Y/B, ties broken by the policy *)
Definition cell (crs : crs_tag) (B Y D t : Z) : Prop :=
  2 * (Y - t * D * B) <= D * B /\ 2 * (t * D * B - Y) <= D * B /\
  (2 * (Y - t * D * B) = D * B -> tie_ok crs t (t + 1)) /\
  (2 * (t * D * B - Y) = D * B -> tie_ok crs t (t - 1)).

Lemma cell_closest crs B Y D t u : 0 < B -> 0 < D -> cell crs B Y D t ->
  Z.abs (t * D * B - Y) <= Z.abs (u * D * B - Y) /\
  (Z.abs (t * D * B - Y) = Z.abs (u * D * B - Y) -> u <> t -> tie_ok crs t u).
Proof.
  intros HB HD (C1 & C2 & C3 & C4).
  set (P := D * B) in *. assert (HP : 0 < P) by (unfold P; nia).
  replace (t * D * B) with (t * P) in * by (unfold P; ring).
  replace (u * D * B) with (u * P) in * by (unfold P; ring).
  assert (HC : u = t \/ u = t + 1 \/ u = t - 1 \/ u >= t + 2 \/ u <= t - 2) by lia.
  destruct HC as [->|[->|[->|[H|H]]]].
  - split; [lia|]. congruence.
  - replace ((t + 1) * P) with (t * P + P) by ring. split; [lia|]. intros E _. apply C3. lia.
  - replace ((t - 1) * P) with (t * P - P) by ring. split; [lia|]. intros E _. apply C4. lia.
  - assert (t * P + 2 * P <= u * P) by nia. split; [lia|]. intros E _. exfalso. lia.
  - assert (u * P <= t * P - 2 * P) by nia. split; [lia|]. intros E _. exfalso. lia.
Qed.

Lemma count_steps_ok f D eps : 0 < D < 2 ^ 30 -> 0 <= eps < 2 ^ 30 -> eps < step_cap f * D ->
  count_steps f D eps = (1 + eps / D, eps mod D).
Proof.
  intros HD He Hc. unfold count_steps.
  assert (DM : forall q r, eps = q * D + r -> 0 <= r < D -> eps / D = q /\ eps mod D = r).
  { intros q r E R. split; [symmetry; apply Z.div_unique with r | symmetry; apply Z.mod_unique with q]; lia. }
  rewrite (wrap_small 32 (2 * D)) by lia.
  destruct (Z.leb_spec D eps) as [L1|L1].
  2:{ destruct (DM 0 eps) as [-> ->]; [lia | lia | reflexivity]. }
  rewrite (wrap_small 32 (eps - D)) by lia.
  destruct (Z.leb_spec (2 * D) (eps - D)) as [L2|L2].
  - rewrite (wrap_small 32 (eps - D - 2 * D)) by lia.
    destruct (Z.leb_spec D (eps - D - 2 * D)) as [L3|L3].
    + rewrite (wrap_small 32 (eps - D - 2 * D - D)) by lia.
      destruct f; cbn [step_cap] in Hc.
      * destruct (DM 4 (eps - D - 2 * D - D)) as [-> ->]; [lia | lia | reflexivity].
      * destruct (Z.leb_spec D (eps - D - 2 * D - D)) as [L4|L4].
        -- rewrite wrap_small by lia.
           destruct (DM 5 (eps - D - 2 * D - D - D)) as [-> ->]; [lia | lia | reflexivity].
        -- destruct (DM 4 (eps - D - 2 * D - D)) as [-> ->]; [lia | lia | reflexivity].
    + destruct (DM 3 (eps - D - 2 * D)) as [-> ->]; [lia | lia | reflexivity].
  - destruct (Z.leb_spec D (eps - D)) as [L3|L3].
    + rewrite wrap_small by lia.
      destruct (DM 2 (eps - D - D)) as [-> ->]; [lia | lia | reflexivity].
    + destruct (DM 1 (eps - D)) as [-> ->]; [lia | lia | reflexivity].
Qed.

Lemma land1_eq a b : (Z.land a 1 =? Z.land b 1) = Z.even (a - b).
Proof.
  change 1 with (Z.ones 1). rewrite !Z.land_ones by lia. change (2 ^ 1) with 2.
  rewrite !Zmod_odd, Z.even_sub, <- !Z.negb_odd. destruct (Z.odd a), (Z.odd b); reflexivity.
Qed.

Lemma nil_u g : normal_interval_length g = 4 * unit g. Proof. destruct g; reflexivity. Qed.

Section Nearest.
Variables (cfg : config) (f : fmt) (crs : crs_tag) (itv : interval_type) (e n : Z).
Hypothesis He : exp_min f <= e <= exp_max f.
Hypothesis Hn : 0 < n < 2 ^ (precision f + 1).
Hypothesis Hcares : cares crs = true.

Local Notation N := to_nearest_tag.
Local Notation B := (den e).
Local Notation U := (ulp f e).
Local Notation w := (extended_precision f).
Local Notation ir := (include_right_endpoint itv).
Local Notation zi := (Core.zi f N e n).
Local Notation deltai := (Core.deltai f N e n).
Local Notation epsi := (Core.epsiloni f e).
Local Notation X := (Core.X f N e n).
Local Notation Y := (Core.Y f e n).
Local Notation Zr := (Core.Z_ f N e n).
Local Notation cx := (Core.cx f N crs itv e n).
Local Notation inL := (Core.inL f N itv e n).
Local Notation inR := (Core.inR f N itv e n).
Local Notation in_int := (Core.in_int f N itv e n).
Local Notation edge := (is_edge f e n).

Let noL : N = left_closed_directed_tag -> itv = left_closed_right_open.
Proof. discriminate. Qed.
Let noR : N = right_closed_directed_tag -> itv = right_closed_left_open.
Proof. discriminate. Qed.

Definition closest (D t : Z) : Prop :=
  forall u, in_int (u * D) = true ->
    Z.abs (t * D * B - Y) <= Z.abs (u * D * B - Y) /\
    (Z.abs (t * D * B - Y) = Z.abs (u * D * B - Y) -> u <> t -> tie_ok crs t u).

Lemma B0 : 0 < B. Proof. apply HB. Qed.
Lemma U0 : 0 < U. Proof. apply HU. Qed.
Lemma geoZ : Zr = Y + 2 * U. Proof. unfold Core.Z_, Core.Y, hi_u. ring. Qed.
Lemma geoX : X = Y - (if edge then 1 else 2) * U.
Proof. unfold Core.X, Core.Y, lo_u. destruct edge; ring. Qed.
Lemma ziB : zi * B <= Zr < (zi + 1) * B. Proof. apply zi_bounds. Qed.
Lemma dlB : deltai * B <= Zr - X < (deltai + 1) * B.
Proof. apply deltai_bounds with itv; [exact noL | exact noR]. Qed.
Lemma epB : epsi * B <= 2 * U < (epsi + 1) * B.
Proof.
  unfold Core.epsiloni. pose proof B0. pose proof (Z.mul_div_le (2 * U) B ltac:(lia)).
  pose proof (Z.mul_succ_div_gt (2 * U) B ltac:(lia)). lia.
Qed.
Lemma ep_small : 0 <= epsi /\ 2 * epsi < unit f.
Proof.
  pose proof epB. pose proof (HUB f e He) as [H1 H2]. pose proof B0. pose proof U0.
  split; [unfold Core.epsiloni; apply div_nonneg; lia|].
  apply Z.mul_lt_mono_pos_r with B; lia.
Qed.
Lemma ep_le_dl : epsi <= deltai.
Proof.
  pose proof epB. pose proof dlB as H0. rewrite geoX, geoZ in H0. pose proof B0. pose proof U0.
  assert (epsi * B < (deltai + 1) * B) by (destruct edge; lia).
  apply Z.mul_lt_mono_pos_r in H3; lia.
Qed.
Lemma dl_ep : deltai <= 2 * epsi + 1.
Proof.
  pose proof epB. pose proof dlB as H0. rewrite geoX, geoZ in H0. pose proof B0. pose proof U0.
  assert (deltai * B < (2 * epsi + 2) * B) by (destruct edge; lia).
  apply Z.mul_lt_mono_pos_r in H3; lia.
Qed.
Lemma ep_dl_regular : edge = false -> 2 * epsi <= deltai.
Proof.
  intros E. pose proof epB. pose proof dlB as H0. rewrite geoX, geoZ, E in H0. pose proof B0. pose proof U0.
  assert (2 * epsi * B < (deltai + 1) * B) by lia.
  apply Z.mul_lt_mono_pos_r in H3; lia.
Qed.
Lemma ep_le_zi : epsi <= zi.
Proof.
  pose proof epB. pose proof ziB as H0. rewrite geoZ in H0. pose proof B0. pose proof U0.
  assert (0 <= Y) by (unfold Core.Y; nia).
  assert (epsi * B < (zi + 1) * B) by lia.
  apply Z.mul_lt_mono_pos_r in H4; lia.
Qed.
Lemma zi_lt : 0 <= zi /\ 4 * zi < 2 ^ w.
Proof. apply zi_small with itv; assumption. Qed.
Lemma inL_lt' t : t < deltai -> inL (zi - t) = true.
Proof. apply inL_lt; assumption. Qed.
Lemma inL_gt' t : deltai < t -> inL (zi - t) = false.
Proof. apply inL_gt; assumption. Qed.
Lemma inL_nonneg v : inL v = true -> 0 <= v.
Proof.
  unfold Core.inL. rewrite orb_true_iff, andb_true_iff, Z.ltb_lt, Z.eqb_eq. pose proof B0.
  pose proof (X_nonneg f N itv e n Hn noL noR). intros [H1|[_ H1]]; nia.
Qed.

Lemma fc_units : fc f n = 4 * n * unit f.
Proof. unfold fc. rewrite nil_u; ring. Qed.

Lemma pow_w : 2 ^ w = 8 * 2 ^ precision f * unit f. Proof. apply pow_split. Qed.
Lemma fc_lt : 4 * n * unit f < 2 ^ w.
Proof.
  rewrite pow_w. pose proof (n_bound f e n He Hn). destruct (unit_vals f) as [-> | ->]; lia.
Qed.
Lemma yi_ok : compute_mul cfg f (fc f n) (cache_at f (kexp e)) (mbexp e) = Ok (Y / B).
Proof.
  rewrite fc_units. rewrite (mul_ok cfg f e n He Hn) by (try apply fc_lt; lia).
  unfold Core.Y. reflexivity.
Qed.
Lemma y_integer_ok : is_product_integer cfg f other (fc f n) e (- kexp e) = Ok (divb B Y).
Proof.
  unfold fc. rewrite is_product_integer_other; [|exact He | lia |].
  - unfold den, Core.Y, ulp, num. rewrite nil_u. do 2 f_equal. ring.
  - pose proof fc_lt. rewrite nil_u. lia.
Qed.

(** fractional parts of the right end point and of the half interval *)
Lemma eta : exists h, Y = (zi - epsi) * B + h /\ - B < h < B.
Proof.
  exists (Y - (zi - epsi) * B). split; [ring|].
  pose proof ziB as H. pose proof epB as H0. rewrite geoZ in H. lia.
Qed.

(** the number of steps after the fractional check *)
Lemma adjust_ok st D rem :
  0 < D -> 10 <= D -> Z.even D = true -> 0 <= rem < step_cap f * D ->
  zi - epsi = st_significand st * D - D / 2 - rem ->
  exists steps, adjust_steps cfg f cx st (zi - epsi) (1 + rem / D) (rem mod D) = Ok steps /\
    0 <= steps <= step_cap f /\
    cell crs B Y D (st_significand st - steps) /\
    (rem = 0 -> Y / B = zi - epsi -> divb B Y = false -> steps = 0).
Proof.
  intros HD HD10 HDe Hrem Hpos. destruct eta as (h & EY & Hh). pose proof B0 as HB.
  set (s := st_significand st) in *.
  assert (Hev : D = 2 * (D / 2)).
  { apply Z.div_exact; [discriminate|]. rewrite Zmod_even, HDe. reflexivity. }
  set (hd := D / 2) in *.
  pose proof (Z.div_mod rem D ltac:(lia)) as DM. pose proof (Z.mod_pos_bound rem D HD) as RB.
  set (q := rem / D) in *. set (rho := rem mod D) in *.
  assert (Hq : 0 <= q < step_cap f).
  { split; [apply Z.div_pos; lia|]. apply Z.div_lt_upper_bound; lia. }
  assert (Hcap : step_cap f <= 6) by (destruct f; cbn; lia).
  (* position of y relative to the cell of t0 = s - (1 + q) *)
  assert (P0 : Y - (s - (1 + q)) * D * B = (hd - rho) * B + h).
  { rewrite EY, Hpos. replace (s * D - hd - rem) with ((s - (1 + q)) * D + (D - hd - rho)) by lia.
    replace (D - hd - rho) with (hd - rho) by lia. ring. }
  assert (P1 : Y - (s - q) * D * B = (- hd - rho) * B + h).
  { replace ((s - q) * D * B) with ((s - (1 + q)) * D * B + D * B) by ring.
    replace ((- hd - rho) * B + h) with ((hd - rho) * B + h - (2 * hd) * B) by ring.
    rewrite <- Hev. lia. }
  assert (EDB : D * B = 2 * (hd * B)) by (rewrite Hev at 1; ring).
  assert (Hhd : 5 * B <= hd * B) by (apply Z.mul_le_mono_nonneg_r; lia).
  unfold adjust_steps. destruct (Z.eqb_spec rho 0) as [R0|R0].
  2:{ exists (1 + q). split; [reflexivity|]. split; [lia|]. split.
      - assert (C1 : (hd - rho) * B <= hd * B - B) by nia.
        assert (C2 : - (hd * B) + B <= (hd - rho) * B) by nia.
        unfold cell. replace (2 * ((s - (1 + q)) * D * B - Y)) with (- (2 * (Y - (s - (1 + q)) * D * B))) by ring.
        rewrite P0, EDB. repeat split; intros; lia.
      - intros R. exfalso. apply R0. unfold rho. rewrite R. apply Z.mod_0_l. lia. }
  cbn [cx_significand cx_cache cx_minus_beta cx_exponent cx_minus_k cx_crs Core.cx].
  rewrite yi_ok. cbn [bind]. rewrite y_integer_ok.
  rewrite R0 in P0, P1. replace ((hd - 0) * B) with (hd * B) in P0 by ring.
  replace ((- hd - 0) * B) with (- (hd * B)) in P1 by ring.
  assert (D8 : wrap 8 (1 + q - 1) = q) by (rewrite wrap_small; [ring | change (2 ^ 8) with 256; lia]).
  rewrite D8. fold s.
  assert (EP : forall t, 2 * (t * D * B - Y) = - (2 * (Y - t * D * B))) by (intros; ring).
  (* t0 + 1 is strictly nearest when the fractional part is positive *)
  destruct (Z.eqb_spec (Y / B) (zi - epsi)) as [EYi|EYi].
  - assert (h0 : 0 <= h).
    { pose proof (Z.mul_div_le Y B HB) as M. rewrite EYi in M. lia. }
    assert (DV : divb B Y = (h =? 0)).
    { apply divb_eq; [exact HB|]. rewrite Z.eqb_eq. split.
      - intros [c Hc]. assert (c = zi - epsi) by (rewrite <- EYi, Hc, Z.div_mul; lia). subst c. lia.
      - intros ->. exists (zi - epsi). lia. }
    rewrite DV.
    assert (Cup : h <> 0 -> cell crs B Y D (s - q)).
    { intros. unfold cell. rewrite EP, P1, EDB. repeat split; intros; lia. }
    assert (Tup : h = 0 -> tie_ok crs (s - q) (s - q - 1) -> cell crs B Y D (s - q)).
    { intros Q T. unfold cell. rewrite EP, P1, EDB. repeat split; intros; try lia. exact T. }
    assert (Tdn : h = 0 -> tie_ok crs (s - (1 + q)) (s - (1 + q) + 1) -> cell crs B Y D (s - (1 + q))).
    { intros Q T. unfold cell. rewrite EP, P0, EDB. repeat split; intros; try lia. exact T. }
    assert (Qz : rem = 0 -> q = 0) by (intros R; unfold q; rewrite R; apply Z.div_0_l; lia).
    destruct crs eqn:Ec; try discriminate; destruct (Z.eqb_spec h 0) as [H0|H0]; cbn [bind].
    + rewrite land1_eq. destruct (Z.even (s - (1 + q))) eqn:Ev; cbn [negb].
      * exists (1 + q). split; [reflexivity|]. split; [lia|]. split; [|discriminate].
        apply Tdn; [assumption|]. exact Ev.
      * exists q. split; [reflexivity|]. split; [lia|]. split; [|discriminate].
        apply Tup; [assumption|]. cbn [tie_ok]. replace (s - q) with (Z.succ (s - (1 + q))) by lia.
        rewrite Z.even_succ, <- Z.negb_even, Ev. reflexivity.
    + exists q. split; [reflexivity|]. split; [lia|]. split; [apply Cup; assumption|]. intros; auto.
    + rewrite land1_eq. destruct (Z.even (s - (1 + q))) eqn:Ev.
      * exists q. split; [reflexivity|]. split; [lia|]. split; [|discriminate].
        apply Tup; [assumption|]. cbn [tie_ok]. replace (s - q) with (Z.succ (s - (1 + q))) by lia.
        rewrite Z.odd_succ. exact Ev.
      * exists (1 + q). split; [reflexivity|]. split; [lia|]. split; [|discriminate].
        apply Tdn; [assumption|]. cbn [tie_ok]. rewrite <- Z.negb_even, Ev. reflexivity.
    + exists q. split; [reflexivity|]. split; [lia|]. split; [apply Cup; assumption|]. intros; auto.
    + exists q. split; [reflexivity|]. split; [lia|]. split; [|intros; auto].
      apply Tup; [assumption|]. cbn [tie_ok]. lia.
    + exists q. split; [reflexivity|]. split; [lia|]. split; [apply Cup; assumption|]. intros; auto.
    + exists (1 + q). split; [reflexivity|]. split; [lia|]. split; [|discriminate].
      apply Tdn; [assumption|]. cbn [tie_ok]. lia.
    + exists q. split; [reflexivity|]. split; [lia|]. split; [apply Cup; assumption|]. intros; auto.
  - exists (1 + q). split; [reflexivity|]. split; [lia|]. split; [|congruence].
    assert (h < 0).
    { destruct (Z.lt_ge_cases h 0) as [|G]; [assumption|]. exfalso. apply EYi.
      symmetry. apply Z.div_unique with h; lia. }
    unfold cell. rewrite EP, P0, EDB. repeat split; intros; lia.
Qed.

(** [s] itself is in the interval, or it is the excluded right end point and [s - 1] is in *)
Definition reachable (D s r : Z) : Prop :=
  in_int (s * D) = true \/ (r = 0 /\ (B | Zr) /\ inL (zi - D) = true).

Lemma lonely_closest D s r :
  0 < D -> zi = s * D + r -> 0 <= r < D -> inL (s * D - D) = false -> closest D s.
Proof.
  intros HD Hz Hr HL u Hu. unfold Core.in_int in Hu. apply andb_true_iff in Hu. destruct Hu as [UL UR].
  apply inR_le in UR. assert (u <= s) by nia.
  destruct (Z.eq_dec u s) as [->|]; [split; [lia | congruence]|]. exfalso.
  assert (inL (s * D - D) = true); [|congruence].
  apply inL_mono with (u * D); [nia | exact UL].
Qed.

Lemma edge_n : edge = true -> n = 2 ^ precision f /\ e <> exp_min f.
Proof.
  unfold is_edge. rewrite andb_true_iff, negb_true_iff, Z.eqb_eq, Z.eqb_neq. tauto.
Qed.

(** the tabulated facts about powers of two, in the vocabulary of this file *)
Lemma edge_facts D : edge = true -> D = 10 \/ D = 100 -> check_edge_kappa f e zi deltai epsi D = true.
Proof.
  intros E HD. pose proof (edge_ok f e He) as C. unfold check_edge in C. cbv zeta in C.
  destruct (edge_n E) as [En _].
  change (Z.shiftr ((4 * 2 ^ precision f + 2) * unit f * phi f (kexp e)) (2 * extended_precision f + mbexp e))
    with (scaled f (4 * 2 ^ precision f + 2) e) in C.
  change (Z.shiftr (3 * unit f * phi f (kexp e)) (2 * extended_precision f + mbexp e)) with (scaled f 3 e) in C.
  change (Z.shiftr (2 * unit f * phi f (kexp e)) (2 * extended_precision f + mbexp e)) with (scaled f 2 e) in C.
  assert (P : 16 * 2 ^ precision f = 2 ^ (precision f + 4)) by (destruct f; reflexivity).
  assert (P2 : 2 < 2 ^ precision f) by (destruct f; reflexivity).
  rewrite !scaled_ok in C by (try exact He; lia).
  assert (E1 : (4 * 2 ^ precision f + 2) * U / B = zi) by (unfold Core.zi, Core.Z_, hi_u; rewrite En; reflexivity).
  assert (E2 : 3 * U / B = deltai) by (unfold Core.deltai; rewrite E; reflexivity).
  assert (E3 : 2 * U / B = epsi) by reflexivity.
  rewrite E1, E2, E3 in C. apply andb_true_iff in C. destruct HD as [-> | ->]; tauto.
Qed.

Lemma pow10_small kap : 1 <= kap -> 10 ^ kap / 2 <= epsi -> 10 ^ kap = 10 \/ 10 ^ kap = 100.
Proof.
  intros H1 H2. pose proof ep_small as [_ H3].
  destruct (Z.le_gt_cases 3 kap) as [G|G].
  - exfalso. assert (10 ^ 3 / 2 <= 10 ^ kap / 2) by (apply Z.div_le_mono; [lia | apply Z.pow_le_mono_r; lia]).
    change (10 ^ 3 / 2) with 500 in H. destruct (unit_vals f); lia.
  - assert (kap = 1 \/ kap = 2) as [-> | ->] by lia; [left | right]; reflexivity.
Qed.

Theorem nearest_search kap s r z :
  1 <= kap <= 18 -> zi = s * 10 ^ kap + r -> 0 <= r < 10 ^ kap -> deltai < 10 ^ (kap + 1) ->
  (f = Binary32 -> kap <= 9) ->
  (edge = true -> deltai <= zi mod 10 ^ (kap + 1)
     \/ ((10 ^ (kap + 1) | zi) /\ integer_check_exponent_lower_bound_for_q_mp_m2 f <= e <= max_exponent_for_k_geq_0 f)) ->
  reachable (10 ^ kap) s r ->
  exists t, correct_rounding_search_label cfg f cx (mk_state s (kap - kexp e) r (10 ^ kap) deltai z)
            = Ok (t, kap - kexp e) /\ in_int (t * 10 ^ kap) = true /\ closest (10 ^ kap) t.
Proof.
  intros Hkap Hz Hr Hdl Hf Hedge Hreach.
  assert (ED1 : 10 ^ (kap + 1) = 10 * 10 ^ kap) by (rewrite Z.pow_add_r by lia; ring).
  assert (HD10 : 10 <= 10 ^ kap).
  { change 10 with (10 ^ 1) at 1. apply Z.pow_le_mono_r; lia. }
  assert (HDe : Z.even (10 ^ kap) = true) by (rewrite Z.even_pow by lia; reflexivity).
  assert (HDw : 10 ^ kap / 2 + r < 2 ^ w).
  { assert (2 * 10 ^ kap < 2 ^ w).
    { apply Z.le_lt_trans with (2 * 10 ^ (match f with Binary32 => 9 | Binary64 => 18 end)).
      - apply Z.mul_le_mono_nonneg_l; [lia|]. apply Z.pow_le_mono_r; [lia|].
        destruct f; [apply Hf; reflexivity | lia].
      - destruct f; reflexivity. }
    assert (10 ^ kap / 2 <= 10 ^ kap) by (apply Z.div_le_upper_bound; lia). lia. }
  pose proof (pow10_small kap ltac:(lia)) as Hsmall.
  rewrite ED1 in *. set (D := 10 ^ kap) in *.
  assert (Hj : forall j, j = kap -> 10 ^ j = D) by (intros; subst; reflexivity).
  assert (Hev : D = 2 * (D / 2)).
  { apply Z.div_exact; [discriminate|]. rewrite Zmod_even, HDe. reflexivity. }
  set (h := D / 2) in *.
  pose proof B0 as HB0. pose proof U0 as HU0. pose proof geoZ as GZ. pose proof geoX as GX.
  pose proof ziB as HzB. pose proof dlB as HdB. pose proof epB as HeB.
  pose proof ep_small as [Ep0 Ep1]. pose proof zi_lt as [Zi0 Zi1].
  assert (EDB : D * B = 2 * (h * B)) by (rewrite Hev at 1; ring).
  assert (HhB : 5 * B <= h * B) by (apply Z.mul_le_mono_nonneg_r; lia).
  assert (Hs0 : 0 <= s) by nia.
  unfold correct_rounding_search_label. cbn [Core.cx cx_crs cx_tag cx_minus_k cx_cache cx_minus_beta cx_zi cx_significand cx_exponent st_exponent st_divisor st_r st_deltai st_significand].
  rewrite Hcares. rewrite cassert_true by (apply negb_true_iff, Z.eqb_neq; lia). cbn [bind].
  rewrite (epsilon_ok f e n He Hn). cbn [bind]. fold h.
  rewrite (wrap_small w (h + r)) by lia.
  destruct (Z.leb_spec (h + r) epsi) as [L|L].
  2:{ (* y is within half a step of s *)
      assert (YS : s * D * B - h * B < Y).
      { assert ((epsi + 1) * B <= (h + r) * B) by (apply Z.mul_le_mono_nonneg_r; lia).
        assert (zi * B = s * D * B + r * B) by (rewrite Hz; ring). lia. }
      exists s. split; [reflexivity|]. split.
      - destruct Hreach as [Hin | (R0 & DV & IL)]; [exact Hin|]. exfalso.
        assert (D <= deltai).
        { destruct (Z.le_gt_cases D deltai) as [|G]; [assumption|]. rewrite (inL_gt' D G) in IL. discriminate. }
        pose proof dl_ep. lia.
      - intros u Hu. unfold Core.in_int in Hu. apply andb_true_iff in Hu. destruct Hu as [_ UR].
        apply inR_le in UR. assert (u <= s) by nia.
        destruct (Z.eq_dec u s) as [->|]; [split; [lia | congruence]|].
        assert (u * D * B <= s * D * B - D * B).
        { replace (s * D * B - D * B) with ((s - 1) * (D * B)) by ring.
          replace (u * D * B) with (u * (D * B)) by ring. apply Z.mul_le_mono_nonneg_r; lia. }
        assert (Z.abs (s * D * B - Y) < Z.abs (u * D * B - Y)) by lia. split; [lia|]. intros; lia. }
  (* y is further down *)
  specialize (Hsmall ltac:(lia)).
  assert (Hu32 : unit f <= 512) by (destruct (unit_vals f); lia).
  pose proof ep_le_zi as EZ. pose proof ep_le_dl as EDl.
  assert (Hdl32 : deltai < 512).
  { pose proof (deltai_small f N itv e n He noL noR). lia. }
  rewrite (wrap_small w (zi - epsi)) by lia.
  rewrite (wrap_small 32 (h + r)) by lia.
  rewrite (wrap_small 32 (epsi - (h + r))) by lia.
  rewrite (wrap_small 32 D) by lia.
  set (rem := epsi - (h + r)).
  assert (Hcap : rem < step_cap f * D).
  { destruct edge eqn:Ed.
    - pose proof (edge_facts D Ed Hsmall) as C. unfold check_edge_kappa in C. cbv zeta in C.
      fold h in C. assert (ER : zi mod D = r) by (rewrite Hz, Z.add_comm, Z_mod_plus_full; apply Z.mod_small; lia).
      rewrite ER in C. rewrite (proj2 (Z.leb_le _ _) L) in C.
      rewrite !andb_true_iff, !orb_true_iff, !Z.ltb_lt, Z.geb_le, negb_true_iff, Z.eqb_neq in C.
      destruct C as [[C1 C2] _].
      destruct (Hedge eq_refl) as [G|[[c G] Ge]].
      + destruct C1 as [C1|C1]; [unfold rem; lia | lia].
      + assert (zi mod (10 * D) = 0) by (rewrite G; apply Z_mod_mult).
        destruct C2 as [[[[C2|C2]|C2]|C2]|C2]; [unfold rem; lia | lia | congruence | lia | lia].
    - pose proof (ep_dl_regular Ed). assert (5 <= step_cap f) by (destruct f; cbn; lia).
      assert (rem < 5 * D) by (unfold rem; lia). nia. }
  rewrite count_steps_ok by (try exact Hcap; unfold rem; lia).
  destruct (adjust_ok (mk_state s (kap - kexp e) r D deltai z) D rem) as (steps & EA & Rs & Cell & Zero);
    try assumption; try lia.
  { cbn [st_significand]. fold h. unfold rem. lia. }
  cbn [st_significand] in Cell.
  fold cx. rewrite EA. cbn [bind].
  rewrite (wrap_small 32 r) by lia.
  assert (Rdl : r <= deltai) by lia.
  rewrite (wrap_small 32 (deltai - r)) by lia.
  rewrite (sign_bit_n f e n He Hn).
  set (t := s - steps) in *.
  assert (Sub : in_int (t * D) = true ->
     exists t0, Ok (wrap w t, kap - kexp e) = Ok (t0, kap - kexp e) /\ in_int (t0 * D) = true /\ closest D t0).
  { intros Hin. exists t. split; [|split; [exact Hin|]].
    - rewrite wrap_small; [reflexivity|].
      apply andb_true_iff in Hin. destruct Hin as [IL _]. apply inL_nonneg in IL.
      unfold t in *. split; [nia|]. assert (s <= zi) by nia. lia.
    - intros u _. apply cell_closest; [exact HB0 | lia | exact Cell]. }
  destruct Cell as (Cell1 & Cell2 & _ & _).
  (* the state itself *)
  assert (Stay : inL (s * D - D) = false ->
     exists t0, return_label (mk_state s (kap - kexp e) r D deltai z) = Ok (t0, kap - kexp e)
       /\ in_int (t0 * D) = true /\ closest D t0).
  { intros HL. exists s. split; [reflexivity|]. split.
    - destruct Hreach as [Hin | (R0 & DV & IL)]; [exact Hin|]. exfalso.
      replace (zi - D) with (s * D - D) in IL by lia. congruence.
    - apply lonely_closest with r; try assumption; lia. }
  assert (Right : 1 <= steps -> inR (t * D) = true).
  { intros. apply inR_lt. unfold t. nia. }
  destruct (Z.eq_dec steps 0) as [S0|S0].
  { (* back to s *)
    rewrite (proj2 (Z.eqb_neq steps 1)) by lia. cbn [andb].
    apply Sub. unfold t. rewrite S0, Z.sub_0_r.
    destruct Hreach as [Hin | (R0 & DV & IL)]; [exact Hin|]. exfalso.
    assert (EZr : Zr = zi * B).
    { destruct DV as [c DV]. unfold Core.zi. rewrite DV, Z.div_mul by lia. reflexivity. }
    assert (XL : X <= zi * B - D * B).
    { unfold Core.inL in IL. rewrite orb_true_iff, andb_true_iff, Z.ltb_lt, Z.eqb_eq in IL. lia. }
    assert (Y4 : 2 * (2 * U) <= D * B).
    { unfold t in Cell2. rewrite S0, Z.sub_0_r in Cell2. rewrite R0, Z.add_0_r in Hz.
      rewrite <- Hz in Cell2. lia. }
    destruct edge eqn:Ed; [lia|].
    apply (exact_length_impossible f N itv e n noL noR kap eq_refl DV).
    - exists s. fold D. lia.
    - lia.
    - fold D. lia. }
  assert (HS1 : 1 <= steps) by lia. specialize (Right HS1).
  assert (HrB : (h + r) * B <= epsi * B) by (apply Z.mul_le_mono_nonneg_r; lia).
  assert (ErB : (h + r) * B = h * B + r * B) by ring.
  assert (HrB0 : 0 <= r * B) by (apply Z.mul_nonneg_nonneg; lia).
  assert (HszB : zi * B = s * D * B + r * B) by (rewrite Hz; ring).
  destruct edge eqn:Ed.
  - (* power of two, shorter left half *)
    destruct (edge_n Ed) as [En Ee].
    destruct (Z.eqb_spec steps 1) as [S1|S1]; cbn [andb].
    + rewrite (proj2 (Z.eqb_eq n (2 ^ precision f)) En).
      assert (Et : t * D = zi - (D + r)) by (unfold t; rewrite S1, Hz; ring).
      assert (Es : s * D - D = zi - (D + r)) by lia.
      destruct (Z.ltb_spec (deltai - r) D) as [L1|L1].
      { apply Stay. rewrite Es. apply inL_gt'. lia. }
      destruct (Z.eqb_spec D (deltai - r)) as [E1|E1].
      * pose proof (edge_facts D Ed Hsmall) as C. unfold check_edge_kappa in C. cbv zeta in C.
        fold h in C. assert (ER : zi mod D = r) by (rewrite Hz, Z.add_comm, Z_mod_plus_full; apply Z.mod_small; lia).
        rewrite ER in C. rewrite (proj2 (Z.leb_le _ _) L) in C.
        rewrite (proj2 (Z.eqb_eq (D + r) deltai)) in C by lia.
        rewrite !andb_true_iff in C. destruct C as [_ C]. apply orb_true_iff in C.
        assert (EX : (4 * 2 ^ precision f - 1) * U = X).
        { unfold Core.X, lo_u. rewrite Ed, En. reflexivity. }
        rewrite EX in C. destruct C as [C|C].
        -- change (match f with Binary32 => 59 | Binary64 => -203 end) with (lonely_e f).
           destruct (Z.eqb_spec e (lonely_e f)) as [Hl|Hl].
           ++ apply Stay. rewrite Es. unfold Core.inL. apply Z.ltb_lt in C.
              replace (D + r) with deltai by lia.
              apply orb_false_iff. split; [apply Z.ltb_ge; lia|]. apply andb_false_intro2, Z.eqb_neq. lia.
           ++ apply Sub. unfold Core.in_int. rewrite Right, andb_true_r, Et. unfold Core.inL.
              replace (D + r) with deltai by lia. rewrite C. reflexivity.
        -- exfalso. rewrite !andb_true_iff, !Z.eqb_eq, negb_true_iff in C. destruct C as [[C1 C2] C3].
           rewrite scaled_ok in C2; [|exact He|].
           2:{ assert (16 * 2 ^ precision f = 2 ^ (precision f + 4)) by (destruct f; reflexivity).
               assert (2 < 2 ^ precision f) by (destruct f; reflexivity). lia. }
           assert (EYn : 4 * 2 ^ precision f * U = Y) by (unfold Core.Y; rewrite En; reflexivity).
           rewrite EYn in C2, C3. unfold rem in Zero.
           assert (steps = 0) by (apply Zero; try assumption; lia). lia.
      * apply Sub. unfold Core.in_int. rewrite Right, andb_true_r, Et. apply inL_lt'. lia.
    + apply Sub. unfold Core.in_int. rewrite Right, andb_true_r. unfold Core.inL.
      rewrite (proj2 (Z.ltb_lt _ _)); [reflexivity|].
      assert (SD : s * D * B <= Zr) by lia.
      assert (ST : 2 * (D * B) <= s * D * B - t * D * B).
      { replace (s * D * B - t * D * B) with (steps * (D * B)) by (unfold t; ring).
        apply Z.mul_le_mono_nonneg_r; lia. }
      lia.
  - (* symmetric interval *)
    assert (IN : in_int (t * D) = true).
    { unfold Core.in_int. rewrite Right, andb_true_r. unfold Core.inL.
      destruct (Z.eq_dec X (t * D * B)) as [EX|EX].
      2:{ rewrite (proj2 (Z.ltb_lt _ _)); [reflexivity|]. lia. }
      exfalso.
      assert (E1 : 2 * U = h * B) by lia.
      assert (R0 : r = 0).
      { destruct (Z.eq_dec r 0); [assumption|]. exfalso.
        assert (1 * B <= r * B) by (apply Z.mul_le_mono_nonneg_r; lia). lia. }
      assert (EZr : Zr = (t + 1) * D * B) by lia.
      assert (DV : (B | Zr)) by (exists ((t + 1) * D); exact EZr).
      apply (exact_length_impossible f N itv e n noL noR kap eq_refl DV).
      - exists (t + 1). fold D. unfold Core.zi. rewrite EZr, Z.div_mul by lia. reflexivity.
      - lia.
      - fold D. lia. }
    destruct (Z.eqb_spec steps 1) as [S1|S1]; cbn [andb]; [|apply Sub; exact IN].
    destruct (Z.eqb_spec n (2 ^ precision f)) as [En|En]; [|apply Sub; exact IN].
    assert (Et : t * D = zi - (D + r)) by (unfold t; rewrite S1, Hz; ring).
    assert (Ee : e = exp_min f).
    { unfold is_edge in Ed. rewrite En, Z.eqb_refl in Ed. cbn [andb] in Ed.
      apply negb_false_iff, Z.eqb_eq in Ed. exact Ed. }
    destruct (Z.ltb_spec (deltai - r) D) as [L1|L1].
    { exfalso. apply andb_true_iff in IN. destruct IN as [IL _].
      rewrite Et, inL_gt' in IL by lia. discriminate. }
    destruct (Z.eqb_spec D (deltai - r)) as [E1|E1]; [|apply Sub; exact IN].
    rewrite (proj2 (Z.eqb_neq e _)); [apply Sub; exact IN|]. rewrite Ee. destruct f; discriminate.
Qed.

(** ** kappa = 0: 2y is computed exactly and rounded *)
Lemma two_yi_ok :
  compute_mul cfg f (fc f n) (cache_at f (kexp e)) (mbexp e - 1) = Ok (2 * Y / B).
Proof.
  pose proof (e_basic f e He) as EB. pose proof fc_lt as FL. rewrite fc_units.
  assert (Hu : 0 < unit f) by (destruct (unit_vals f); lia).
  rewrite compute_mul_exact; [|apply EB | split; [nia|lia] | destruct EB as (_ & EB); destruct f; cbn; lia].
  f_equal. destruct EB as [_ EB]. assert (Hw0 : 0 <= w) by (destruct f; discriminate).
  assert (M2 : 2 ^ (2 * w + mbexp e) = 2 * 2 ^ (2 * w + (mbexp e - 1))).
  { rewrite <- Z.pow_succ_r by lia. f_equal. lia. }
  rewrite <- (Z.div_mul_cancel_l _ _ 2) by (try lia; apply Z.pow_nonzero; lia).
  rewrite <- M2.
  replace (2 * (4 * n * unit f * phi f (kexp e))) with (8 * n * unit f * phi f (kexp e)) by ring.
  rewrite mul_floor_exact; [|exact He|].
  - unfold Core.Y, ulp, num, den. f_equal. ring.
  - replace (2 ^ (precision f + 4)) with (8 * 2 ^ (precision f + 1)) by (destruct f; reflexivity). lia.
Qed.

Lemma two_y_integer_ok :
  is_product_integer cfg f two_times_fc (fc f n) e (- kexp e) = Ok (divb B (2 * Y)).
Proof.
  unfold fc. rewrite is_product_integer_two; [|exact He | lia |].
  - unfold den, Core.Y, ulp, num. rewrite nil_u. do 2 f_equal. ring.
  - pose proof fc_lt. rewrite nil_u. lia.
Qed.

Theorem nearest_search_0 st :
  f = Binary32 ->
  exists t, correct_rounding_search_when_kappa_is_0_label cfg f cx st = Ok (t, st_exponent st)
    /\ in_int (t * 10 ^ 0) = true /\ closest (10 ^ 0) t.
Proof.
  intros Hf. change (10 ^ 0) with 1.
  pose proof B0 as HB0. pose proof U0 as HU0. pose proof geoZ as GZ. pose proof geoX as GX.
  pose proof ziB as HzB. pose proof dlB as HdB. pose proof zi_lt as [Zi0 Zi1].
  assert (HY0 : 0 <= Y) by (unfold Core.Y; nia).
  assert (HD2 : 2 <= deltai).
  { pose proof (deltai_lower f N itv e n He Hn noL noR) as G. rewrite Hf in G at 1. exact G. }
  assert (Half : B <= 2 * U /\ (edge = true -> B < 2 * U)).
  { assert (2 * B <= deltai * B) by (apply Z.mul_le_mono_nonneg_r; lia). destruct edge; split; intros; try discriminate; lia. }
  destruct Half as [Half Half'].
  set (c := 2 * Y / B).
  assert (Hc : c * B <= 2 * Y < (c + 1) * B).
  { unfold c. pose proof (Z.mul_div_le (2 * Y) B HB0). pose proof (Z.mul_succ_div_gt (2 * Y) B HB0). lia. }
  assert (Hc0 : 0 <= c) by (apply Z.div_pos; lia).
  assert (HcW : c + 1 < 2 ^ w).
  { assert (64 <= 2 ^ w) by (destruct f; discriminate).
    assert (c < 2 * (zi + 1)); [|lia].
    apply Z.div_lt_upper_bound; [exact HB0|]. lia. }
  assert (Key : forall t, cell crs B Y 1 t ->
    exists t0, Ok (t, st_exponent st) = Ok (t0, st_exponent st) /\ in_int (t0 * 1) = true /\ closest 1 t0).
  { intros t HC. exists t. split; [reflexivity|]. split.
    - destruct HC as (C1 & C2 & _). rewrite Z.mul_1_r in *. unfold Core.in_int, Core.inL, Core.inR.
      rewrite (proj2 (Z.ltb_lt X (t * B))) by (destruct edge; [specialize (Half' eq_refl)|]; lia).
      rewrite (proj2 (Z.ltb_lt (t * B) Zr)) by lia. reflexivity.
    - intros u _. apply cell_closest; [exact HB0 | lia | exact HC]. }
  unfold correct_rounding_search_when_kappa_is_0_label.
  cbn [Core.cx cx_crs cx_tag cx_minus_k cx_cache cx_minus_beta cx_zi cx_significand cx_exponent].
  rewrite two_yi_ok, two_y_integer_ok. cbn [bind]. fold c.
  rewrite (wrap_small w (c + 1)) by lia.
  assert (Hint : divb B (2 * Y) = true -> 2 * Y = c * B).
  { intros D. apply divb_true in D; [|lia]. destruct D as [q Dq].
    unfold c. rewrite Dq, Z.div_mul by lia. reflexivity. }
  assert (Hnint : divb B (2 * Y) = false -> 2 * Y <> c * B).
  { intros D E. assert (divb B (2 * Y) = true); [|congruence]. apply divb_true; [lia|]. exists c. exact E. }
  pose proof (Z.div_mod c 2 ltac:(lia)) as Dc. pose proof (Z.mod_pos_bound c 2 ltac:(lia)) as Mc.
  set (a := c / 2) in *.
  assert (Hodd : Z.odd a = (a mod 2 =? 1)) by (rewrite Zmod_odd; destruct (Z.odd a); reflexivity).
  assert (Heven : Z.even a = (a mod 2 =? 0)) by (rewrite Zmod_even; destruct (Z.even a); reflexivity).
  assert (HCB : c * B = 2 * (a * B) + (c mod 2) * B) by (rewrite Dc at 1; ring).
  assert (Up : (c + 1) / 2 = a + c mod 2).
  { replace (c + 1) with ((c mod 2 + 1) + a * 2) by lia.
    rewrite Z.div_add by lia. rewrite Z.add_comm. f_equal.
    assert (c mod 2 = 0 \/ c mod 2 = 1) as [M|M] by lia; rewrite M; reflexivity. }
  assert (CellLo : c mod 2 = 0 -> cell crs B Y 1 a).
  { intros M. rewrite M in HCB. unfold cell. rewrite !Z.mul_1_r, !Z.mul_1_l.
    split; [lia|]. split; [lia|]. split; intros G; exfalso; lia. }
  assert (CellHi : c mod 2 = 1 -> (2 * Y = c * B -> tie_ok crs (a + 1) a) -> cell crs B Y 1 (a + 1)).
  { intros M T. rewrite M in HCB. unfold cell. rewrite !Z.mul_1_r, !Z.mul_1_l, Z.mul_add_distr_r.
    replace (a + 1 - 1) with a by ring.
    split; [lia|]. split; [lia|]. split; intros G; [exfalso; lia|]. apply T. lia. }
  assert (CellTie : c mod 2 = 1 -> 2 * Y = c * B -> tie_ok crs a (a + 1) -> cell crs B Y 1 a).
  { intros M T TO. rewrite M in HCB. unfold cell. rewrite !Z.mul_1_r, !Z.mul_1_l.
    split; [lia|]. split; [lia|]. split; intros G; [exact TO|]. exfalso; lia. }
  assert (CellUp : (2 * Y = c * B -> c mod 2 = 1 -> tie_ok crs (a + 1) a) -> cell crs B Y 1 (a + c mod 2)).
  { intros T. assert (c mod 2 = 0 \/ c mod 2 = 1) as [M|M] by lia; rewrite M.
    - rewrite Z.add_0_r. apply CellLo. exact M.
    - apply CellHi; [exact M|]. intros E. apply T; assumption. }
  rewrite Up.
  destruct crs; try discriminate.
  - destruct (divb B (2 * Y)) eqn:Dv.
    + rewrite <- Hodd. destruct (Z.odd a) eqn:Oa.
      * apply Key, CellUp. intros. cbn. rewrite Z.even_add, <- Z.negb_odd, Oa. reflexivity.
      * apply Key. assert (c mod 2 = 0 \/ c mod 2 = 1) as [M|M] by lia; [apply CellLo; exact M|].
        apply CellTie; [exact M | apply Hint; reflexivity|]. cbn. rewrite <- Z.negb_odd, Oa. reflexivity.
    + apply Key, CellUp. intros E. exfalso. apply Hnint; [reflexivity | exact E].
  - destruct (divb B (2 * Y)) eqn:Dv.
    + rewrite <- Heven. destruct (Z.even a) eqn:Oa.
      * apply Key, CellUp. intros. cbn. rewrite Z.odd_add, <- Z.negb_even, Oa. reflexivity.
      * apply Key. assert (c mod 2 = 0 \/ c mod 2 = 1) as [M|M] by lia; [apply CellLo; exact M|].
        apply CellTie; [exact M | apply Hint; reflexivity|]. cbn. rewrite <- Z.negb_even, Oa. reflexivity.
    + apply Key, CellUp. intros E. exfalso. apply Hnint; [reflexivity | exact E].
  - apply Key, CellUp. intros. cbn. lia.
  - destruct (divb B (2 * Y)) eqn:Dv.
    + apply Key. assert (c mod 2 = 0 \/ c mod 2 = 1) as [M|M] by lia; [apply CellLo; exact M|].
      apply CellTie; [exact M | apply Hint; reflexivity|]. cbn. lia.
    + rewrite Up. apply Key, CellUp. intros E. exfalso. apply Hnint; [reflexivity | exact E].
Qed.

(** a power of two whose right end point lands on an integer has its exponent in the middle range *)
Lemma edge_right_integer : edge = true -> (B | Zr) ->
  integer_check_exponent_lower_bound_for_q_mp_m2 f <= e <= max_exponent_for_k_geq_0 f.
Proof.
  intros Ed DV. destruct (edge_n Ed) as [En _].
  pose proof (int_ok f e He) as C. unfold check_int in C. cbv zeta in C.
  rewrite !andb_true_iff in C. destruct C as [[[C _] _] _].
  set (t := q_mp f - 2) in *. set (o := 2 * 2 ^ precision f + 1).
  assert (EZ : Zr = o * 2 ^ t * num e).
  { assert (Eu : 2 * unit f = 2 ^ t) by (destruct f; reflexivity).
    unfold Core.Z_, hi_u, ulp, o. rewrite En, <- Eu. ring. }
  assert (Ht : 0 <= t) by (destruct f; cbn; lia).
  rewrite EZ in DV. apply prod_integer in DV. destruct DV as [D2 D5].
  assert (N2 : - (e + kexp e) <= t).
  { unfold o in D2. rewrite <- (Z.mul_1_l 2) in D2 at 2.
    apply odd_mult_divide in D2; [|apply pos_part_nonneg|exact Ht].
    destruct (pos_part_cases (- (e + kexp e))); lia. }
  assert (N5 : - kexp e <= 0).
  { apply pow5_divide_strip in D5; [|apply pos_part_nonneg|exact Ht].
    destruct (Z.le_gt_cases (- kexp e) 0) as [|G]; [assumption|exfalso].
    assert (D : (5 | o)).
    { eapply Z.divide_trans; [|exact D5]. rewrite pos_part_pos by lia.
      exists (5 ^ (- kexp e - 1)).
      replace (- kexp e) with (Z.succ (- kexp e - 1)) at 1 by lia. rewrite Z.pow_succ_r by lia. ring. }
    apply Z.mod_divide in D; [|discriminate]. revert D. unfold o. destruct f; cbv; discriminate. }
  destruct (Z.ltb_spec e (integer_check_exponent_lower_bound_for_q_mp_m2 f)) as [L1|L1].
  { apply Z.ltb_lt in C. lia. }
  destruct (Z.leb_spec e (max_exponent_for_k_geq_0 f)) as [L2|L2]; [lia|]. exfalso.
  destruct (e <=? integer_check_exponent_upper_bound_for_p_p2 f).
  - rewrite !andb_true_iff in C. destruct C as [[_ C] _]. apply Z.leb_le in C. lia.
  - apply Z.leb_le in C. destruct f; cbn [thr2] in C; lia.
Qed.

Lemma not_okb_mod kap : 0 <= kap -> okb f N itv e n kap = false -> deltai <= zi mod 10 ^ kap.
Proof.
  intros Hk H. destruct (Z.lt_ge_cases (zi mod 10 ^ kap) deltai) as [L|L]; [|exact L].
  apply inL_lt' in L. unfold okb in H. congruence.
Qed.

Theorem nearest_result :
  exists kap t, compute_tail cfg f N crs itv e n = Ok (t, kap - kexp e)
    /\ min_kappa f <= kap <= top_kappa f
    /\ in_int (t * 10 ^ kap) = true /\ no_coarser f N itv e n kap /\ closest (10 ^ kap) t.
Proof.
  destruct (search_result cfg f N crs itv e n He Hn noL noR) as (kap & z & Hf & Hzf & ->).
  destruct Hf as (Hk & Hok & Hno).
  assert (Hk0 : 0 <= kap) by (destruct f; cbn in Hk; lia).
  assert (Htop : top_kappa f <= 18) by (destruct f; discriminate).
  assert (Hf9 : f = Binary32 -> kap <= 9) by (intros ->; exact (proj2 Hk)).
  pose proof (no_coarser_found f N itv e n kap Hk0 Hno) as NC.
  pose proof (deltai_lt_found f N itv e n noL noR kap Hk0 Hno) as DL.
  pose proof (not_okb_mod (kap + 1) ltac:(lia) Hno) as DM.
  pose proof (Z.pow_pos_nonneg 10 kap ltac:(lia) Hk0) as PD.
  pose proof (Z.div_mod zi (10 ^ kap) ltac:(lia)) as Dz.
  pose proof (Z.mod_pos_bound zi (10 ^ kap) ltac:(lia)) as Dr.
  assert (Es : zi / 10 ^ kap * 10 ^ kap = zi - zi mod 10 ^ kap) by lia.
  unfold after_search. rewrite Hcares. cbn [andb state_at st_exponent].
  destruct (Z.eqb_spec (kap - kexp e) (min_kappa f - kexp e)) as [Em|Em].
  - destruct (Z.eqb_spec (min_kappa f) 0) as [E0|E0].
    + assert (kap = 0) by lia. subst kap.
      destruct (nearest_search_0 (state_at f N e n 0 z)) as (t & Et & I & C).
      { destruct f; [reflexivity | discriminate]. }
      exists 0, t. cbn [state_at st_exponent] in Et. repeat split; try assumption; try apply C; try assumption; lia.
    + assert (Hf64 : f = Binary64) by (destruct f; [exfalso; apply E0; reflexivity | reflexivity]).
      assert (Hm1 : min_kappa f = 1) by (rewrite Hf64; reflexivity). assert (kap = 1) by lia. subst kap.
      destruct (nearest_search 1 (zi / 10 ^ 1) (zi mod 10 ^ 1) z) as (t & Et & I & C); try lia.
      * unfold reachable. rewrite Es. unfold Core.in_int. unfold okb in Hok. rewrite Hok. cbn [andb].
        destruct (inR (zi - zi mod 10 ^ 1)) eqn:IR; [left; reflexivity|right].
        pose proof ziB as ZB. pose proof B0 as HB0.
        unfold Core.inR in IR. apply orb_false_iff in IR. destruct IR as [IR _]. apply Z.ltb_ge in IR.
        assert (R0 : zi mod 10 ^ 1 = 0).
        { destruct (Z.eq_dec (zi mod 10 ^ 1) 0) as [|Nr]; [assumption|exfalso].
          assert ((zi - zi mod 10 ^ 1) * B <= (zi - 1) * B) by (apply Z.mul_le_mono_nonneg_r; lia). lia. }
        rewrite R0, Z.sub_0_r in IR.
        split; [exact R0|]. split; [exists zi; lia|].
        apply inL_lt'. pose proof (deltai_lower f N itv e n He Hn noL noR) as G. rewrite Hf64 in G at 1.
        change (10 ^ 1) with 10. lia.
      * exists 1, t. split; [exact Et|]. repeat split; try assumption; try apply C; try assumption; lia.
  - destruct (boundary_adjustment_result cfg f N crs itv e n He Hn noL noR ltac:(discriminate) kap z
                (conj Hk (conj Hok Hno))) as [(IR & ->) | (k' & Hk' & Hee & NC' & DL' & Hd & ->)].
    + assert (0 <= min_kappa f) by (destruct f; discriminate). assert (1 <= kap) by lia.
      destruct (nearest_search kap (zi / 10 ^ kap) (zi mod 10 ^ kap) z) as (t & Et & I & C); try lia; try assumption.
      * left. rewrite Es. unfold Core.in_int. unfold okb in Hok. rewrite Hok, IR. reflexivity.
      * exists kap, t. split; [exact Et|]. repeat split; try assumption; try apply C; try assumption; lia.
    + destruct Hee as [Hir HdZ HmZ HinL Hle].
      assert (Hk0' : 0 <= k') by (destruct f; cbn in Hk'; lia).
      pose proof (Z.pow_pos_nonneg 10 k' ltac:(lia) Hk0') as PD'.
      assert (Em' : zi = zi / 10 ^ k' * 10 ^ k').
      { destruct HmZ as [c ->]. rewrite Z.div_mul by lia. reflexivity. }
      unfold after_adjust, ba_state. rewrite Hcares. cbn [andb st_exponent].
      destruct ((min_kappa f =? 0) && (k' - kexp e =? - kexp e)) eqn:Ez.
      * apply andb_true_iff in Ez. destruct Ez as [Ez1 Ez2]. apply Z.eqb_eq in Ez2.
        assert (k' = 0) by lia. subst k'.
        match goal with |- context [correct_rounding_search_when_kappa_is_0_label _ _ _ ?S] =>
          destruct (nearest_search_0 S) as (t & Et & I & C) end.
        { destruct f; [reflexivity | discriminate]. }
        cbn [st_exponent] in Et.
        exists 0, t. split; [exact Et|]. repeat split; try assumption; try apply C; try assumption; lia.
      * assert (1 <= k').
        { destruct (Z.eq_dec k' 0) as [K0|]; [exfalso|lia].
          rewrite K0, Z.sub_0_l, Z.eqb_refl, andb_true_r in Ez. apply Z.eqb_neq in Ez.
          assert (0 <= min_kappa f) by (destruct f; discriminate). lia. }
        destruct (nearest_search k' (zi / 10 ^ k') 0 z) as (t & Et & I & C); try lia; try assumption.
        -- intros F. specialize (Hf9 F). lia.
        -- intros Ed. destruct Hd as [->|Hd]; [left; exact DM|]. right. split; [exact Hd|].
           apply edge_right_integer; assumption.
        -- right. auto.
        -- exists k', t. split; [exact Et|]. repeat split; try assumption; try apply C; try assumption; lia.
Qed.
End Nearest.
