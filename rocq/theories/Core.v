(** * Steps 1-3 of the algorithm: the scaled interval and the search for the exponent

    With k the decimal scaling exponent of a binary exponent e, every quantity of the algorithm is
    the integer part of a multiple of U/B = 2^(q-p-3) * 2^e * 10^k, where B = [den e]. *)

From Coq Require Import ZArith List Bool Lia Znumtheory Zpow_facts.
From Verif Require Import Machine Tables Model Arith ExpFacts Products IntCheck.
Import ListNotations.
Open Scope Z_scope.

Definition num (e : Z) : Z := anum e (kexp e).
Definition den (e : Z) : Z := aden e (kexp e).
Definition ulp (f : fmt) (e : Z) : Z := unit f * num e.

Definition is_edge (f : fmt) (e n : Z) : bool := (n =? 2 ^ precision f) && negb (e =? exp_min f).
(** end points and length of the rounding interval of n, in quarters of the spacing *)
Definition lo_u (f : fmt) (tag : mode_tag) (e n : Z) : Z :=
  4 * n - match tag with
          | to_nearest_tag => if is_edge f e n then 1 else 2
          | left_closed_directed_tag => 0
          | right_closed_directed_tag => if is_edge f e n then 2 else 4
          end.
Definition hi_u (tag : mode_tag) (n : Z) : Z :=
  4 * n + match tag with
          | to_nearest_tag => 2
          | left_closed_directed_tag => 4
          | right_closed_directed_tag => 0
          end.

Lemma unit_vals f : unit f = 64 \/ unit f = 512.
Proof. destruct f; [left | right]; reflexivity. Qed.

Lemma pow_split f : 2 ^ extended_precision f = 8 * 2 ^ precision f * unit f.
Proof. destruct f; reflexivity. Qed.

Lemma pow10_pos i : 0 <= i -> 0 < 10 ^ i.
Proof. intros. apply Z.pow_pos_nonneg; lia. Qed.

Lemma mod_pow10_step z i j : 0 <= i -> 0 <= j ->
  z mod 10 ^ i + 10 ^ i * ((z / 10 ^ i) mod 10 ^ j) = z mod 10 ^ (i + j).
Proof.
  intros Hi Hj. rewrite Z.pow_add_r by assumption.
  pose proof (pow10_pos i Hi). pose proof (pow10_pos j Hj).
  rewrite Z.rem_mul_r by lia. reflexivity.
Qed.

Lemma to_int_wrap f a b : - 2 ^ 31 <= a + b < 2 ^ 31 ->
  to_int (wrap (extended_precision f) (wrap (extended_precision f) a + b)) = a + b.
Proof.
  intros H. unfold to_int, wrap. rewrite Zplus_mod_idemp_l.
  assert (E : ((a + b) mod 2 ^ extended_precision f + 2 ^ 31) mod 2 ^ 32 = (a + b + 2 ^ 31) mod 2 ^ 32).
  { rewrite <- (Zplus_mod_idemp_l (_ mod _)), <- (Zplus_mod_idemp_l (a + b)). f_equal. f_equal.
    destruct f; change (extended_precision Binary32) with 32 || change (extended_precision Binary64) with 64.
    - apply Z.mod_mod. discriminate.
    - change (2 ^ 64) with (2 ^ 32 * 2 ^ 32). rewrite Z.rem_mul_r by lia.
      rewrite (Z.mul_comm (2 ^ 32) (_ mod _)). rewrite Z_mod_plus_full. apply Z.mod_mod. discriminate. }
  rewrite E. rewrite Z.mod_small by lia. lia.
Qed.

Lemma div_ge_iff a b c : 0 < b -> c <= a / b <-> c * b <= a.
Proof.
  intros Hb. pose proof (Z.mul_div_le a b Hb). pose proof (Z.mul_succ_div_gt a b Hb).
  split; intros; nia.
Qed.

Section Core.
Variables (cfg : config) (f : fmt) (tag : mode_tag) (crs : crs_tag) (itv : interval_type) (e n : Z).
Hypothesis He : exp_min f <= e <= exp_max f.
Hypothesis Hn : 0 < n < 2 ^ (precision f + 1).
Hypothesis HitvL : tag = left_closed_directed_tag -> itv = left_closed_right_open.
Hypothesis HitvR : tag = right_closed_directed_tag -> itv = right_closed_left_open.

Local Notation B := (den e).
Local Notation U := (ulp f e).
Local Notation w := (extended_precision f).
Local Notation il := (include_left_endpoint itv).
Local Notation ir := (include_right_endpoint itv).

Definition fc : Z := n * normal_interval_length f.
Definition X : Z := lo_u f tag e n * U.
Definition Y : Z := 4 * n * U.
Definition Z_ : Z := hi_u tag n * U.
Definition zi : Z := Z_ / B.
Definition deltai : Z := delta_units tag (is_edge f e n) * U / B.
Definition cx : compute_ctx :=
  mk_ctx tag crs itv fc e (right_endpoint f tag fc) (- kexp e) (mbexp e) (cache_at f (kexp e)) zi.

Lemma HB : 0 < B. Proof. apply aden_pos. Qed.
Lemma HU : 0 < U.
Proof. unfold ulp. pose proof (anum_pos e (kexp e)). unfold num. destruct (unit_vals f); nia. Qed.
Lemma HUB : B * unit f <= 64 * U /\ 4 * U < unit f * B.
Proof.
  destruct (multiplier_bounds f e He) as [H1 H2]. unfold ulp, num, den.
  set (a := anum e (kexp e)) in *. set (b := aden e (kexp e)) in *.
  destruct (unit_vals f) as [-> | ->]; lia.
Qed.
Lemma Hk : min_k f <= kexp e <= max_k f. Proof. apply e_basic; exact He. Qed.
Lemma Hmb : 2 <= mbexp e <= 5. Proof. apply (e_basic f); exact He. Qed.

Lemma edge_delta : Z_ - X = delta_units tag (is_edge f e n) * U.
Proof. unfold Z_, X, hi_u, lo_u, delta_units. destruct tag, (is_edge f e n); ring. Qed.
Lemma delta_units_range : 2 <= delta_units tag (is_edge f e n) <= 4.
Proof. unfold delta_units. destruct tag, (is_edge f e n); lia. Qed.

Lemma n_bound : 4 * n + 4 <= 8 * 2 ^ precision f.
Proof. replace (2 ^ (precision f + 1)) with (2 * 2 ^ precision f) in Hn; [lia|]. destruct f; reflexivity. Qed.

Lemma lo_nonneg : 0 <= lo_u f tag e n.
Proof. unfold lo_u. destruct tag; destruct (is_edge f e n); lia. Qed.
Lemma lo_pos : tag <> right_closed_directed_tag -> 0 < lo_u f tag e n.
Proof. intros H. unfold lo_u. destruct tag; destruct (is_edge f e n); try lia; congruence. Qed.
Lemma hi_range : 4 <= hi_u tag n <= 8 * 2 ^ precision f.
Proof. pose proof n_bound. unfold hi_u. destruct tag; lia. Qed.

Lemma zi_bounds : zi * B <= Z_ < (zi + 1) * B.
Proof.
  unfold zi. pose proof HB. pose proof (Z.mul_div_le Z_ B ltac:(lia)).
  pose proof (Z.mul_succ_div_gt Z_ B ltac:(lia)). lia.
Qed.
Lemma deltai_bounds : deltai * B <= Z_ - X < (deltai + 1) * B.
Proof.
  rewrite edge_delta. unfold deltai. pose proof HB. set (D := delta_units _ _ * U).
  pose proof (Z.mul_div_le D B ltac:(lia)). pose proof (Z.mul_succ_div_gt D B ltac:(lia)). lia.
Qed.
Lemma X_nonneg : 0 <= X.
Proof. unfold X. pose proof lo_nonneg. pose proof HU. apply Z.mul_nonneg_nonneg; lia. Qed.
Lemma X_lt_Z : X < Z_.
Proof. pose proof edge_delta. pose proof delta_units_range. pose proof HU. nia. Qed.
Lemma zi_small : 0 <= zi /\ 4 * zi < 2 ^ w.
Proof.
  pose proof zi_bounds. pose proof HB. pose proof HUB. pose proof hi_range. pose proof HU.
  pose proof X_nonneg. pose proof X_lt_Z.
  split; [unfold zi; apply div_nonneg; lia|].
  rewrite pow_split. unfold Z_ in *.
  assert (4 * (hi_u tag n * U) < 8 * 2 ^ precision f * (unit f * B)).
  { apply Z.le_lt_trans with (8 * 2 ^ precision f * (4 * U)).
    - replace (4 * (hi_u tag n * U)) with (hi_u tag n * (4 * U)) by ring.
      apply Z.mul_le_mono_nonneg_r; lia.
    - apply Z.mul_lt_mono_pos_l; lia. }
  apply Z.mul_lt_mono_pos_r with B; [lia|]. lia.
Qed.
Lemma deltai_small : 2 * unit f <= 64 * deltai + 63 /\ 0 <= deltai < unit f.
Proof.
  pose proof deltai_bounds. rewrite edge_delta in H. pose proof delta_units_range. pose proof HUB.
  pose proof HB. pose proof HU. set (du := delta_units tag (is_edge f e n)) in *.
  assert (2 * U <= du * U) by (apply Z.mul_le_mono_nonneg_r; lia).
  assert (du * U <= 4 * U) by (apply Z.mul_le_mono_nonneg_r; lia).
  repeat split.
  - assert (HH : 2 * unit f * B < 64 * (deltai + 1) * B) by lia.
    apply Z.mul_lt_mono_pos_r in HH; lia.
  - unfold deltai. apply div_nonneg; [lia|]. fold du. lia.
  - apply Z.mul_lt_mono_pos_r with B; lia.
Qed.

(** ** Membership *)
Definition inL (v : Z) : bool := (X <? v * B) || (il && (X =? v * B)).
Definition inR (v : Z) : bool := (v * B <? Z_) || (ir && (v * B =? Z_)).

Lemma inL_mono u v : u <= v -> inL u = true -> inL v = true.
Proof.
  unfold inL. rewrite !orb_true_iff, !andb_true_iff, !Z.ltb_lt, !Z.eqb_eq. pose proof HB. intros.
  destruct (Z.eq_dec u v) as [->|]; [assumption|]. left. nia.
Qed.
Lemma inL_lt t : t < deltai -> inL (zi - t) = true.
Proof.
  intros H. unfold inL. apply orb_true_iff. left. apply Z.ltb_lt.
  pose proof zi_bounds. pose proof deltai_bounds. pose proof HB. nia.
Qed.
Lemma inL_gt t : deltai < t -> inL (zi - t) = false.
Proof.
  intros H. unfold inL. pose proof zi_bounds. pose proof deltai_bounds. pose proof HB.
  apply orb_false_iff. split; [|apply andb_false_intro2]; [apply Z.ltb_ge | apply Z.eqb_neq]; nia.
Qed.
Lemma inR_le v : inR v = true -> v <= zi.
Proof.
  unfold inR. rewrite orb_true_iff, andb_true_iff, Z.ltb_lt, Z.eqb_eq. pose proof zi_bounds.
  pose proof HB. intros. assert (HH : v * B < (zi + 1) * B) by lia.
  apply Z.mul_lt_mono_pos_r in HH; lia.
Qed.
Lemma inR_lt v : v < zi -> inR v = true.
Proof.
  intros H. unfold inR. apply orb_true_iff. left. apply Z.ltb_lt. pose proof zi_bounds.
  pose proof HB. nia.
Qed.
Lemma inR_zi : inR zi = ir || negb (divb B Z_).
Proof.
  unfold inR. pose proof zi_bounds as [H1 H2]. pose proof HB.
  destruct (divb B Z_) eqn:D.
  - apply divb_true in D; [|exact HB]. destruct D as [c D].
    assert (zi * B = Z_) by (unfold zi; rewrite D, Z.div_mul by lia; reflexivity). rewrite (proj2 (Z.ltb_ge _ _)) by lia.
    rewrite (proj2 (Z.eqb_eq _ _)) by lia. rewrite andb_true_r, orb_false_r. reflexivity.
  - cbn [negb]. rewrite orb_true_r. apply orb_true_iff. left. apply Z.ltb_lt.
    assert (zi * B <> Z_); [|lia]. intros Eq.
    assert (divb B Z_ = true); [|congruence]. apply divb_true; [exact HB|]. exists zi. lia.
Qed.

(** ** Evaluating the helpers *)
Lemma mul_ok m : 0 <= m -> m * unit f < 2 ^ w ->
  compute_mul cfg f (m * unit f) (cache_at f (kexp e)) (mbexp e) = Ok (m * U / B).
Proof.
  intros Hm Hx. pose proof Hk. pose proof Hmb.
  rewrite compute_mul_exact; [|exact H | split; [apply Z.mul_nonneg_nonneg; destruct (unit_vals f); lia | exact Hx] | destruct f; cbn; lia].
  f_equal. rewrite mul_floor_exact; [|exact He|].
  - unfold ulp, num, den. f_equal. ring.
  - split; [lia|]. rewrite pow_split in Hx.
    replace (2 ^ (precision f + 4)) with (16 * 2 ^ precision f) by (destruct f; reflexivity).
    destruct (unit_vals f); nia.
Qed.

Lemma delta_ok : compute_delta f tag (is_edge f e n) (cache_at f (kexp e)) (mbexp e) = Ok deltai.
Proof.
  pose proof Hk. pose proof Hmb. rewrite compute_delta_exact by (try assumption; lia).
  f_equal. rewrite mul_floor_exact; [|exact He|].
  - unfold deltai, ulp, num, den. f_equal. ring.
  - pose proof delta_units_range. destruct f; cbn [precision]; lia.
Qed.

Definition epsiloni : Z := 2 * U / B.
Lemma epsilon_ok :
  compute_delta f left_closed_directed_tag false (cache_at f (kexp e)) (mbexp e + 1) = Ok epsiloni.
Proof.
  pose proof Hk. pose proof Hmb. rewrite compute_delta_exact by (try assumption; lia).
  f_equal. cbn [delta_units].
  transitivity (2 * unit f * phi f (kexp e) / 2 ^ (2 * w + mbexp e)).
  - apply div_eq_cross; try (apply Z.pow_pos_nonneg; pose proof (qpos f); lia).
    rewrite Z.add_assoc, (Z.pow_add_r 2 _ 1) by (pose proof (qpos f); lia). change (2 ^ 1) with 2. ring.
  - rewrite mul_floor_exact; [|exact He|].
    + unfold epsiloni, ulp, num, den. f_equal. ring.
    + destruct f; cbn [precision]; lia.
Qed.

Lemma sign_bit_n : (fc =? sign_bit_mask f) = (n =? 2 ^ precision f).
Proof.
  unfold fc. apply eq_iff_eq_true. rewrite !Z.eqb_eq.
  replace (sign_bit_mask f) with (2 ^ precision f * normal_interval_length f) by (destruct f; reflexivity).
  assert (normal_interval_length f <> 0) by (destruct f; discriminate).
  split; [apply Z.mul_cancel_r; assumption | congruence].
Qed.

Lemma nil_unit : normal_interval_length f = 4 * unit f. Proof. destruct f; reflexivity. Qed.
Lemma bb_unit : boundary_bit f = 2 * unit f. Proof. destruct f; reflexivity. Qed.
Lemma eb_unit : edge_case_boundary_bit f = unit f. Proof. destruct f; reflexivity. Qed.
Lemma sb_unit : sign_bit_mask f = 4 * 2 ^ precision f * unit f. Proof. destruct f; reflexivity. Qed.

Lemma left_endpoint_ok : left_endpoint f tag fc e = lo_u f tag e n * unit f.
Proof.
  unfold left_endpoint, lo_u. rewrite sign_bit_n. fold (exp_min f). fold (is_edge f e n).
  assert (HE : is_edge f e n = true -> n = 2 ^ precision f).
  { unfold is_edge. rewrite andb_true_iff, Z.eqb_eq. tauto. }
  unfold fc. rewrite nil_unit, bb_unit, eb_unit, sb_unit.
  pose proof n_bound as NB. pose proof (pow_split f) as PS.
  assert (HP : 0 < 2 ^ precision f) by (destruct f; reflexivity).
  destruct tag; destruct (is_edge f e n) eqn:E; try rewrite (HE eq_refl) in *;
    try (rewrite wrap_small; [ring|]; rewrite PS; destruct (unit_vals f) as [-> | ->]; lia); ring.
Qed.

Lemma lo_lt : lo_u f tag e n * unit f < 2 ^ w.
Proof.
  rewrite pow_split. pose proof n_bound. unfold lo_u.
  destruct (unit_vals f) as [-> | ->]; destruct tag, (is_edge f e n); lia.
Qed.

Lemma equal_fractional_ok : tag <> right_closed_directed_tag ->
  equal_fractional_parts cfg f tag (lo_u f tag e n * unit f) e (- kexp e) = Ok (divb B X).
Proof.
  intros HR. unfold equal_fractional_parts.
  assert (EX : X = lo_u f tag e n * unit f * anum e (kexp e)) by (unfold X, ulp, num; ring).
  assert (HE : is_edge f e n = true -> n = 2 ^ precision f).
  { unfold is_edge. rewrite andb_true_iff, Z.eqb_eq. tauto. }
  pose proof lo_lt as LT. pose proof lo_pos HR as LP. unfold den.
  destruct tag; [| |congruence].
  - destruct (is_edge f e n) eqn:E.
    + assert (ES : lo_u f to_nearest_tag e n * unit f = sign_bit_mask f - edge_case_boundary_bit f).
      { unfold lo_u. rewrite E, (HE eq_refl), sb_unit, eb_unit. ring. }
      rewrite (proj2 (Z.eqb_eq _ _) ES). cbn [negb].
      rewrite is_product_integer_m3 by assumption. rewrite EX. reflexivity.
    + assert (ES : lo_u f to_nearest_tag e n * unit f = (2 * (n - 1) + 1) * boundary_bit f).
      { unfold lo_u. rewrite E, bb_unit. ring. }
      rewrite (proj2 (Z.eqb_neq _ _)).
      2:{ rewrite ES, sb_unit, eb_unit, bb_unit. pose proof (unit_vals f). intros C.
          assert ((2 * (n - 1) + 1) * 2 = 4 * 2 ^ precision f - 1) by nia. lia. }
      cbn [negb]. rewrite ES in *. rewrite is_product_integer_generic; [|assumption | lia | exact LT].
      rewrite EX. reflexivity.
  - assert (ES : lo_u f left_closed_directed_tag e n * unit f = n * normal_interval_length f).
    { unfold lo_u. rewrite nil_unit. ring. }
    rewrite ES in *. rewrite is_product_integer_other; [|assumption | lia | exact LT].
    rewrite EX. reflexivity.
Qed.

Lemma ctx_zf_ok : Z.even (zi - deltai) = true -> ctx_zf_smaller cfg f cx = Ok (inL (zi - deltai)).
Proof.
  intros Ev. unfold ctx_zf_smaller, is_zf_smaller_than_deltaf, is_zf_strictly_smaller_than_deltaf.
  cbn [cx cx_tag cx_significand cx_minus_beta cx_cache cx_interval cx_exponent cx_minus_k].
  rewrite left_endpoint_ok, mul_ok by (try apply lo_nonneg; apply lo_lt). cbn [bind].
  fold X. pose proof zi_bounds as [Z1 Z2]. pose proof deltai_bounds as [D1 D2]. pose proof HB as B0.
  set (xi := X / B).
  pose proof (Z.mul_div_le X B B0) as X1. pose proof (Z.mul_succ_div_gt X B B0) as X2. fold xi in X1, X2.
  assert (xi = zi - deltai - 1 \/ xi = zi - deltai) as Hxi by nia.
  change 1 with (Z.ones 1) at 1. rewrite (Z.land_ones xi 1) by lia. change (2 ^ 1) with 2.
  assert (Hev : (zi - deltai) mod 2 = 0) by (rewrite Zmod_even, Ev; reflexivity).
  unfold inL. destruct Hxi as [Hxi | Hxi].
  - assert (xi mod 2 = 1) as -> by (rewrite Hxi, Zminus_mod, Hev; reflexivity).
    cbn [Z.eqb negb]. rewrite (proj2 (Z.ltb_lt _ _)) by nia. reflexivity.
  - assert (xi mod 2 = 0) as -> by (rewrite Hxi; exact Hev).
    cbn [Z.eqb negb]. rewrite (proj2 (Z.ltb_ge _ _)) by nia. cbn [orb].
    destruct il eqn:Eil; [|reflexivity]. cbn [andb].
    rewrite equal_fractional_ok.
    + f_equal. apply divb_eq; [exact HB|]. rewrite Z.eqb_eq. split.
      * intros [c Hc]. assert (xi = c) by (unfold xi; rewrite Hc, Z.div_mul; lia). rewrite <- Hxi, H. exact Hc.
      * intros ->. apply Z.divide_factor_r.
    + intros T. rewrite (HitvR T) in Eil. discriminate.
Qed.

(** ** The search for kappa *)

Definition state_at (kap : Z) (z : zf_vs_deltaf_t) : compute_state :=
  mk_state (zi / 10 ^ kap) (kap - kexp e) (zi mod 10 ^ kap) (10 ^ kap) deltai z.
Definition okb (kap : Z) : bool := inL (zi - zi mod 10 ^ kap).
Definition zfok (z : zf_vs_deltaf_t) : Prop :=
  match z with
  | not_compared_yet => True
  | zf_larger => inL (zi - deltai) = false
  | zf_smaller => inL (zi - deltai) = true
  end.

Lemma mod_mono i j : 0 <= i <= j -> zi mod 10 ^ i <= zi mod 10 ^ j.
Proof.
  intros H. replace j with (i + (j - i)) by lia. rewrite <- mod_pow10_step by lia.
  pose proof (pow10_pos i ltac:(lia)). pose proof (pow10_pos (j - i) ltac:(lia)).
  pose proof (Z.mod_pos_bound (zi / 10 ^ i) (10 ^ (j - i)) ltac:(lia)). nia.
Qed.
Lemma okb_anti i j : 0 <= i <= j -> okb j = true -> okb i = true.
Proof. intros H. unfold okb. apply inL_mono. pose proof (mod_mono i j H). lia. Qed.

Lemma even_sub_mod kap : 1 <= kap -> Z.even (zi - zi mod 10 ^ kap) = true.
Proof.
  intros H. pose proof (pow10_pos kap ltac:(lia)).
  rewrite (Z.mod_eq zi (10 ^ kap)) by lia.
  replace (zi - (zi - 10 ^ kap * (zi / 10 ^ kap))) with (10 ^ kap * (zi / 10 ^ kap)) by ring.
  rewrite Z.even_mul, Z.even_pow by lia. reflexivity.
Qed.

Lemma exp_range kap : 0 <= kap <= 20 -> - 2 ^ 31 <= kap - kexp e < 2 ^ 31.
Proof. pose proof Hk. intros. destruct f; cbn in H; lia. Qed.

Lemma increasing_search_ok kap lam init z :
  0 <= kap -> 1 <= lam -> kap + lam <= match f with Binary32 => 9 | Binary64 => 19 end ->
  okb kap = true -> zfok z -> (init = true -> z <> zf_larger) ->
  exists z', zfok z' /\
    increasing_search cfg f lam init cx (state_at kap z)
    = Ok (state_at (if okb (kap + lam) then kap + lam else kap) z').
Proof.
  intros Hkap Hlam Hmax Hok Hz Hinit.
  assert (P1 : 10 ^ (kap + lam) < 2 ^ w).
  { apply Z.le_lt_trans with (10 ^ match f with Binary32 => 9 | Binary64 => 19 end).
    - apply Z.pow_le_mono_r; lia.
    - destruct f; reflexivity. }
  assert (P2 : 10 ^ lam <= 10 ^ (kap + lam)) by (apply Z.pow_le_mono_r; lia).
  pose proof (pow10_pos kap Hkap) as Pk. pose proof (pow10_pos lam ltac:(lia)) as Pl.
  assert (P3 : 10 ^ kap * 10 ^ lam = 10 ^ (kap + lam)) by (rewrite Z.pow_add_r by lia; reflexivity).
  unfold increasing_search. rewrite !power_of_10_exact by lia.
  cbn [state_at st_significand st_r st_divisor st_deltai st_exponent st_zf_vs_deltaf]. cbv zeta.
  pose proof (mod_pow10_step zi kap lam Hkap ltac:(lia)) as MS.
  pose proof (Z.mod_pos_bound zi (10 ^ (kap + lam)) ltac:(lia)) as MB.
  pose proof (Z.mod_pos_bound zi (10 ^ kap) ltac:(lia)) as MB'.
  assert (NR : wrap w (zi mod 10 ^ kap + wrap w (10 ^ kap * ((zi / 10 ^ kap) mod 10 ^ lam)))
          = zi mod 10 ^ (kap + lam)).
  { rewrite (wrap_small w (10 ^ kap * _)).
    - rewrite MS. apply wrap_small. lia.
    - pose proof (Z.mod_pos_bound (zi / 10 ^ kap) (10 ^ lam) ltac:(lia)). split; [nia | lia]. }
  rewrite NR. rewrite (div_div _ _ _ Pk Pl), P3.
  rewrite (wrap_small w (10 ^ (kap + lam))) by lia.
  rewrite to_int_wrap.
  2:{ replace (kap - kexp e + lam) with (kap + lam - kexp e) by ring. apply exp_range.
      destruct f; lia. }
  replace (kap - kexp e + lam) with (kap + lam - kexp e) by ring.
  fold (state_at (kap + lam)). fold (state_at kap z).
  unfold okb at 1.
  destruct (Z.ltb_spec deltai (zi mod 10 ^ (kap + lam))) as [L|L].
  { rewrite (inL_gt _ L). exists z. split; [exact Hz | reflexivity]. }
  destruct (Z.eqb_spec (zi mod 10 ^ (kap + lam)) deltai) as [E|E].
  - rewrite E. destruct z.
    + rewrite ctx_zf_ok by (rewrite <- E; apply even_sub_mod; lia). cbn [bind].
      destruct (inL (zi - deltai)) eqn:IL.
      * exists zf_smaller. split; [exact IL | ]. unfold state_at. rewrite E. reflexivity.
      * exists zf_larger. split; [exact IL | reflexivity].
    + cbn [zfok] in Hz. rewrite Hz. exists zf_larger. split; [exact Hz|].
      destruct init; [exfalso; apply Hinit; reflexivity | reflexivity].
    + cbn [zfok] in Hz. rewrite Hz. exists zf_smaller. split; [exact Hz|].
      unfold state_at. rewrite E. reflexivity.
  - rewrite inL_lt by lia. exists z. split; [exact Hz | reflexivity].
Qed.

Definition top_kappa : Z := match f with Binary32 => 9 | Binary64 => 18 end.

Lemma okb_top : okb (top_kappa + 1) = false.
Proof.
  unfold okb. pose proof zi_small as [S1 S2].
  rewrite (Z.mod_small zi).
  2:{ assert (2 ^ w <= 4 * 10 ^ (top_kappa + 1)); [|lia].
      unfold top_kappa. destruct f; vm_compute; discriminate. }
  replace (zi - zi) with 0 by ring. unfold inL. pose proof X_nonneg.
  rewrite (proj2 (Z.ltb_ge _ _)) by lia. cbn [orb].
  destruct il eqn:Eil; [|reflexivity]. cbn [andb]. apply Z.eqb_neq.
  assert (tag <> right_closed_directed_tag) as HT.
  { intros T. rewrite (HitvR T) in Eil. discriminate. }
  pose proof (lo_pos HT). pose proof HU. unfold X. nia.
Qed.

(** what [compute] continues with once kappa is known *)
Definition after_search (st : compute_state) : outcome (Z * Z) :=
  if cares crs && (match tag with to_nearest_tag => true | _ => false end)
     && (st_exponent st =? min_kappa f - kexp e)
  then if min_kappa f =? 0
       then correct_rounding_search_when_kappa_is_0_label cfg f cx st
       else correct_rounding_search_label cfg f cx st
  else boundary_adjustment_label cfg f cx st.

(** [compute] from line 1865 on *)
Definition compute_tail : outcome (Z * Z) :=
  let s := zi / power_of_10 f (initial_kappa f) in
  let r := zi mod power_of_10 f (initial_kappa f) in
  let st z := mk_state s (initial_kappa f + - kexp e) r 0 deltai z in
  if r <? deltai then increasing_search_label cfg f cx (st not_compared_yet)
  else if r =? deltai then
    smaller <- ctx_zf_smaller cfg f cx ;;
    if smaller then increasing_search_label cfg f cx (st zf_smaller)
    else decreasing_search cfg f cx (st zf_larger)
  else decreasing_search cfg f cx (st not_compared_yet).

Definition found (kap : Z) : Prop :=
  min_kappa f <= kap <= top_kappa /\ okb kap = true /\ okb (kap + 1) = false.

Lemma increasing_result z : okb (initial_kappa f) = true -> zfok z -> z <> zf_larger ->
  exists kap z', found kap /\ zfok z' /\ initial_kappa f <= kap /\
    increasing_search_label cfg f cx
      (mk_state (zi / 10 ^ initial_kappa f) (initial_kappa f + - kexp e) (zi mod 10 ^ initial_kappa f) 0 deltai z)
    = boundary_adjustment_label cfg f cx (state_at kap z').
Proof.
  intros Hok Hz Hz'. unfold increasing_search_label. cbn [st_significand st_exponent st_r st_deltai st_zf_vs_deltaf].
  rewrite power_of_10_exact by (destruct f; cbn; lia).
  replace (initial_kappa f + - kexp e) with (initial_kappa f - kexp e) by ring.
  fold (state_at (initial_kappa f) z).
  pose proof okb_top as Top. unfold found, top_kappa in *.
  destruct f eqn:Ef; rewrite <- Ef in *; rewrite <- ?Ef.
  - assert (initial_kappa f = 2) as Ei by (rewrite Ef; reflexivity). rewrite Ei in *.
    destruct (increasing_search_ok 2 4 true z ltac:(lia) ltac:(lia) ltac:(rewrite Ef; lia) Hok Hz ltac:(auto)) as (z1 & Hz1 & E1).
    rewrite E1; cbn [bind]. set (k1 := if okb (2 + 4) then 2 + 4 else 2) in *.
    assert (K1 : okb k1 = true /\ (k1 = 6 \/ (k1 = 2 /\ okb 6 = false))).
    { unfold k1. change (2 + 4) with 6. destruct (okb 6) eqn:O; auto. }
    clearbody k1. destruct K1 as [O1 K1].
    destruct (increasing_search_ok k1 2 false z1 ltac:(lia) ltac:(lia) ltac:(rewrite Ef; lia) O1 Hz1 ltac:(discriminate)) as (z2 & Hz2 & E2).
    rewrite E2; cbn [bind]. set (k2 := if okb (k1 + 2) then k1 + 2 else k1) in *.
    assert (K2 : okb k2 = true /\ 2 <= k2 <= 8 /\ okb (k2 + 2) = false).
    { unfold k2. destruct (okb (k1 + 2)) eqn:O; (split; [assumption|]); (split; [lia|]); [|assumption].
      destruct K1 as [->|[-> O6]]; [|exact O6]. exact Top. }
    clearbody k2. destruct K2 as (O2 & R2 & N2).
    destruct (increasing_search_ok k2 1 false z2 ltac:(lia) ltac:(lia) ltac:(rewrite Ef; lia) O2 Hz2 ltac:(discriminate)) as (z3 & Hz3 & E3).
    rewrite E3; cbn [bind]. exists (if okb (k2 + 1) then k2 + 1 else k2), z3.
    assert (min_kappa f = 0) as -> by (rewrite Ef; reflexivity).
    destruct (okb (k2 + 1)) eqn:O3; (split; [|split; [assumption|split; [lia|reflexivity]]]).
    + replace (k2 + 1 + 1) with (k2 + 2) by ring. repeat split; try assumption; lia.
    + repeat split; try assumption; lia.
  - assert (initial_kappa f = 3) as Ei by (rewrite Ef; reflexivity). rewrite Ei in *.
    destruct (increasing_search_ok 3 8 true z ltac:(lia) ltac:(lia) ltac:(rewrite Ef; lia) Hok Hz ltac:(auto)) as (z0 & Hz0 & E0).
    rewrite E0; cbn [bind]. set (k0 := if okb (3 + 8) then 3 + 8 else 3) in *.
    assert (K0 : okb k0 = true /\ (k0 = 11 \/ k0 = 3) /\ okb (k0 + 8) = false).
    { unfold k0. change (3 + 8) with 11. destruct (okb 11) eqn:O; repeat split; auto. }
    clearbody k0. destruct K0 as (O0 & R0 & N0).
    destruct (increasing_search_ok k0 4 false z0 ltac:(lia) ltac:(lia) ltac:(rewrite Ef; lia) O0 Hz0 ltac:(discriminate)) as (z1 & Hz1 & E1).
    rewrite E1; cbn [bind]. set (k1 := if okb (k0 + 4) then k0 + 4 else k0) in *.
    assert (K1 : okb k1 = true /\ 3 <= k1 <= 15 /\ okb (k1 + 4) = false).
    { unfold k1. destruct (okb (k0 + 4)) eqn:O; (split; [assumption|]); (split; [lia|]); [|assumption].
      replace (k0 + 4 + 4) with (k0 + 8) by ring. exact N0. }
    clearbody k1. destruct K1 as (O1 & R1 & N1).
    destruct (increasing_search_ok k1 2 false z1 ltac:(lia) ltac:(lia) ltac:(rewrite Ef; lia) O1 Hz1 ltac:(discriminate)) as (z2 & Hz2 & E2).
    rewrite E2; cbn [bind]. set (k2 := if okb (k1 + 2) then k1 + 2 else k1) in *.
    assert (K2 : okb k2 = true /\ 3 <= k2 <= 17 /\ okb (k2 + 2) = false).
    { unfold k2. destruct (okb (k1 + 2)) eqn:O; (split; [assumption|]); (split; [lia|]); [|assumption].
      replace (k1 + 2 + 2) with (k1 + 4) by ring. exact N1. }
    clearbody k2. destruct K2 as (O2 & R2 & N2).
    destruct (increasing_search_ok k2 1 false z2 ltac:(lia) ltac:(lia) ltac:(rewrite Ef; lia) O2 Hz2 ltac:(discriminate)) as (z3 & Hz3 & E3).
    rewrite E3; cbn [bind]. exists (if okb (k2 + 1) then k2 + 1 else k2), z3.
    assert (min_kappa f = 1) as -> by (rewrite Ef; reflexivity).
    destruct (okb (k2 + 1)) eqn:O3; (split; [|split; [assumption|split; [lia|reflexivity]]]).
    + replace (k2 + 1 + 1) with (k2 + 2) by ring. repeat split; try assumption; lia.
    + repeat split; try assumption; lia.
Qed.

Ltac Zify.zify_post_hook ::= Z.div_mod_to_equations.

Lemma deltai_lower : match f with Binary32 => 2 | Binary64 => 16 end <= deltai.
Proof.
  pose proof deltai_small as [H _]. destruct f; rewrite ?(eq_refl : unit Binary32 = 64), ?(eq_refl : unit Binary64 = 512) in H.
  - change (unit Binary32) with 64 in H. lia.
  - change (unit Binary64) with 512 in H. lia.
Qed.

Lemma okb_min : okb (min_kappa f) = true.
Proof.
  unfold okb. apply inL_lt. pose proof deltai_lower as H. pose proof zi_small as [H0 _].
  assert (zi mod 10 ^ min_kappa f < match f with Binary32 => 1 | Binary64 => 10 end); [|destruct f; lia].
  destruct f; apply Z.mod_pos_bound; reflexivity.
Qed.

Lemma decreasing_result z : okb (initial_kappa f) = false -> zfok z -> z <> zf_smaller ->
  exists kap z', found kap /\ zfok z' /\ kap < initial_kappa f /\
    decreasing_search cfg f cx
      (mk_state (zi / 10 ^ initial_kappa f) (initial_kappa f + - kexp e) (zi mod 10 ^ initial_kappa f) 0 deltai z)
    = after_search (state_at kap z').
Proof.
  intros Hok Hz Hz'. unfold decreasing_search.
  cbn [st_significand st_exponent st_r st_deltai st_zf_vs_deltaf cx cx_zi cx_crs cx_tag].
  pose proof zi_small as [S1 S2]. pose proof okb_min as Omin.
  (* the two candidate states *)
  assert (E1 : forall z0, mk_state
      (wrap w (wrap w (zi / 10 ^ initial_kappa f * 10) +
         wrap 32 (zi mod 10 ^ initial_kappa f) / wrap 32 (power_of_10 f (initial_kappa f - 1))))
      (initial_kappa f + - kexp e - 1)
      (wrap 32 (zi mod 10 ^ initial_kappa f) mod wrap 32 (power_of_10 f (initial_kappa f - 1)))
      (power_of_10 f (initial_kappa f - 1)) deltai z0 = state_at (initial_kappa f - 1) z0).
  { intros z0. unfold state_at. rewrite power_of_10_exact by (destruct f; cbn; lia).
    rewrite !(wrap_small 32).
    2:{ split; [lia | destruct f; reflexivity]. }
    2:{ destruct f; [change (10 ^ initial_kappa Binary32) with 100 | change (10 ^ initial_kappa Binary64) with 1000];
        lia. }
    assert (0 <= zi / 10 ^ initial_kappa f * 10 < 2 ^ w).
    { destruct f; [change (10 ^ initial_kappa Binary32) with 100 | change (10 ^ initial_kappa Binary64) with 1000]; lia. }
    rewrite (wrap_small w (_ * 10)) by assumption.
    f_equal; try lia.
    - rewrite wrap_small;
      destruct f; [change (10 ^ initial_kappa Binary32) with 100 | change (10 ^ initial_kappa Binary64) with 1000
                  | change (10 ^ initial_kappa Binary32) with 100 | change (10 ^ initial_kappa Binary64) with 1000];
      [change (10 ^ (initial_kappa Binary32 - 1)) with 10 | change (10 ^ (initial_kappa Binary64 - 1)) with 100
      | change (10 ^ (initial_kappa Binary32 - 1)) with 10 | change (10 ^ (initial_kappa Binary64 - 1)) with 100]; lia.
    - destruct f; [change (10 ^ initial_kappa Binary32) with 100 | change (10 ^ initial_kappa Binary64) with 1000];
      [change (10 ^ (initial_kappa Binary32 - 1)) with 10 | change (10 ^ (initial_kappa Binary64 - 1)) with 100]; lia. }
  assert (ER : wrap 32 (zi mod 10 ^ initial_kappa f) mod wrap 32 (power_of_10 f (initial_kappa f - 1))
          = zi mod 10 ^ (initial_kappa f - 1)).
  { generalize (E1 not_compared_yet). intros Q. exact (f_equal st_r Q). }
  assert (E2 : forall z0,
     (let '(s, r) :=
        match f with
        | Binary32 => (zi, 0)
        | Binary64 =>
            (wrap w (wrap w (zi / 10 ^ initial_kappa f * 100) +
               wrap 32 (wrap 32 (10 * (wrap 32 (zi mod 10 ^ initial_kappa f) / wrap 32 (power_of_10 f (initial_kappa f - 1))))
                  + (wrap 32 (zi mod 10 ^ initial_kappa f) mod wrap 32 (power_of_10 f (initial_kappa f - 1))) / 10)),
             (wrap 32 (zi mod 10 ^ initial_kappa f) mod wrap 32 (power_of_10 f (initial_kappa f - 1))) mod 10)
        end in
      mk_state s (initial_kappa f + - kexp e - 2) r (power_of_10 f (initial_kappa f - 2)) deltai z0)
     = state_at (min_kappa f) z0).
  { intros z0. rewrite ER. unfold state_at.
    rewrite !power_of_10_exact by (destruct f; cbn; lia).
    clear ER E1. destruct f.
    - change (10 ^ min_kappa Binary32) with 1. rewrite Z.div_1_r, Z.mod_1_r. f_equal.
      change (initial_kappa Binary32) with 2. change (min_kappa Binary32) with 0. lia.
    - change (10 ^ min_kappa Binary64) with 10.
      change (10 ^ initial_kappa Binary64) with 1000.
      change (10 ^ (initial_kappa Binary64 - 1)) with 100.
      change (10 ^ (initial_kappa Binary64 - 2)) with 10.
      change (extended_precision Binary64) with 64 in *.
      change (initial_kappa Binary64) with 3. change (min_kappa Binary64) with 1.
      rewrite (wrap_small 32 100) by lia. rewrite (wrap_small 32 (zi mod 1000)) by lia.
      rewrite (wrap_small 32 (10 * _)) by lia.
      rewrite (wrap_small 32 (_ + _)) by lia.
      rewrite (wrap_small 64 (_ * 100)) by lia.
      f_equal; try lia.
      rewrite wrap_small by lia. lia. }
  cbv zeta.
  assert (Hmk : min_kappa f = initial_kappa f - 2) by (destruct f; reflexivity).
  assert (Htk : initial_kappa f <= top_kappa) by (unfold top_kappa; destruct f; cbn; lia).
  assert (Hi2 : 2 <= initial_kappa f) by (destruct f; cbn; lia).
  (* after one step down *)
  assert (R1 : forall z0, okb (initial_kappa f - 1) = true -> zfok z0 ->
     exists kap z', found kap /\ zfok z' /\ kap < initial_kappa f /\
       boundary_adjustment_label cfg f cx (state_at (initial_kappa f - 1) z0) = after_search (state_at kap z')).
  { intros z0 Ho Hz0. exists (initial_kappa f - 1), z0. unfold found.
    replace (initial_kappa f - 1 + 1) with (initial_kappa f) by ring.
    repeat split; try assumption; try lia.
    unfold after_search. cbn [state_at st_exponent].
    rewrite (proj2 (Z.eqb_neq (initial_kappa f - 1 - kexp e) _)) by lia. rewrite andb_false_r. reflexivity. }
  assert (R2 : forall z0, okb (initial_kappa f - 1) = false -> zfok z0 ->
     exists kap z', found kap /\ zfok z' /\ kap < initial_kappa f /\
       (let '(s, r) :=
        match f with
        | Binary32 => (zi, 0)
        | Binary64 =>
            (wrap w (wrap w (zi / 10 ^ initial_kappa f * 100) +
               wrap 32 (wrap 32 (10 * (wrap 32 (zi mod 10 ^ initial_kappa f) / wrap 32 (power_of_10 f (initial_kappa f - 1))))
                  + (wrap 32 (zi mod 10 ^ initial_kappa f) mod wrap 32 (power_of_10 f (initial_kappa f - 1))) / 10)),
             (wrap 32 (zi mod 10 ^ initial_kappa f) mod wrap 32 (power_of_10 f (initial_kappa f - 1))) mod 10)
        end in
        if cares crs && match tag with to_nearest_tag => true | _ => false end
        then if min_kappa f =? 0
             then correct_rounding_search_when_kappa_is_0_label cfg f cx
                    (mk_state s (initial_kappa f + - kexp e - 2) r (power_of_10 f (initial_kappa f - 2)) deltai z0)
             else correct_rounding_search_label cfg f cx
                    (mk_state s (initial_kappa f + - kexp e - 2) r (power_of_10 f (initial_kappa f - 2)) deltai z0)
        else boundary_adjustment_label cfg f cx
                    (mk_state s (initial_kappa f + - kexp e - 2) r (power_of_10 f (initial_kappa f - 2)) deltai z0))
       = after_search (state_at kap z')).
  { intros z0 Ho Hz0. exists (min_kappa f), z0. unfold found.
    replace (min_kappa f + 1) with (initial_kappa f - 1) by lia.
    repeat split; try assumption; try lia.
    specialize (E2 z0). destruct (match f with Binary32 => _ | Binary64 => _ end) as [s r].
    rewrite E2. unfold after_search. cbn [state_at st_exponent].
    rewrite Z.eqb_refl, andb_true_r. reflexivity. }
  rewrite ER. destruct (Z.ltb_spec (zi mod 10 ^ (initial_kappa f - 1)) deltai) as [L|L].
  { rewrite <- ER. rewrite E1. apply R1; [|exact Hz]. unfold okb. apply inL_lt. exact L. }
  destruct (Z.eqb_spec (zi mod 10 ^ (initial_kappa f - 1)) deltai) as [E|E].
  - destruct z.
    + rewrite ctx_zf_ok by (rewrite <- E; apply even_sub_mod; lia). cbn [bind].
      destruct (inL (zi - deltai)) eqn:IL.
      * rewrite <- ER. rewrite E1. apply R1; [|exact IL]. unfold okb. rewrite E. exact IL.
      * rewrite <- ER. apply R2; [|exact IL]. unfold okb. rewrite E. exact IL.
    + rewrite <- ER. apply R2; [|exact Hz]. unfold okb. rewrite E. exact Hz.
    + congruence.
  - rewrite <- ER. apply R2; [|exact Hz]. unfold okb. apply inL_gt. lia.
Qed.

Ltac Zify.zify_post_hook ::= idtac.

Theorem search_result :
  exists kap z, found kap /\ zfok z /\ compute_tail = after_search (state_at kap z).
Proof.
  unfold compute_tail. rewrite !power_of_10_exact by (destruct f; cbn; lia). cbv zeta.
  assert (Inc : forall kap z', initial_kappa f <= kap ->
     boundary_adjustment_label cfg f cx (state_at kap z') = after_search (state_at kap z')).
  { intros kap z' H. unfold after_search. cbn [state_at st_exponent].
    assert (min_kappa f < initial_kappa f) by (destruct f; reflexivity).
    rewrite (proj2 (Z.eqb_neq (kap - kexp e) _)) by lia.
    rewrite andb_false_r. reflexivity. }
  destruct (Z.ltb_spec (zi mod 10 ^ initial_kappa f) deltai) as [L|L].
  { destruct (increasing_result not_compared_yet) as (kap & z' & F & Z' & G & R); try (exact I || discriminate).
    { unfold okb. apply inL_lt. exact L. }
    exists kap, z'. rewrite <- Inc by exact G. auto. }
  destruct (Z.eqb_spec (zi mod 10 ^ initial_kappa f) deltai) as [E|E].
  - rewrite ctx_zf_ok by (rewrite <- E; apply even_sub_mod; destruct f; cbn; lia). cbn [bind].
    destruct (inL (zi - deltai)) eqn:IL.
    + destruct (increasing_result zf_smaller) as (kap & z' & F & Z' & G & R); try (exact IL || discriminate).
      { unfold okb. rewrite E. exact IL. }
      exists kap, z'. rewrite <- Inc by exact G. auto.
    + destruct (decreasing_result zf_larger) as (kap & z' & F & Z' & G & R); try (exact IL || discriminate).
      { unfold okb. rewrite E. exact IL. }
      exists kap, z'. auto.
  - destruct (decreasing_result not_compared_yet) as (kap & z' & F & Z' & G & R); try (exact I || discriminate).
    { unfold okb. apply inL_gt. lia. }
    exists kap, z'. auto.
Qed.

(** ** Boundary adjustment *)

Lemma pow10_not_mult3 j a b : 0 <= j -> 0 <= a -> 0 <= b -> ~ (3 | 10 ^ j * (2 ^ a * 5 ^ b)).
Proof.
  intros Hj Ha Hb D.
  assert (R : rel_prime 3 (10 ^ j * (2 ^ a * 5 ^ b))).
  { apply rel_prime_mult; [|apply rel_prime_mult]; apply rel_prime_Zpower_r; try assumption;
    apply Zgcd_1_rel_prime; reflexivity. }
  destruct R as [_ _ R]. specialize (R 3 (Z.divide_refl 3) D).
  apply Z.divide_pos_le in R; lia.
Qed.

Lemma exact_length_impossible j :
  tag = to_nearest_tag -> (B | Z_) -> (10 ^ j | zi) -> 0 <= j -> Z_ - X <> 10 ^ j * B.
Proof.
  intros HT DB Dj Hj Eq. pose proof HB. pose proof HU.
  assert (EZ : Z_ = zi * B).
  { destruct DB as [c DB]. unfold zi. rewrite DB, Z.div_mul by lia. reflexivity. }
  destruct Dj as [c Dj]. rewrite Dj in EZ.
  assert (EC : Z_ = c * (Z_ - X)) by (rewrite Eq; lia).
  rewrite edge_delta in EC, Eq. unfold Z_, hi_u, delta_units in EC. rewrite HT in *.
  destruct (is_edge f e n) eqn:Ed; cbn [delta_units] in Eq.
  - apply (pow10_not_mult3 j (pos_part (- (e + kexp e))) (pos_part (- kexp e)));
      try apply pos_part_nonneg; try assumption.
    change (2 ^ pos_part (- (e + kexp e)) * 5 ^ pos_part (- kexp e)) with B. rewrite <- Eq.
    apply Z.divide_factor_l.
  - assert (4 * n + 2 = c * 4); [|lia].
    apply Z.mul_reg_r with U; lia.
Qed.

Lemma special_e g : let e0 := - (extended_precision g - precision g - 1) in
  4 * ulp g e0 = match g with Binary32 => 10 | Binary64 => 100 end * den e0.
Proof. destruct g; vm_compute; reflexivity. Qed.

Lemma dead_branch j :
  tag = to_nearest_tag -> (B | Z_) -> (10 ^ j | zi) -> 0 <= j -> 10 ^ j = deltai ->
  e <> - (extended_precision f - precision f - 1).
Proof.
  intros HT DB Dj Hj ED Ee. pose proof HB. pose proof HU.
  pose proof (special_e f) as SE. cbv zeta in SE. rewrite <- Ee in SE.
  pose proof deltai_bounds as DD. pose proof edge_delta as EDl.
  destruct (is_edge f e n) eqn:Ed; rewrite HT in EDl; cbn [delta_units] in EDl.
  - assert (J : 10 ^ j = 1 \/ (10 | 10 ^ j)).
    { destruct (Z.eq_dec j 0) as [->|]; [left; reflexivity | right].
      exists (10 ^ (j - 1)). change 10 with (10 ^ 1) at 3. rewrite <- Z.pow_add_r by lia. f_equal; lia. }
    rewrite EDl in DD. rewrite <- ED in DD.
    destruct f.
    + assert (10 ^ j = 7) by nia. destruct J as [J|[c J]]; lia.
    + assert (10 ^ j = 75) by nia. destruct J as [J|[c J]]; lia.
  - apply (exact_length_impossible j HT DB Dj Hj). rewrite EDl, ED.
    assert (deltai = match f with Binary32 => 10 | Binary64 => 100 end); [|destruct f; lia].
    rewrite EDl in DD. destruct f; nia.
Qed.

Lemma ba_loop z : (tag = to_nearest_tag -> (B | Z_)) -> forall (fuel : nat) j, (10 ^ j | zi) -> min_kappa f <= j < Z.of_nat fuel ->
  exists kap', min_kappa f <= kap' <= j /\ 10 ^ kap' <= deltai /\ (kap' = j \/ deltai < 10 ^ (kap' + 1)) /\
    boundary_adjustment_loop fuel f cx (mk_state (zi / 10 ^ j) (j - kexp e) 0 (10 ^ j) deltai z)
    = Ok (mk_state (zi / 10 ^ kap') (kap' - kexp e) 0 (10 ^ kap') deltai z).
Proof.
  intros DB. assert (M0 : 0 <= min_kappa f) by (destruct f; discriminate).
  pose proof zi_small as [Z0 Z1].
  induction fuel as [|fuel IH]; intros j Dj Hj; [lia|].
  cbn [boundary_adjustment_loop st_divisor st_deltai st_significand st_exponent st_r st_zf_vs_deltaf cx cx_tag cx_interval cx_exponent].
  destruct (Z.ltb_spec (10 ^ j) deltai) as [L|L].
  { exists j. split; [lia|]. split; [lia|]. split; [left; reflexivity | reflexivity]. }
  destruct (Z.eqb_spec (10 ^ j) deltai) as [E|E].
  - exists j. split; [lia|]. split; [lia|]. split; [left; reflexivity|].
    destruct tag eqn:T; rewrite <- T in *; try reflexivity.
    destruct (is_symmetric itv); [|reflexivity].
    rewrite (proj2 (Z.eqb_neq _ _)); [reflexivity|].
    apply (dead_branch j); try assumption; try lia. apply DB. reflexivity.
  - assert (Hj1 : min_kappa f <= j - 1).
    { destruct (Z.eq_dec j (min_kappa f)) as [Ej|]; [|lia]. exfalso.
      pose proof deltai_lower. rewrite Ej in *.
      assert (10 ^ min_kappa f < match f with Binary32 => 2 | Binary64 => 16 end) by (destruct f; reflexivity). lia. }
    assert (EP : 10 ^ j = 10 * 10 ^ (j - 1)).
    { change 10 with (10 ^ 1) at 2. rewrite <- Z.pow_add_r by lia. f_equal; lia. }
    pose proof (pow10_pos (j - 1) ltac:(lia)) as PP.
    destruct Dj as [c Dj].
    assert (Dj' : (10 ^ (j - 1) | zi)) by (exists (c * 10); rewrite Dj, EP; ring).
    destruct (IH (j - 1) Dj' ltac:(lia)) as (kap' & R1 & R2 & R3 & R4).
    exists kap'. split; [lia|]. split; [exact R2|]. split.
    { right. destruct R3 as [->|R3]; [|exact R3]. replace (j - 1 + 1) with j by ring. lia. }
    rewrite <- R4. f_equal. f_equal.
    + rewrite Dj at 1. rewrite Z.div_mul by lia.
      assert (zi / 10 ^ (j - 1) = c * 10) as ->.
      { rewrite Dj, EP. replace (c * (10 * 10 ^ (j - 1))) with (c * 10 * 10 ^ (j - 1)) by ring.
        apply Z.div_mul. lia. }
      apply wrap_small. rewrite Dj, EP in *. split; nia.
    + lia.
    + rewrite EP. rewrite Z.mul_comm. apply Z.div_mul. discriminate.
Qed.

Definition in_int (v : Z) : bool := inL v && inR v.
Definition no_coarser (kap : Z) : Prop := forall u, in_int (u * 10 ^ (kap + 1)) = false.

Lemma no_coarser_found kap : 0 <= kap -> okb (kap + 1) = false -> no_coarser kap.
Proof.
  intros Hkap Ho u. unfold in_int. destruct (inR (u * 10 ^ (kap + 1))) eqn:R; [|apply andb_false_r].
  apply inR_le in R. rewrite andb_true_r. apply not_true_is_false. intros IL.
  pose proof (pow10_pos (kap + 1) ltac:(lia)) as P.
  assert (u * 10 ^ (kap + 1) <= zi - zi mod 10 ^ (kap + 1)).
  { rewrite (Z.mod_eq zi) by lia.
    assert (u <= zi / 10 ^ (kap + 1)) by (apply div_ge_iff; lia). nia. }
  assert (okb (kap + 1) = true); [|congruence]. unfold okb. eapply inL_mono; eassumption.
Qed.
Lemma deltai_lt_found kap : 0 <= kap -> okb (kap + 1) = false -> deltai < 10 ^ (kap + 1).
Proof.
  intros Hkap Ho. pose proof (pow10_pos (kap + 1) ltac:(lia)) as P.
  pose proof (Z.mod_pos_bound zi (10 ^ (kap + 1)) ltac:(lia)).
  destruct (Z.lt_ge_cases (zi mod 10 ^ (kap + 1)) deltai) as [L|L]; [|lia].
  apply inL_lt in L. fold (okb (kap + 1)) in L. congruence.
Qed.

(** the state after the adjustment, with the excluded right end point at a multiple of 10^kap *)
Definition ba_state (kap : Z) (z : zf_vs_deltaf_t) : compute_state :=
  let keep := match tag with to_nearest_tag => cares crs | _ => false end in
  mk_state (if keep then zi / 10 ^ kap else zi / 10 ^ kap - 1) (kap - kexp e)
    (match tag with left_closed_directed_tag => if cares crs then 10 ^ kap else 0 | _ => 0 end)
    (10 ^ kap) deltai z.

Record excluded_end (kap : Z) : Prop := {
  ee_ir : ir = false;
  ee_div : (B | Z_);
  ee_mult : (10 ^ kap | zi);
  ee_inL : inL (zi - 10 ^ kap) = true;
  ee_le : 10 ^ kap <= deltai
}.

Definition after_adjust (st : compute_state) : outcome (Z * Z) :=
  if cares crs && (match tag with to_nearest_tag => true | _ => false end)
     && (min_kappa f =? 0) && (st_exponent st =? - kexp e)
  then correct_rounding_search_when_kappa_is_0_label cfg f cx st
  else correct_rounding_search_label cfg f cx st.

(** the end point test of 2012-2016 *)
Definition right_check : outcome bool :=
  is_product_integer cfg f
    (match tag with to_nearest_tag => fc_pm_2_to_the_q_mp_m2_generic | _ => other end)
    (right_endpoint f tag fc) e (- kexp e).

Theorem boundary_adjustment_gen kap z : found kap ->
  (tag <> right_closed_directed_tag -> zi mod 10 ^ kap = 0 -> right_check = Ok (divb B Z_)) ->
  (inR (zi - zi mod 10 ^ kap) = true /\
   boundary_adjustment_label cfg f cx (state_at kap z) = correct_rounding_search_label cfg f cx (state_at kap z))
  \/
  (exists kap', min_kappa f <= kap' <= kap /\ excluded_end kap' /\ no_coarser kap' /\ deltai < 10 ^ (kap' + 1) /\
     (kap' = kap \/ (10 ^ (kap' + 1) | zi)) /\
     boundary_adjustment_label cfg f cx (state_at kap z) = after_adjust (ba_state kap' z)).
Proof.
  intros (Hr & Ho & Hno) Hri. unfold right_check in Hri. assert (M0 : 0 <= min_kappa f) by (destruct f; discriminate).
  pose proof (pow10_pos kap ltac:(lia)) as P.
  unfold boundary_adjustment_label. cbn [cx cx_interval cx_tag cx_fr cx_exponent cx_minus_k cx_crs state_at st_r].
  pose proof (Z.mod_pos_bound zi (10 ^ kap) P) as MB.
  destruct (Z.eqb_spec (zi mod 10 ^ kap) 0) as [E0|E0].
  2:{ left. rewrite andb_false_r. split; [|reflexivity]. apply inR_lt. lia. }
  rewrite andb_true_r. destruct ir eqn:Eir; cbn [negb].
  { left. split; [|reflexivity]. rewrite E0, Z.sub_0_r, inR_zi, Eir. reflexivity. }
  assert (HR : tag <> right_closed_directed_tag).
  { intros T. rewrite (HitvR T) in Eir. discriminate. }
  rewrite Hri by (exact HR || exact E0). cbn [bind].
  destruct (divb B Z_) eqn:EB.
  2:{ left. split; [|reflexivity]. rewrite E0, Z.sub_0_r, inR_zi, EB, Eir. reflexivity. }
  right. apply divb_true in EB; [|exact HB].
  assert (Dk : (10 ^ kap | zi)) by (apply Z.mod_divide; [lia | exact E0]).
  assert (Kt : kap < Z.of_nat 64) by (unfold top_kappa in Hr; destruct f; lia).
  destruct (ba_loop z (fun _ => EB) 64 kap Dk ltac:(lia)) as (kap' & R1 & R2 & R3 & R4).
  exists kap'. unfold state_at. rewrite E0, R4. cbn [bind st_significand st_exponent st_divisor st_deltai st_zf_vs_deltaf st_r].
  pose proof (pow10_pos kap' ltac:(lia)) as P'.
  assert (Dk' : (10 ^ kap' | zi)).
  { eapply Z.divide_trans; [|exact Dk]. exists (10 ^ (kap - kap')). rewrite <- Z.pow_add_r by lia. f_equal; lia. }
  assert (IL : inL (zi - 10 ^ kap') = true).
  { destruct (Z.lt_ge_cases (10 ^ kap') deltai) as [L|L]; [apply inL_lt; exact L|].
    assert (ED : 10 ^ kap' = deltai) by lia.
    assert (EZ : Z_ = zi * B).
    { pose proof HB. destruct EB as [c EB]. unfold zi. rewrite EB, Z.div_mul by lia. reflexivity. }
    pose proof deltai_bounds as DD. unfold inL.
    destruct (Z.eq_dec X ((zi - 10 ^ kap') * B)) as [EX|EX].
    - rewrite (proj2 (Z.eqb_eq _ _) EX). rewrite andb_true_r.
      destruct tag eqn:T; rewrite <- T in *.
      + exfalso. apply (exact_length_impossible kap' T EB Dk' ltac:(lia)). rewrite EX, EZ. ring.
      + rewrite (HitvL eq_refl). cbn [include_left_endpoint]. apply orb_true_r.
      + congruence.
    - rewrite (proj2 (Z.ltb_lt _ _)); [reflexivity|]. nia. }
  assert (DL : deltai < 10 ^ (kap' + 1)).
  { destruct R3 as [->|R3]; [|exact R3]. apply deltai_lt_found; [lia | exact Hno]. }
  split; [exact R1|]. split; [constructor; assumption|]. split; [|split; [exact DL|split]].
  - destruct (Z.eq_dec kap' kap) as [->|Nk]; [apply no_coarser_found; [lia | exact Hno]|].
    assert (Dz : (10 ^ (kap' + 1) | zi)).
    { eapply Z.divide_trans; [|exact Dk]. exists (10 ^ (kap - (kap' + 1))). rewrite <- Z.pow_add_r by lia. f_equal; lia. }
    intros u. destruct Dz as [c Dz]. pose proof (pow10_pos (kap' + 1) ltac:(lia)) as P1.
    destruct (Z.le_gt_cases c u) as [Lc|Lc].
    + unfold in_int. apply andb_false_intro2. destruct (Z.eq_dec c u) as [->|].
      * rewrite <- Dz, inR_zi, Eir, (proj2 (divb_true _ _ HB) EB). reflexivity.
      * apply not_true_is_false. intros Q. apply inR_le in Q. nia.
    + unfold in_int. apply andb_false_intro1.
      replace (u * 10 ^ (kap' + 1)) with (zi - (c - u) * 10 ^ (kap' + 1)) by (rewrite Dz; ring).
      apply inL_gt. nia.
  - destruct (Z.eq_dec kap' kap) as [|Nk]; [left; assumption | right].
    eapply Z.divide_trans; [|exact Dk]. exists (10 ^ (kap - (kap' + 1))). rewrite <- Z.pow_add_r by lia. f_equal; lia.
  - (* the states agree *)
    pose proof zi_small as [Z0 Z1].
    assert (S1 : 1 <= zi / 10 ^ kap').
    { apply div_ge_iff; [exact P'|]. rewrite Z.mul_1_l.
      assert (X < zi * B).
      { destruct EB as [b EB]. pose proof HB. pose proof X_lt_Z. unfold zi. rewrite EB, Z.div_mul by lia. lia. }
      pose proof X_nonneg. pose proof HB. assert (0 < zi) by nia. apply Z.divide_pos_le; assumption. }
    assert (S2 : zi / 10 ^ kap' <= zi).
    { apply Z.div_le_upper_bound; [exact P'|]. replace zi with (1 * zi) at 1 by ring.
      apply Z.mul_le_mono_nonneg_r; lia. }
    assert (WS : wrap w (zi / 10 ^ kap' - 1) = zi / 10 ^ kap' - 1) by (apply wrap_small; lia).
    unfold after_adjust, ba_state. rewrite WS.
    destruct tag eqn:T; cbn [st_exponent].
    + destruct (cares crs); reflexivity.
    + destruct (cares crs); reflexivity.
    + congruence.
Qed.
Hypothesis HL1 : tag = left_closed_directed_tag -> n + 1 < 2 ^ (precision f + 1).

Lemma right_endpoint_ok : right_endpoint f tag fc = hi_u tag n * unit f.
Proof.
  pose proof n_bound as NB. pose proof (pow_split f) as PS.
  unfold right_endpoint, hi_u, fc. destruct tag eqn:T; rewrite <- T in *.
  - rewrite nil_unit, bb_unit.
    assert (E : n * (4 * unit f) = Z.shiftl n (q_mp f - 1)).
    { rewrite shiftl_mul by (destruct f; cbn; lia). f_equal. destruct f; reflexivity. }
    assert (E2 : 2 * unit f = 2 ^ (q_mp f - 2)) by (destruct f; reflexivity).
    rewrite <- Z.lxor_lor, <- Z.add_nocarry_lxor; [ring| |].
    all: apply Z.bits_inj'; intros i Hi; rewrite Z.land_spec, Z.bits_0, E, E2;
      rewrite Z.pow2_bits_eqb by (destruct f; cbn; lia);
      destruct (Z.eqb_spec (q_mp f - 2) i) as [<-|]; [|apply andb_false_r];
      rewrite Z.shiftl_spec_low by lia; reflexivity.
  - rewrite nil_unit. rewrite wrap_small; [ring|]. rewrite PS.
    specialize (HL1 eq_refl).
    replace (2 ^ (precision f + 1)) with (2 * 2 ^ precision f) in HL1 by (destruct f; reflexivity).
    destruct (unit_vals f) as [-> | ->]; lia.
  - rewrite nil_unit. ring.
Qed.

Lemma hi_lt : hi_u tag n * unit f < 2 ^ w.
Proof.
  rewrite pow_split. pose proof n_bound. unfold hi_u.
  destruct tag eqn:T; try (destruct (unit_vals f) as [-> | ->]; lia).
  specialize (HL1 eq_refl).
  replace (2 ^ (precision f + 1)) with (2 * 2 ^ precision f) in HL1 by (destruct f; reflexivity).
  destruct (unit_vals f) as [-> | ->]; lia.
Qed.

Lemma right_integer_ok : tag <> right_closed_directed_tag ->
  right_check = Ok (divb B Z_).
Proof.
  intros HR. unfold right_check. rewrite right_endpoint_ok. pose proof hi_lt as LT.
  assert (EZ : Z_ = hi_u tag n * unit f * anum e (kexp e)) by (unfold Z_, ulp, num; ring).
  rewrite EZ. unfold den. destruct tag eqn:T; [| |congruence].
  - assert (ES : hi_u to_nearest_tag n * unit f = (2 * n + 1) * boundary_bit f).
    { unfold hi_u. rewrite bb_unit. ring. }
    rewrite ES in *. rewrite is_product_integer_generic; [reflexivity | assumption | lia | exact LT].
  - assert (ES : hi_u left_closed_directed_tag n * unit f = (n + 1) * normal_interval_length f).
    { unfold hi_u. rewrite nil_unit. ring. }
    rewrite ES in *. rewrite is_product_integer_other; [reflexivity | assumption | lia | exact LT].
Qed.

Theorem boundary_adjustment_result kap z : found kap ->
  (inR (zi - zi mod 10 ^ kap) = true /\
   boundary_adjustment_label cfg f cx (state_at kap z) = correct_rounding_search_label cfg f cx (state_at kap z))
  \/
  (exists kap', min_kappa f <= kap' <= kap /\ excluded_end kap' /\ no_coarser kap' /\ deltai < 10 ^ (kap' + 1) /\
     (kap' = kap \/ (10 ^ (kap' + 1) | zi)) /\
     boundary_adjustment_label cfg f cx (state_at kap z) = after_adjust (ba_state kap' z)).
Proof.
  intros Hf. apply boundary_adjustment_gen; [exact Hf|]. intros HR _. apply right_integer_ok. exact HR.
Qed.
End Core.
