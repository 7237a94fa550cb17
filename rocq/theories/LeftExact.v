(** * The search of the left-closed directed mode, exactly

    Where the lower end of the search range is a multiple u of the step below the starting point s, the
    search stops gcd(d / 2, s - u) steps above u, d being the last digit of s; elsewhere it finds the least
    multiple of the interval. *)

From Coq Require Import ZArith List Bool Lia.
From Verif Require Import Machine Tables Model Arith ExpFacts Products IntCheck Core EdgeCheck Directed Ones.
Import ListNotations.
Open Scope Z_scope.

Section LeftExact.
Variables (cfg : config) (f : fmt) (crs : crs_tag) (itv : interval_type) (e n : Z).
Local Notation tag := left_closed_directed_tag.
Hypothesis He : exp_min f <= e <= exp_max f.
Hypothesis Hn : 0 < n < 2 ^ (precision f + 1).
Hypothesis Hitv : itv = left_closed_right_open.
Local Notation B := (den e).
Local Notation w := (extended_precision f).
Local Notation zi := (Core.zi f tag e n).
Local Notation deltai := (Core.deltai f tag e n).
Local Notation Zr := (Core.Z_ f tag e n).
Local Notation cx := (Core.cx f tag crs itv e n).
Local Notation inL := (Core.inL f tag itv e n).
Local Notation inR := (Core.inR f tag itv e n).
Local Notation in_int := (Core.in_int f tag itv e n).
Local Notation found := (Core.found f tag itv e n).
Let hL : tag = left_closed_directed_tag -> itv = left_closed_right_open := fun _ => Hitv.
Let hR := hR itv.

Lemma gcd_halved steps j : 1 <= j < steps -> steps <= 4 -> Z.gcd (steps / 2) j = Z.gcd steps j.
Proof.
  intros H H4.
  assert (C : (steps = 2 /\ j = 1) \/ (steps = 3 /\ (j = 1 \/ j = 2)) \/ (steps = 4 /\ (j = 1 \/ j = 2 \/ j = 3))) by lia.
  destruct C as [[-> ->]|[[-> [-> | ->]]|[-> [-> | [-> | ->]]]]]; reflexivity.
Qed.

Lemma search_stops D approx_x ex z : 0 < D -> 4 * D < 2 ^ w -> forall fuel steps s r j,
  1 <= steps <= 4 -> 1 <= j -> j * D <= deltai -> zi = s * D + (deltai - j * D) -> 0 <= s -> steps + j < Z.of_nat fuel ->
  left_closed_search fuel cfg f cx approx_x steps (mk_state s ex r D (j * D) z) = Ok (s - j + Z.gcd steps j, ex).
Proof using He Hn Hitv hL hR.
  intros HD HDw. induction fuel as [|fuel IH]; intros steps s r j Hs Hj Hdl Hz Hs0 Hfuel; [lia|].
  cbn [left_closed_search st_divisor st_deltai st_significand st_exponent st_r st_zf_vs_deltaf].
  destruct (Z.eqb_spec steps 0) as [S0|S0]; [lia|].
  assert (HsD : D <= steps * D <= 4 * D) by nia.
  rewrite (wrap_small w (steps * D)) by lia.
  destruct (Z.ltb_spec (j * D) (steps * D)) as [L|L].
  { apply Z.mul_lt_mono_pos_r in L; [|exact HD]. rewrite IH; try assumption.
    - rewrite gcd_halved by lia. reflexivity.
    - split; [apply Z.div_le_lower_bound; lia | apply Z.div_le_upper_bound; lia].
    - assert (steps / 2 <= steps) by (apply Z.div_le_upper_bound; lia). assert (steps / 2 < steps) by (apply Z.div_lt; lia). lia. }
  apply Z.mul_le_mono_pos_r in L; [|exact HD].
  destruct (Z.eqb_spec (steps * D) (j * D)) as [E|E].
  { apply Z.mul_reg_r in E; [|lia]. subst j. rewrite coincidence_returns by assumption. unfold return_label. cbn [st_significand st_exponent].
    rewrite Z.gcd_diag_nonneg by lia. f_equal. f_equal. lia. }
  assert (NE : steps <> j) by (intros ->; apply E; reflexivity).
  pose proof (deltai_small f tag itv e n He hL hR) as [_ DS].
  pose proof (zi_small f tag itv e n He Hn hL hR) as [Z0 Z1].
  assert (Hu32 : unit f <= 512) by (destruct (unit_vals f); lia).
  assert (Lj : steps * D <= j * D) by (apply Z.mul_le_mono_nonneg_r; lia).
  assert (Hnext : zi = (s - steps) * D + (deltai - (j * D - steps * D))) by lia.
  assert (Hs1 : 0 <= s - steps).
  { assert (P : 0 < j * D - steps * D) by (assert (steps * D < j * D) by (apply Z.mul_lt_mono_pos_r; lia); lia).
    assert (I : inL (zi - (deltai - (j * D - steps * D))) = true) by (apply (inL_lt f tag itv e n hL hR); lia).
    apply (inL_nonneg f itv e n Hn Hitv) in I.
    assert (I2 : 0 <= (s - steps) * D) by lia. apply Z.mul_nonneg_cancel_r in I2; lia. }
  assert (Hsw : s < 2 ^ w).
  { assert (s * 1 <= s * D) by (apply Z.mul_le_mono_nonneg_l; lia). lia. }
  rewrite (wrap_small w (s - steps)) by lia.
  rewrite (wrap_small 32 (steps * D)) by lia.
  rewrite (wrap_small 32 (j * D - steps * D)) by lia.
  replace (j * D - steps * D) with ((j - steps) * D) by ring.
  rewrite IH; try lia. rewrite Z.gcd_sub_diag_r. f_equal. f_equal. ring.
Qed.

(** from the starting point s to the result t *)
Definition reaches (kap s t : Z) : Prop :=
  (forall u, u < s -> u * 10 ^ kap = zi - deltai -> t = u + Z.gcd (s mod 10 / 2) (s - u))
  /\ ((forall u, u < s -> u * 10 ^ kap <> zi - deltai) -> forall v, in_int (v * 10 ^ kap) = true -> t <= v).

Lemma left_from_exact kap s r z :
  cares crs = true ->
  min_kappa f <= kap <= top_kappa f -> deltai < 10 ^ (kap + 1) ->
  zi = s * 10 ^ kap + r -> 0 <= r <= 10 ^ kap -> in_int (s * 10 ^ kap) = true -> no_coarser f tag itv e n kap ->
  exists t, correct_rounding_search_label cfg f cx (mk_state s (kap - kexp e) r (10 ^ kap) deltai z) = Ok (t, kap - kexp e)
    /\ reaches kap s t.
Proof using He Hn Hitv hL hR.
  intros Hcares Hk DL Ez Hr Hin NC.
  destruct (left_from cfg f crs itv e n He Hn Hitv kap s r z Hcares Hk DL Ez Hr Hin) as (t & Et & IT & HC & _).
  exists t. split; [exact Et|]. specialize (HC NC).
  assert (M0 : 0 <= min_kappa f) by (destruct f; discriminate).
  pose proof (pow10_pos kap ltac:(lia)) as HD.
  assert (ED1 : 10 ^ (kap + 1) = 10 * 10 ^ kap) by (rewrite Z.pow_add_r by lia; ring).
  assert (HDw : 4 * 10 ^ kap < 2 ^ w).
  { apply Z.le_lt_trans with (4 * 10 ^ top_kappa f); [|destruct f; reflexivity].
    apply Z.mul_le_mono_nonneg_l; [lia|]. apply Z.pow_le_mono_r; lia. }
  pose proof Hin as Hin'. apply andb_true_iff in Hin'. destruct Hin' as [IL IR].
  pose proof (inL_nonneg f itv e n Hn Hitv _ IL) as Hs. assert (Hs0 : 0 <= s) by nia.
  pose proof (deltai_small f tag itv e n He hL hR) as [_ DS].
  assert (Hu32 : unit f <= 512) by (destruct (unit_vals f); lia).
  assert (Hrd : 0 <= r <= deltai).
  { split; [lia|]. destruct (Z.le_gt_cases r deltai) as [|G]; [assumption|].
    apply (inL_gt f tag itv e n hL hR) in G. replace (zi - r) with (s * 10 ^ kap) in G by lia. congruence. }
  assert (EL : correct_rounding_search_label cfg f cx (mk_state s (kap - kexp e) r (10 ^ kap) deltai z)
    = left_closed_search 64 cfg f cx (wrap w (zi - (deltai - r))) (s mod 10 / 2) (mk_state s (kap - kexp e) r (10 ^ kap) (deltai - r) z)).
  { unfold correct_rounding_search_label. cbn [Core.cx cx_crs cx_tag cx_zi st_deltai st_r st_significand st_exponent st_divisor st_zf_vs_deltaf].
    rewrite Hcares. rewrite (wrap_small 32 r) by lia. rewrite (wrap_small 32 (deltai - r)) by lia. reflexivity. }
  rewrite EL in Et. clear EL.
  pose proof (Z.mod_pos_bound s 10 ltac:(lia)) as Md. pose proof (Z.div_mod s 10 ltac:(lia)) as Dd.
  assert (Hst : 0 <= s mod 10 / 2 <= 4).
  { split; [apply Z.div_pos; lia|].
    assert (s mod 10 / 2 < 5) by (apply Z.div_lt_upper_bound; lia). lia. }
  assert (Hnc : inL (s / 10 * 10 ^ (kap + 1)) = false).
  { pose proof (NC (s / 10)) as G. unfold Core.in_int in G. apply andb_false_iff in G. destruct G as [G|G]; [exact G|].
    exfalso. assert (inR (s / 10 * 10 ^ (kap + 1)) = true); [|congruence].
    destruct (Z.eq_dec (s / 10 * 10 ^ (kap + 1)) (s * 10 ^ kap)) as [Q|Q]; [rewrite Q; exact IR|].
    apply inR_lt. apply (inR_le f tag itv e n) in IR. assert (s / 10 * 10 ^ (kap + 1) <= s * 10 ^ kap); [|lia]. rewrite ED1.
    replace (s / 10 * (10 * 10 ^ kap)) with (s / 10 * 10 * 10 ^ kap) by ring. apply Z.mul_le_mono_nonneg_r; lia. }
  assert (Hd0 : s mod 10 <> 0).
  { intros Q. rewrite ED1 in Hnc. replace (s / 10 * (10 * 10 ^ kap)) with (s * 10 ^ kap) in Hnc; [congruence|].
    rewrite Dd at 1. rewrite Q. ring. }
  split.
  - intros u Lu Hu. set (j := s - u). assert (Hdl : deltai - r = j * 10 ^ kap) by (unfold j; lia).
    assert (J10 : j < 10).
    { destruct (Z_lt_le_dec j 10) as [|G]; [assumption|exfalso]. assert (10 * 10 ^ kap <= j * 10 ^ kap) by (apply Z.mul_le_mono_nonneg_r; lia). lia. }
    destruct (Z.eq_dec (s mod 10) 1) as [M1|M1].
    + assert (t = s).
      { rewrite M1 in Et. change (left_closed_search 64 cfg f cx (wrap w (zi - (deltai - r))) (1 / 2)
          (mk_state s (kap - kexp e) r (10 ^ kap) (deltai - r) z)) with (Ok (s, kap - kexp e)) in Et. congruence. }
      subst t. rewrite M1. change (1 / 2) with 0. rewrite Z.gcd_0_l. fold j. lia.
    + assert (S1 : 1 <= s mod 10 / 2) by (apply Z.div_le_lower_bound; lia).
      rewrite Hdl in Et. rewrite (search_stops (10 ^ kap)) in Et; try lia.
      injection Et as <-. fold j. unfold j. lia.
  - intros Hno. destruct HC as [HC|(S & HS & HD2)]; [exact HC|exfalso].
    destruct (left_search_ok cfg f crs itv e n He Hn Hitv (10 ^ kap) (wrap w (zi - (deltai - r))) (kap - kexp e) z HD HDw 64
                (s mod 10 / 2) s r (deltai - r)) as (t2 & dl' & Et2 & _ & Lt & _); try lia.
    { assert ((deltai - r) / 10 ^ kap < 10); [|lia]. apply Z.div_lt_upper_bound; lia. }
    rewrite Et2 in Et. injection Et as ->. apply (Hno (t - S)); [lia | exact HD2].
Qed.

(** ** Two decimals of the interval on grids with nothing coarser lie on the same grid *)
Lemma same_grid k1 k2 s1 s2 : 0 <= k1 -> 0 <= k2 -> in_int (s1 * 10 ^ k1) = true -> in_int (s2 * 10 ^ k2) = true ->
  no_coarser f tag itv e n k1 -> no_coarser f tag itv e n k2 -> k1 = k2.
Proof.
  assert (A : forall k1 k2 s2, 0 <= k1 -> 0 <= k2 -> in_int (s2 * 10 ^ k2) = true -> no_coarser f tag itv e n k1 -> k2 <= k1).
  { intros a b s Ha Hb I N. destruct (Z_lt_le_dec a b) as [L|]; [exfalso|assumption].
    specialize (N (s * 10 ^ (b - (a + 1)))). rewrite <- Z.mul_assoc, <- Z.pow_add_r in N by lia.
    replace (b - (a + 1) + (a + 1)) with b in N by ring. congruence. }
  intros H1 H2 I1 I2 N1 N2. apply Z.le_antisymm; [apply (A k2 k1 s1) | apply (A k1 k2 s2)]; assumption.
Qed.
End LeftExact.

(** ** The result of a search for the closest, from the result of do_not_care *)
Section Both.
Variables (cfg : config) (f : fmt) (crs : crs_tag) (e n : Z).
Local Notation tag := left_closed_directed_tag.
Local Notation itv := left_closed_right_open.
Hypothesis He : exp_min f <= e <= exp_max f.
Hypothesis Hn : 0 < n < 2 ^ (precision f + 1).
Hypothesis Hcares : cares crs = true.
Local Notation zi := (Core.zi f tag e n).
Local Notation deltai := (Core.deltai f tag e n).
Local Notation in_int := (Core.in_int f tag itv e n).
Local Notation found := (Core.found f tag itv e n).
Let hL : tag = left_closed_directed_tag -> itv = left_closed_right_open := fun _ => eq_refl.
Let hR := hR itv.

Definition both (kap s t : Z) : Prop :=
  compute_tail cfg f tag crs itv e n = Ok (t, kap - kexp e) /\
  compute_tail cfg f tag do_not_care itv e n = Ok (s, kap - kexp e) /\
  min_kappa f <= kap <= top_kappa f /\ no_coarser f tag itv e n kap /\
  in_int (t * 10 ^ kap) = true /\ in_int (s * 10 ^ kap) = true /\ reaches f itv e n kap s t.

Theorem right_answer : (forall kap, found kap -> tag <> right_closed_directed_tag -> zi mod 10 ^ kap = 0 ->
     right_check cfg f tag e n = Ok (divb (den e) (Core.Z_ f tag e n))) ->
  exists kap s t, both kap s t.
Proof using He Hn Hcares hL hR.
  intros Hri. assert (M0 : 0 <= min_kappa f) by (destruct f; discriminate).
  destruct (positions cfg f tag crs itv e n He Hn hL hR Hri) as (kap & s & r & z & Hk & NC & DL & Ez & Hr & Hin & Hmax & E).
  destruct E as (r' & Er & E); [discriminate|]. specialize (Er eq_refl Hcares). subst r'.
  destruct (largest_result cfg f tag do_not_care itv e n He Hn hL hR Hri (or_introl eq_refl)) as (k2 & s2 & E2 & Hk2 & Hin2 & NC2 & Hmax2).
  assert (k2 = kap) by (apply (same_grid f itv e n k2 kap s2 s); assumption || lia). subst k2.
  assert (s2 = s) by (apply Z.le_antisymm; [apply Hmax | apply Hmax2]; assumption). subst s2.
  destruct (left_from_exact cfg f crs itv e n He Hn eq_refl kap s r z Hcares Hk DL Ez ltac:(pose proof (pow10_pos kap); lia) Hin NC) as (t & Et & R).
  destruct (left_from cfg f crs itv e n He Hn eq_refl kap s r z Hcares Hk DL Ez ltac:(pose proof (pow10_pos kap); lia) Hin) as (t' & Et' & IT & _).
  rewrite Et' in Et. injection Et as <-.
  exists kap, s, t'. unfold both. rewrite E. repeat split; try assumption; try lia; apply R.
Qed.
End Both.

(** ** The same for the largest significand of a binade *)
Section OnesBoth.
Variables (cfg : config) (f : fmt) (crs : crs_tag) (e : Z).
Local Notation tag := left_closed_directed_tag.
Local Notation itv := left_closed_right_open.
Hypothesis He : exp_min f <= e <= exp_max f.
Hypothesis Hcares : cares crs = true.
Local Notation n := (ones f).
Local Notation w := (extended_precision f).
Local Notation zi := (Core.zi f tag e n).
Local Notation deltai := (Core.deltai f tag e n).
Local Notation in_int := (Core.in_int f tag itv e n).
Local Notation found := (Core.found f tag itv e n).
Let hL : tag = left_closed_directed_tag -> itv = left_closed_right_open := fun _ => eq_refl.
Let hR := hR itv.

(** a misfire that costs no digit: the search starts one step below the end point, at the exponent found *)
Lemma misfire_state c kap : memb e (misfires f) = true -> memb e (lengthens f) = false ->
  found kap -> zi mod 10 ^ kap = 0 -> right_check cfg f tag e n = Ok true ->
  exists z, compute_tail cfg f tag c itv e n = correct_rounding_search_label cfg f (Core.cx f tag c itv e n)
      (mk_state (zi / 10 ^ kap - 1) (kap - kexp e) (if cares c then 10 ^ kap else 0) (10 ^ kap) deltai z)
    /\ deltai < 10 ^ (kap + 1) /\ zi = (zi / 10 ^ kap - 1) * 10 ^ kap + 10 ^ kap /\ in_int ((zi / 10 ^ kap - 1) * 10 ^ kap) = true.
Proof using He hL hR.
  intros M L F R0 RC. pose proof (ones_range f e He) as Hn.
  destruct (search_result cfg f tag c itv e n He Hn hL hR) as (kap2 & z & Hf & Hzf & E).
  pose proof (found_unique f itv e He _ _ Hf F). subst kap2.
  pose proof Hf as (Hk & Hok & Hno).
  assert (M0 : 0 <= min_kappa f) by (destruct f; discriminate).
  unfold after_search in E. rewrite andb_false_r in E. cbn [andb] in E.
  assert (Dk : (10 ^ kap | zi)).
  { apply Z.mod_divide; [|exact R0]. pose proof (pow10_pos kap ltac:(lia)). lia. }
  destruct (adjust_wrong cfg f c itv e n He Hn eq_refl kap z Hf R0 RC) as (k' & R1 & R2 & DL & EA).
  rewrite EA in E. clear EA.
  assert (k' = kap).
  { destruct (ones_swept f e He) as [_ C]. unfold check_kept in C. rewrite M, L in C.
    assert (IK : In kap (kappas f)).
    { unfold kappas. apply in_map_iff. exists (Z.to_nat kap). split; [lia|]. apply in_seq.
      unfold top_kappa in Hk. destruct f; lia. }
    pose proof (proj1 (forallb_forall _ _) C kap IK) as C1. cbv beta zeta in C1.
    rewrite <- (zi_ones f e He), <- (deltai_ones f e He), R0 in C1. cbn [Z.eqb] in C1.
    pose proof Hno as Fn. unfold Core.okb in Fn. rewrite (inL_ones f itv e He eq_refl) in Fn. rewrite Fn, orb_false_r in C1. apply Z.leb_le in C1.
    assert (10 ^ kap < 10 ^ (k' + 1)) by lia. apply Z.pow_lt_mono_r_iff in H; lia. }
  subst k'. pose proof (pow10_pos kap ltac:(lia)) as P'.
  assert (IL : Core.inL f tag itv e n (zi - 10 ^ kap) = true).
  { destruct (Z.lt_ge_cases (10 ^ kap) deltai) as [Q|Q]; [apply (inL_lt f tag itv e n hL hR); exact Q|].
    assert (ED : deltai = 10 ^ kap) by lia. rewrite <- ED. apply (coincidence_ones f itv e He eq_refl kap); [lia | exact ED | exact Dk]. }
  assert (Em : zi = zi / 10 ^ kap * 10 ^ kap).
  { destruct Dk as [c0 ->]. rewrite Z.div_mul by lia. reflexivity. }
  assert (Es : (zi / 10 ^ kap - 1) * 10 ^ kap = zi - 10 ^ kap) by lia.
  pose proof (inL_nonneg f itv e n Hn eq_refl _ IL) as N0.
  pose proof (zi_small f tag itv e n He Hn hL hR) as [Z0 Z1].
  assert (S1 : 0 <= zi / 10 ^ kap - 1) by nia.
  assert (WS : wrap w (zi / 10 ^ kap - 1) = zi / 10 ^ kap - 1).
  { apply wrap_small. split; [exact S1|].
    assert (zi / 10 ^ kap <= zi); [|lia]. apply Z.div_le_upper_bound; [lia|].
    rewrite <- (Z.mul_1_l zi) at 1. apply Z.mul_le_mono_nonneg_r; lia. }
  rewrite WS in E. exists z. split; [exact E|]. split; [exact DL|]. split; [lia|].
  rewrite Es. unfold Core.in_int. rewrite IL. apply inR_lt. lia.
Qed.

Theorem ones_both : memb e (stops f) = false -> memb e (lengthens f) = false -> exists kap s t, both cfg f crs e n kap s t.
Proof using He Hcares hL hR.
  intros S L. pose proof (ones_range f e He) as Hn. assert (M0 : 0 <= min_kappa f) by (destruct f; discriminate).
  destruct (search_result cfg f tag crs itv e n He Hn hL hR) as (kap & z & F & _ & _).
  destruct (Z.eq_dec (zi mod 10 ^ kap) 0) as [R0|R0].
  2:{ apply (right_answer cfg f crs e n He Hn Hcares). intros k2 F2 _ Hm. rewrite (found_unique f itv e He _ _ F2 F) in Hm. contradiction. }
  destruct (test_answers cfg f itv e He eq_refl kap S F R0) as [RC|[M RC]];
    [apply (right_answer cfg f crs e n He Hn Hcares); intros; exact RC|].
  destruct (misfire_state crs kap M L F R0 RC) as (z1 & E1 & DL & Ez & IN). rewrite Hcares in E1.
  destruct (misfire_state do_not_care kap M L F R0 RC) as (z2 & E2 & _).
  pose proof F as (Fk & _ & Fn). pose proof (no_coarser_found f tag itv e n kap ltac:(lia) Fn) as NC.
  pose proof (pow10_pos kap ltac:(lia)) as P.
  destruct (left_from_exact cfg f crs itv e n He Hn eq_refl kap _ _ z1 Hcares Fk DL Ez ltac:(lia) IN NC) as (t & Et & R).
  destruct (left_from cfg f crs itv e n He Hn eq_refl kap _ _ z1 Hcares Fk DL Ez ltac:(lia) IN) as (t' & Et' & IT & _).
  rewrite Et' in Et. injection Et as <-.
  exists kap, (zi / 10 ^ kap - 1), t'. unfold both. rewrite E1, E2.
  split; [exact Et'|]. split; [reflexivity|]. repeat split; try assumption; try lia; apply R.
Qed.
End OnesBoth.
