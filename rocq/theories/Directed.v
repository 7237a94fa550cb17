(** * Step 4 where no closest decimal is searched, and for the left-closed directed mode *)

From Coq Require Import ZArith List Bool Lia.
From Verif Require Import Machine Tables Model Arith ExpFacts Products IntCheck Core.
Import ListNotations.
Open Scope Z_scope.

Section Directed.
Variables (cfg : config) (f : fmt) (tag : mode_tag) (crs : crs_tag) (itv : interval_type) (e n : Z).
Hypothesis He : exp_min f <= e <= exp_max f.
Hypothesis Hn : 0 < n < 2 ^ (precision f + 1).
Hypothesis HitvL : tag = left_closed_directed_tag -> itv = left_closed_right_open.
Hypothesis HitvR : tag = right_closed_directed_tag -> itv = right_closed_left_open.
Local Notation B := (den e).
Local Notation w := (extended_precision f).
Local Notation zi := (Core.zi f tag e n).
Local Notation deltai := (Core.deltai f tag e n).
Local Notation X := (Core.X f tag e n).
Local Notation Zr := (Core.Z_ f tag e n).
Local Notation cx := (Core.cx f tag crs itv e n).
Local Notation inL := (Core.inL f tag itv e n).
Local Notation inR := (Core.inR f tag itv e n).
Local Notation in_int := (Core.in_int f tag itv e n).
Local Notation found := (Core.found f tag itv e n).
Hypothesis Hri : forall kap, found kap -> tag <> right_closed_directed_tag -> zi mod 10 ^ kap = 0 ->
  right_check cfg f tag e n = Ok (divb B Zr).

Lemma max_mult D s r u : 0 < D -> zi = s * D + r -> 0 <= r < D -> in_int (u * D) = true -> u <= s.
Proof.
  intros HD Hz Hr Hu. unfold Core.in_int in Hu. apply andb_true_iff in Hu. destruct Hu as [_ UR].
  apply inR_le in UR. nia.
Qed.

(** the search stops at the state found, or one step below the excluded right end point *)
Lemma positions :
  exists kap s r z, min_kappa f <= kap <= top_kappa f /\ no_coarser f tag itv e n kap
    /\ deltai < 10 ^ (kap + 1)
    /\ zi = s * 10 ^ kap + r
    /\ ((0 <= r < 10 ^ kap) \/ (r = 10 ^ kap))
    /\ in_int (s * 10 ^ kap) = true /\ (forall u, in_int (u * 10 ^ kap) = true -> u <= s)
    /\ ((tag = to_nearest_tag -> cares crs = false) ->
        exists r', (tag = left_closed_directed_tag -> cares crs = true -> r' = r) /\
        compute_tail cfg f tag crs itv e n
        = correct_rounding_search_label cfg f cx (mk_state s (kap - kexp e) r' (10 ^ kap) deltai z)).
Proof.
  destruct (search_result cfg f tag crs itv e n He Hn HitvL HitvR) as (kap & z & Hf & Hzf & E).
  pose proof Hf as (Hk & Hok & Hno).
  assert (M0 : 0 <= min_kappa f) by (destruct f; discriminate).
  assert (Hk0 : 0 <= kap) by lia.
  pose proof (pow10_pos kap Hk0) as PD.
  pose proof (Z.div_mod zi (10 ^ kap) ltac:(lia)) as Dz.
  pose proof (Z.mod_pos_bound zi (10 ^ kap) PD) as Dr.
  assert (Es : zi / 10 ^ kap * 10 ^ kap = zi - zi mod 10 ^ kap) by lia.
  assert (E' : (tag = to_nearest_tag -> cares crs = false) ->
    compute_tail cfg f tag crs itv e n = boundary_adjustment_label cfg f cx (state_at f tag e n kap z)).
  { intros Hc. rewrite E. unfold after_search.
    destruct tag eqn:T; [rewrite (Hc eq_refl); reflexivity | rewrite andb_false_r; reflexivity | rewrite andb_false_r; reflexivity]. }
  destruct (boundary_adjustment_gen cfg f tag crs itv e n He Hn HitvL HitvR kap z Hf (Hri kap Hf))
    as [(IR & EB) | (k' & Hk' & Hee & NC' & DL' & Hd & EB)].
  - exists kap, (zi / 10 ^ kap), (zi mod 10 ^ kap), z.
    split; [exact Hk|]. split; [apply no_coarser_found; assumption|].
    split; [apply deltai_lt_found with itv; assumption|]. split; [lia|]. split; [left; exact Dr|].
    split.
    { rewrite Es. unfold Core.in_int. unfold okb in Hok. rewrite Hok, IR. reflexivity. }
    split. { intros u. apply max_mult with (zi mod 10 ^ kap); [exact PD | lia | exact Dr]. }
    intros Hc. exists (zi mod 10 ^ kap). split; [reflexivity|]. rewrite E', EB by exact Hc. reflexivity.
  - destruct Hee as [Hir HdZ HmZ HinL Hle].
    pose proof (pow10_pos k' ltac:(lia)) as PD'.
    assert (Em' : zi = zi / 10 ^ k' * 10 ^ k').
    { destruct HmZ as [c ->]. rewrite Z.div_mul by lia. reflexivity. }
    exists k', (zi / 10 ^ k' - 1), (10 ^ k'), z.
    assert (Es' : (zi / 10 ^ k' - 1) * 10 ^ k' = zi - 10 ^ k') by lia.
    split; [lia|]. split; [exact NC'|]. split; [exact DL'|]. split; [lia|]. split; [right; reflexivity|].
    split.
    { rewrite Es'. unfold Core.in_int. rewrite HinL. apply inR_lt. lia. }
    split.
    { intros u Hu. unfold Core.in_int in Hu. apply andb_true_iff in Hu. destruct Hu as [_ UR].
      pose proof (inR_le _ _ _ _ _ _ UR) as UL.
      assert (u * 10 ^ k' <> zi).
      { intros Q. rewrite Q, inR_zi, Hir in UR. rewrite (proj2 (divb_true _ _ (HB e)) HdZ) in UR. discriminate. }
      nia. }
    intros Hc. rewrite E', EB by exact Hc. unfold after_adjust, ba_state.
    exists (match tag with left_closed_directed_tag => if cares crs then 10 ^ k' else 0 | _ => 0 end).
    split; [intros -> ->; reflexivity|].
    destruct tag eqn:T.
    + rewrite (Hc eq_refl). reflexivity.
    + rewrite andb_false_r. reflexivity.
    + rewrite andb_false_r. reflexivity.
Qed.

(** no search for the closest: the largest candidate is returned *)
Theorem largest_result :
  (cares crs = false \/ tag = right_closed_directed_tag) ->
  exists kap t, compute_tail cfg f tag crs itv e n = Ok (t, kap - kexp e)
    /\ min_kappa f <= kap <= top_kappa f
    /\ in_int (t * 10 ^ kap) = true /\ no_coarser f tag itv e n kap
    /\ (forall u, in_int (u * 10 ^ kap) = true -> u <= t).
Proof.
  intros Hc. destruct positions as (kap & s & r & z & Hk & NC & _ & _ & _ & Hin & Hmax & E).
  destruct E as (r' & _ & E).
  { intros T. destruct Hc as [Hc|Hc]; [exact Hc | congruence]. }
  exists kap, s. split; [|repeat split; try assumption; lia].
  rewrite E. unfold correct_rounding_search_label. cbn [Core.cx cx_crs cx_tag].
  destruct Hc as [-> | ->]; [reflexivity|]. destruct (cares crs); reflexivity.
Qed.
End Directed.

Section Left.
Variables (cfg : config) (f : fmt) (crs : crs_tag) (itv : interval_type) (e n : Z).
Local Notation tag := left_closed_directed_tag.
Hypothesis He : exp_min f <= e <= exp_max f.
Hypothesis Hn : 0 < n < 2 ^ (precision f + 1).
Hypothesis Hitv : itv = left_closed_right_open.
Local Notation B := (den e).
Local Notation w := (extended_precision f).
Local Notation zi := (Core.zi f tag e n).
Local Notation deltai := (Core.deltai f tag e n).
Local Notation X := (Core.X f tag e n).
Local Notation Zr := (Core.Z_ f tag e n).
Local Notation cx := (Core.cx f tag crs itv e n).
Local Notation inL := (Core.inL f tag itv e n).
Local Notation inR := (Core.inR f tag itv e n).
Local Notation in_int := (Core.in_int f tag itv e n).
Local Notation found := (Core.found f tag itv e n).
Let hL : tag = left_closed_directed_tag -> itv = left_closed_right_open := fun _ => Hitv.
Lemma hR : tag = right_closed_directed_tag -> itv = right_closed_left_open. Proof. discriminate. Qed.

(** at the coincidence the code evaluates some checks and ignores their outcome *)
Lemma coincidence_returns z approx_x st : 
  match z with
  | not_compared_yet =>
      xi <- compute_mul cfg f (cx_significand cx) (cx_cache cx) (cx_minus_beta cx) ;;
      if Z.land xi 1 =? Z.land approx_x 1 then
        equal_fractional_parts cfg f (cx_tag cx) (cx_significand cx) (cx_exponent cx) (cx_minus_k cx) ;;;
        return_label st
      else return_label st
  | zf_larger => return_label st
  | zf_smaller => return_label st
  end = return_label st.
Proof.
  destruct z; try reflexivity.
  cbn [Core.cx cx_tag cx_significand cx_cache cx_minus_beta cx_exponent cx_minus_k].
  assert (EF : fc f n = lo_u f tag e n * unit f).
  { rewrite <- (left_endpoint_ok f tag itv e n He Hn hL hR). reflexivity. }
  rewrite EF.
  rewrite (mul_ok cfg f e n He Hn) by (try apply (lo_nonneg f tag itv e n Hn hL hR); apply (lo_lt f tag itv e n He Hn hL hR)).
  cbn [bind]. rewrite (equal_fractional_ok cfg f tag itv e n He Hn hL hR) by discriminate.
  destruct (_ =? _); reflexivity.
Qed.


Lemma inL_nonneg v : inL v = true -> 0 <= v.
Proof.
  pose proof (X_nonneg f tag itv e n Hn hL hR) as X0. pose proof (HB e) as HB0.
  unfold Core.inL. rewrite orb_true_iff, andb_true_iff, Z.ltb_lt, Z.eqb_eq. nia.
Qed.

Lemma left_search_ok D approx_x ex z : 0 < D -> 4 * D < 2 ^ w -> forall fuel steps s r dl,
  0 <= steps <= 4 -> 0 <= dl <= deltai -> zi = s * D + (deltai - dl) -> 0 <= s ->
  steps + dl / D < Z.of_nat fuel ->
  exists t dl', left_closed_search fuel cfg f cx approx_x steps (mk_state s ex r D dl z) = Ok (t, ex)
    /\ zi = t * D + (deltai - dl') /\ t <= s /\ (t = s \/ 0 < dl')
    /\ ((steps = 0 -> dl < D) -> dl' < D \/ (exists S, 1 <= S <= 4 /\ dl' = S * D)).
Proof using He Hn Hitv hL.
  intros HD HDw. induction fuel as [|fuel IH]; intros steps s r dl Hs Hdl Hz Hs0 Hfuel.
  { pose proof (Z.div_pos dl D ltac:(lia) HD). lia. }
  cbn [left_closed_search st_divisor st_deltai st_significand st_exponent st_r st_zf_vs_deltaf].
  destruct (Z.eqb_spec steps 0) as [S0|S0].
  { exists s, dl. split; [reflexivity|]. repeat split; try lia; auto. }
  assert (HsD : D <= steps * D <= 4 * D) by nia.
  rewrite (wrap_small w (steps * D)) by lia.
  destruct (Z.ltb_spec dl (steps * D)) as [L|L].
  { destruct (IH (steps / 2) s r dl) as (t & dl' & Et & Ez & Lt & Hp & Hd); try assumption.
    - split; [apply Z.div_pos; lia|]. assert (steps / 2 <= steps) by (apply Z.div_le_upper_bound; lia). lia.
    - assert (steps / 2 < steps) by (apply Z.div_lt; lia). lia.
    - exists t, dl'. split; [exact Et|]. repeat split; try assumption. intros _. apply Hd.
      intros S2. assert (steps = 1); [|lia]. apply Z.div_small_iff in S2; lia. }
  destruct (Z.eqb_spec (steps * D) dl) as [E|E].
  { exists s, dl. rewrite coincidence_returns. split; [reflexivity|]. repeat split; try lia.
    intros _. right. exists steps. lia. }
  pose proof (deltai_small f tag itv e n He hL hR) as [_ DS].
  pose proof (zi_small f tag itv e n He Hn hL hR) as [Z0 Z1].
  assert (Hu32 : unit f <= 512) by (destruct (unit_vals f); lia).
  assert (Hnext : zi = (s - steps) * D + (deltai - (dl - steps * D))) by lia.
  assert (Hs1 : 0 <= s - steps).
  { assert (I : inL (zi - (deltai - (dl - steps * D))) = true) by (apply (inL_lt f tag itv e n hL hR); lia).
    apply inL_nonneg in I.
    assert (I2 : 0 <= (s - steps) * D) by lia. apply Z.mul_nonneg_cancel_r in I2; lia. }
  assert (Hsw : s < 2 ^ w).
  { assert (s * 1 <= s * D) by (apply Z.mul_le_mono_nonneg_l; lia). lia. }
  rewrite (wrap_small w (s - steps)) by lia.
  rewrite (wrap_small 32 (steps * D)) by lia.
  rewrite (wrap_small 32 (dl - steps * D)) by lia.
  destruct (IH steps (s - steps) r (dl - steps * D)) as (t & dl' & Et & Ez & Lt & Hp & Hd); try lia.
  { replace (dl - steps * D) with (dl + (- steps) * D) by ring. rewrite Z.div_add by lia. lia. }
  exists t, dl'. split; [exact Et|]. split; [exact Ez|]. split; [lia|]. split.
  - right. destruct Hp as [->|Hp]; [|exact Hp]. lia.
  - intros _. apply Hd. lia.
Qed.

(** the left-closed search from a candidate of the interval *)
Lemma left_from kap s r z :
  cares crs = true ->
  min_kappa f <= kap <= top_kappa f -> deltai < 10 ^ (kap + 1) ->
  zi = s * 10 ^ kap + r -> 0 <= r <= 10 ^ kap -> in_int (s * 10 ^ kap) = true ->
  exists t, correct_rounding_search_label cfg f cx (mk_state s (kap - kexp e) r (10 ^ kap) deltai z) = Ok (t, kap - kexp e)
    /\ in_int (t * 10 ^ kap) = true
    /\ (no_coarser f tag itv e n kap ->
        (forall u, in_int (u * 10 ^ kap) = true -> t <= u) \/ (exists S, 1 <= S <= 4 /\ (t - S) * 10 ^ kap = zi - deltai))
    /\ (forall u, u * 10 ^ kap = zi - deltai -> u < s -> u < t).
Proof using He Hn Hitv hL.
  intros Hcares Hk DL Ez Hr Hin.
  assert (M0 : 0 <= min_kappa f) by (destruct f; discriminate).
  pose proof (pow10_pos kap ltac:(lia)) as HD.
  assert (ED1 : 10 ^ (kap + 1) = 10 * 10 ^ kap) by (rewrite Z.pow_add_r by lia; ring).
  assert (HDw : 4 * 10 ^ kap < 2 ^ w).
  { apply Z.le_lt_trans with (4 * 10 ^ top_kappa f); [|destruct f; reflexivity].
    apply Z.mul_le_mono_nonneg_l; [lia|]. apply Z.pow_le_mono_r; lia. }
  pose proof Hin as Hin'. apply andb_true_iff in Hin'. destruct Hin' as [IL IR].
  pose proof (inL_nonneg _ IL) as Hs. assert (Hs0 : 0 <= s) by nia.
  pose proof (deltai_small f tag itv e n He hL hR) as [_ DS].
  assert (Hu32 : unit f <= 512) by (destruct (unit_vals f); lia).
  pose proof (zi_small f tag itv e n He Hn hL hR) as [Z0 Z1].
  assert (Hrd : 0 <= r <= deltai).
  { split; [lia|]. destruct (Z.le_gt_cases r deltai) as [|G]; [assumption|].
    apply (inL_gt f tag itv e n hL hR) in G. replace (zi - r) with (s * 10 ^ kap) in G by lia. congruence. }
  unfold correct_rounding_search_label. cbn [Core.cx cx_crs cx_tag cx_zi st_deltai st_r st_significand st_exponent st_divisor st_zf_vs_deltaf].
  rewrite Hcares. rewrite (wrap_small 32 r) by lia. rewrite (wrap_small 32 (deltai - r)) by lia.
  fold cx.
  pose proof (Z.mod_pos_bound s 10 ltac:(lia)) as Md. pose proof (Z.div_mod s 10 ltac:(lia)) as Dd.
  assert (Hst : 0 <= s mod 10 / 2 <= 4).
  { split; [apply Z.div_pos; lia|].
    assert (s mod 10 / 2 < 5) by (apply Z.div_lt_upper_bound; lia). lia. }
  destruct (left_search_ok (10 ^ kap) (wrap w (zi - (deltai - r))) (kap - kexp e) z HD HDw 64
              (s mod 10 / 2) s r (deltai - r)) as (t & dl' & Et & Et2 & Lt & Hp & Hd); try lia.
  { assert ((deltai - r) / 10 ^ kap < 10); [|lia]. apply Z.div_lt_upper_bound; lia. }
  exists t. split; [exact Et|].
  assert (IT : in_int (t * 10 ^ kap) = true).
  { destruct Hp as [->|Hp]; [exact Hin|]. unfold Core.in_int. apply andb_true_iff. split.
    - replace (t * 10 ^ kap) with (zi - (deltai - dl')) by lia. apply (inL_lt f tag itv e n hL hR). lia.
    - destruct (Z.eq_dec t s) as [->|]; [exact IR|]. apply inR_lt.
      assert (t * 10 ^ kap < s * 10 ^ kap) by (apply Z.mul_lt_mono_pos_r; lia). 
      apply (inR_le f tag itv e n) in IR. lia. }
  split; [exact IT|]. split.
  2:{ intros u Hu Lu. destruct Hp as [->|Hp]; [exact Lu|]. apply Z.mul_lt_mono_pos_r with (10 ^ kap); lia. }
  intros NC.
  assert (Hnc : inL (s / 10 * 10 ^ (kap + 1)) = false).
  { pose proof (NC (s / 10)) as G. unfold Core.in_int in G. apply andb_false_iff in G. destruct G as [G|G]; [exact G|].
    exfalso. assert (inR (s / 10 * 10 ^ (kap + 1)) = true); [|congruence].
    destruct (Z.eq_dec (s / 10 * 10 ^ (kap + 1)) (s * 10 ^ kap)) as [Q|Q]; [rewrite Q; exact IR|].
    apply inR_lt. assert (s / 10 * 10 ^ (kap + 1) <= s * 10 ^ kap); [|lia]. rewrite ED1.
    replace (s / 10 * (10 * 10 ^ kap)) with (s / 10 * 10 * 10 ^ kap) by ring. apply Z.mul_le_mono_nonneg_r; lia. }
  assert (Hd0 : s mod 10 <> 0).
  { intros Q. rewrite ED1 in Hnc. replace (s / 10 * (10 * 10 ^ kap)) with (s * 10 ^ kap) in Hnc; [congruence|].
    rewrite Dd at 1. rewrite Q. ring. }
  destruct (Z.eq_dec (s mod 10) 1) as [M1|M1].
  { (* the next lower candidate would be coarser *)
    rewrite M1 in Et. change (1 / 2) with 0 in Et. cbn [left_closed_search Z.eqb] in Et.
    unfold return_label in Et. cbn [st_significand st_exponent] in Et.
    assert (t = s) by congruence. subst t. left.
    intros u Hu. apply andb_true_iff in Hu. destruct Hu as [UL _].
    destruct (Z.le_gt_cases s u) as [|G]; [assumption|exfalso].
    assert (inL (s / 10 * 10 ^ (kap + 1)) = true); [|congruence].
    apply inL_mono with (u * 10 ^ kap); [|exact UL]. rewrite ED1.
    replace (s / 10 * (10 * 10 ^ kap)) with ((s - 1) * 10 ^ kap); [|rewrite Dd at 1; rewrite M1; ring].
    apply Z.mul_le_mono_nonneg_r; lia. }
  destruct Hd as [Hd|(S & HS & Hd)]; [|left|right; exists S; lia].
  { intros Q. apply Z.div_small_iff in Q; lia. }
  intros u Hu. apply andb_true_iff in Hu. destruct Hu as [UL _].
  destruct (Z.le_gt_cases t u) as [|G]; [assumption|exfalso].
  assert (inL (zi - (deltai - dl' + 10 ^ kap)) = true).
  { apply inL_mono with (u * 10 ^ kap); [|exact UL].
    replace (zi - (deltai - dl' + 10 ^ kap)) with ((t - 1) * 10 ^ kap) by lia. apply Z.mul_le_mono_nonneg_r; lia. }
  rewrite (inL_gt f tag itv e n hL hR) in H by lia. discriminate.
Qed.

(** the result is a shortest decimal, and the one closest to x unless the lower end of the search
    range is itself a multiple of the step *)
Theorem left_result :
  cares crs = true ->
  (forall kap, found kap -> tag <> right_closed_directed_tag -> zi mod 10 ^ kap = 0 ->
     right_check cfg f tag e n = Ok (divb B Zr)) ->
  exists kap t, compute_tail cfg f tag crs itv e n = Ok (t, kap - kexp e)
    /\ min_kappa f <= kap <= top_kappa f
    /\ in_int (t * 10 ^ kap) = true /\ no_coarser f tag itv e n kap
    /\ ((forall u, in_int (u * 10 ^ kap) = true -> t <= u) \/ (exists S, 1 <= S <= 4 /\ (t - S) * 10 ^ kap = zi - deltai))
    /\ (forall u, u * 10 ^ kap = zi - deltai -> in_int ((u + 1) * 10 ^ kap) = true -> u < t).
Proof using He Hn Hitv hL.
  intros Hcares Hri.
  destruct (positions cfg f tag crs itv e n He Hn hL hR Hri)
    as (kap & s & r & z & Hk & NC & DL & Ez & Hr & Hin & Hmax & E).
  destruct E as (r' & Er & E); [discriminate|]. specialize (Er eq_refl Hcares). subst r'.
  destruct (left_from kap s r z Hcares Hk DL Ez ltac:(lia) Hin) as (t & Et & IT & HC & HM).
  exists kap, t. rewrite E. repeat split; try assumption; try lia; [apply HC; exact NC|].
  intros u Hu Hu1. apply HM; [exact Hu|]. specialize (Hmax _ Hu1). lia.
Qed.

(** a right end point test that answers [true] at a multiple of 10^kap *)
Lemma adjust_wrong kap z : found kap -> zi mod 10 ^ kap = 0 -> right_check cfg f tag e n = Ok true ->
  exists k', min_kappa f <= k' <= kap /\ 10 ^ k' <= deltai /\ deltai < 10 ^ (k' + 1) /\
    boundary_adjustment_label cfg f cx (state_at f tag e n kap z)
    = correct_rounding_search_label cfg f cx
        (mk_state (wrap w (zi / 10 ^ k' - 1)) (k' - kexp e) (if cares crs then 10 ^ k' else 0) (10 ^ k') deltai z).
Proof using He Hn Hitv hL.
  intros (Hk & Hok & Hno) R0 RC.
  assert (M0 : 0 <= min_kappa f) by (destruct f; discriminate).
  pose proof (pow10_pos kap ltac:(lia)) as PD.
  assert (Dk : (10 ^ kap | zi)) by (apply Z.mod_divide; [lia | exact R0]).
  assert (Kt : kap < Z.of_nat 64) by (unfold top_kappa in Hk; destruct f; lia).
  destruct (ba_loop f tag crs itv e n He Hn hL hR z ltac:(discriminate) 64 kap Dk ltac:(lia)) as (k' & R1 & R2 & R3 & R4).
  exists k'. split; [exact R1|]. split; [exact R2|]. split.
  { destruct R3 as [->|R3]; [|exact R3]. apply (deltai_lt_found f tag itv e n hL hR); [lia | exact Hno]. }
  assert (IRf : include_right_endpoint itv = false) by (rewrite Hitv; reflexivity).
  unfold boundary_adjustment_label. cbn [Core.cx cx_interval cx_tag cx_fr cx_exponent cx_minus_k cx_crs state_at st_r].
  rewrite R0, IRf. cbn [negb andb Z.eqb].
  unfold right_check in RC. rewrite RC. cbn [bind].
  unfold state_at. rewrite R0, R4. cbn [bind st_significand st_exponent st_divisor st_deltai st_zf_vs_deltaf st_r].
  destruct (cares crs); reflexivity.
Qed.

(** a right end point test that does not answer *)
Lemma adjust_stop kap z : found kap -> zi mod 10 ^ kap = 0 -> forall o,
  right_check cfg f tag e n = o -> (forall b, o <> Ok b) ->
  boundary_adjustment_label cfg f cx (state_at f tag e n kap z)
  = match o with Ok _ => AssertFailed | AssertFailed => AssertFailed | Undefined => Undefined | Diverged => Diverged end.
Proof using Hitv.
  intros _ R0 o RC Ho.
  assert (IRf : include_right_endpoint itv = false) by (rewrite Hitv; reflexivity).
  unfold boundary_adjustment_label. cbn [Core.cx cx_interval cx_tag cx_fr cx_exponent cx_minus_k cx_crs state_at st_r].
  rewrite R0, IRf. cbn [negb andb Z.eqb].
  unfold right_check in RC. rewrite RC. destruct o; try reflexivity. exfalso. apply (Ho a). reflexivity.
Qed.

(** when the end point test wrongly reports an integer, or stops the program: the result, if any,
    still lies in the interval *)
Theorem left_in_interval res :
  (forall j, 0 <= j -> deltai = 10 ^ j -> (10 ^ j | zi) -> inL (zi - deltai) = true) ->
  (forall kap, found kap -> zi mod 10 ^ kap = 0 -> forall b, right_check cfg f tag e n = Ok b -> b = true \/ b = divb B Zr) ->
  compute_tail cfg f tag crs itv e n = Ok res ->
  exists kap t, res = (t, kap - kexp e) /\ min_kappa f <= kap <= top_kappa f /\ in_int (t * 10 ^ kap) = true.
Proof using He Hn Hitv hL.
  intros Hcoin Hb Hres.
  assert (Good : (forall kap, found kap -> tag <> right_closed_directed_tag -> zi mod 10 ^ kap = 0 ->
     right_check cfg f tag e n = Ok (divb B Zr)) ->
     exists kap t, res = (t, kap - kexp e) /\ min_kappa f <= kap <= top_kappa f /\ in_int (t * 10 ^ kap) = true).
  { intros Hri. destruct (cares crs) eqn:Hc.
    - destruct (left_result Hc Hri) as (kap & t & Et & Hk & Hin & _).
      exists kap, t. rewrite Et in Hres. split; [congruence | split; assumption].
    - destruct (largest_result cfg f tag crs itv e n He Hn hL hR Hri (or_introl Hc)) as (kap & t & Et & Hk & Hin & _).
      exists kap, t. rewrite Et in Hres. split; [congruence | split; assumption]. }
  destruct (search_result cfg f tag crs itv e n He Hn hL hR) as (kap & z & Hf & Hzf & E).
  pose proof Hf as (Hk & Hok & Hno).
  assert (M0 : 0 <= min_kappa f) by (destruct f; discriminate).
  assert (Hk0 : 0 <= kap) by lia.
  pose proof (pow10_pos kap Hk0) as PD.
  destruct (Z.eq_dec (zi mod 10 ^ kap) 0) as [R0|R0].
  2:{ apply Good. intros k2 (K2a & K2b & K2c) _ K2d. exfalso.
      assert (k2 = kap).
      { destruct (Z.lt_trichotomy k2 kap) as [G|[G|G]]; [|exact G|].
        - rewrite (okb_anti f tag itv e n (k2 + 1) kap) in K2c by (assumption || lia). discriminate.
        - rewrite (okb_anti f tag itv e n (kap + 1) k2) in Hno by (assumption || lia). discriminate. }
      subst k2. contradiction. }
  rewrite E in Hres. unfold after_search in Hres. rewrite andb_false_r in Hres. cbn [andb] in Hres.
  assert (Dk : (10 ^ kap | zi)) by (apply Z.mod_divide; [lia | exact R0]).
  assert (RC : right_check cfg f tag e n = Ok true \/ right_check cfg f tag e n = Ok (divb B Zr)).
  { destruct (right_check cfg f tag e n) as [b| | |] eqn:RC.
    - destruct (Hb kap Hf R0 b eq_refl) as [->| ->]; auto.
    - exfalso. rewrite (adjust_stop kap z Hf R0 AssertFailed RC) in Hres by discriminate. discriminate.
    - exfalso. rewrite (adjust_stop kap z Hf R0 Undefined RC) in Hres by discriminate. discriminate.
    - exfalso. rewrite (adjust_stop kap z Hf R0 Diverged RC) in Hres by discriminate. discriminate. }
  destruct RC as [RC|RC]; [|apply Good; intros; exact RC].
  destruct (adjust_wrong kap z Hf R0 RC) as (k' & R1 & R2 & DL & EA). rewrite EA in Hres.
  pose proof (pow10_pos k' ltac:(lia)) as P'.
  assert (Dk' : (10 ^ k' | zi)).
  { eapply Z.divide_trans; [|exact Dk]. exists (10 ^ (kap - k')). rewrite <- Z.pow_add_r by lia. f_equal; lia. }
  assert (IL : inL (zi - 10 ^ k') = true).
  { destruct (Z.lt_ge_cases (10 ^ k') deltai) as [L|L]; [apply (inL_lt f tag itv e n hL hR); exact L|].
    assert (ED : deltai = 10 ^ k') by lia. rewrite <- ED. apply (Hcoin k'); [lia | exact ED | exact Dk']. }
  assert (Em : zi = zi / 10 ^ k' * 10 ^ k').
  { destruct Dk' as [c ->]. rewrite Z.div_mul by lia. reflexivity. }
  assert (Es : (zi / 10 ^ k' - 1) * 10 ^ k' = zi - 10 ^ k') by lia.
  assert (IN : in_int ((zi / 10 ^ k' - 1) * 10 ^ k') = true).
  { rewrite Es. unfold Core.in_int. rewrite IL. apply inR_lt. lia. }
  pose proof (inL_nonneg _ IL) as N0.
  pose proof (zi_small f tag itv e n He Hn hL hR) as [Z0 Z1].
  assert (S1 : 0 <= zi / 10 ^ k' - 1) by nia.
  assert (WS : wrap w (zi / 10 ^ k' - 1) = zi / 10 ^ k' - 1).
  { apply wrap_small. split; [exact S1|].
    assert (zi / 10 ^ k' <= zi); [|lia]. apply Z.div_le_upper_bound; [lia|].
    rewrite <- (Z.mul_1_l zi) at 1. apply Z.mul_le_mono_nonneg_r; lia. }
  rewrite WS in Hres.
  exists k'. destruct (cares crs) eqn:Hc.
  - rewrite ?Hc in Hres. destruct (left_from k' (zi / 10 ^ k' - 1) (10 ^ k') z Hc ltac:(lia) DL ltac:(lia) ltac:(lia) IN) as (t & Et & IT & _).
    exists t. rewrite Et in Hres. split; [congruence|]. split; [lia | exact IT].
  - exists (zi / 10 ^ k' - 1). unfold correct_rounding_search_label in Hres.
    cbn [Core.cx cx_crs] in Hres. rewrite Hc in Hres. unfold return_label in Hres. cbn [st_significand st_exponent] in Hres.
    split; [congruence|]. split; [lia | exact IN].
Qed.
End Left.
