(** * The verification programs of the tests report success in every build *)

From Coq Require Import ZArith Reals List Bool Lia.
From Verif Require Import Machine Model BigintModel CheckModel Arith ExpFacts Products Core EdgeCheck Directed Link Spec Bridge Results Claims Builds BigFacts.
Import ListNotations.
Open Scope Z_scope.

(** ** verify_delta_computation *)
Lemma int_loop_quiet {R} (body : Z -> Datatypes.unit -> outcome (Datatypes.unit + R)) n : forall i, (forall j, i <= j < i + Z.of_nat n -> body j tt = Ok (inl tt)) ->
  int_loop body i n tt = Ok (inl tt).
Proof.
  induction n as [|n IH]; intros i H; [reflexivity|]. cbn [int_loop]. rewrite H by lia. cbn [bind]. apply IH. intros j Hj. apply H. lia.
Qed.
Lemma deltas_agree cfg f k : min_k f <= k <= max_k f -> exists d, two_deltas cfg f k = Ok (d, d).
Proof.
  intros Hk'. unfold two_deltas. rewrite get_cache_ok by exact Hk'. cbn [bind].
  rewrite compute_mul_exact by (try exact Hk'; destruct f; vm_compute; split; (discriminate || reflexivity)). cbn [bind].
  rewrite compute_delta_exact by (try exact Hk'; destruct f; vm_compute; split; discriminate). cbn [bind].
  replace (delta_units to_nearest_tag true * unit f) with (fdelta f) by (destruct f; reflexivity). eexists. reflexivity.
Qed.
Lemma delta_verified cfg f : verify_delta cfg f = Ok true.
Proof.
  unfold verify_delta. rewrite int_loop_quiet; [reflexivity|]. intros k Hk.
  destruct (deltas_agree cfg f k) as (d & ->).
  { rewrite Z2Nat.id in Hk by (destruct f; vm_compute; discriminate). lia. }
  cbn [bind fst snd]. rewrite Z.eqb_refl. reflexivity.
Qed.

(** ** The power of two with exponent e *)
Section Power.
Variables (f : fmt) (e : Z).
Hypothesis He : exp_min f <= e <= exp_max f.
Local Notation n := (2 ^ precision f).
Local Notation T := to_nearest_tag.
Local Notation hi := (scaled f (4 * 2 ^ precision f + 2) e).
Local Notation lo := (scaled f (lo_u f T e (2 ^ precision f)) e).

(** 10^kap * v is inside the open interval, and nothing coarser is in the closed one *)
Definition chosen_with (h l kap v : Z) : bool :=
  (0 <=? kap) && (l <? v * 10 ^ kap) &&
  ((v * 10 ^ kap <? h) || (if v * 10 ^ kap =? h then negb (divb (den e) ((4 * 2 ^ precision f + 2) * ulp f e)) else false)) &&
  (let c := h - h mod 10 ^ (kap + 1) in
   (c <? l) || (if c =? l then negb (divb (den e) (lo_u f T e (2 ^ precision f) * ulp f e)) else false)).
Definition chosen (kap v : Z) : bool := chosen_with hi lo kap v.

Lemma Hn : 0 < n < 2 ^ (precision f + 1). Proof using. clear e He. destruct f; vm_compute; split; reflexivity. Qed.
Lemma lo_range : 0 <= lo_u f T e n <= 2 ^ (precision f + 4).
Proof using. clear He. unfold lo_u. destruct (is_edge f e n), f; vm_compute; split; discriminate. Qed.
Lemma hi_is : hi = Core.zi f T e n.
Proof using He. rewrite scaled_ok; [reflexivity | exact He | destruct f; vm_compute; split; discriminate]. Qed.
Lemma lo_is : lo = Core.X f T e n / den e.
Proof using He. rewrite scaled_ok; [reflexivity | exact He | apply lo_range]. Qed.

Lemma chosen_open kap v : chosen kap v = true -> in_int f T open e n (v * 10 ^ kap) = true.
Proof using He.
  unfold chosen, chosen_with. rewrite !andb_true_iff. intros [[[_ L] R] _]. unfold in_int. apply andb_true_iff.
  pose proof (HB e) as B0. rewrite lo_is in L. rewrite hi_is in R. unfold inL, inR. cbn [include_left_endpoint include_right_endpoint andb].
  rewrite !orb_false_r. rewrite !Z.ltb_lt. apply Z.ltb_lt in L. split.
  - pose proof (Z.mul_succ_div_gt (Core.X f T e n) (den e) B0). nia.
  - unfold Core.zi in R. pose proof (Z.mul_div_le (Z_ f T e n) (den e) B0) as M. apply orb_true_iff in R. destruct R as [R|R].
    + apply Z.ltb_lt in R. nia.
    + destruct (Z.eqb_spec (v * 10 ^ kap) (Z_ f T e n / den e)) as [R'|]; [|discriminate]. rename R into D. rename R' into R. apply negb_true_iff in D.
      change ((4 * n + 2) * ulp f e) with (Z_ f T e n) in D.
      destruct (Z.eq_dec (v * 10 ^ kap * den e) (Z_ f T e n)) as [Q|Q]; [|nia].
      exfalso. assert (DD : (den e | Z_ f T e n)) by (exists (v * 10 ^ kap); congruence).
      apply (proj2 (divb_true _ _ B0)) in DD. congruence.
Qed.
Lemma chosen_closed kap v : chosen kap v = true -> no_coarser f T closed e n kap.
Proof using He.
  unfold chosen, chosen_with. rewrite !andb_true_iff. cbv zeta. intros [[[K _] _] R]. apply Z.leb_le in K. apply no_coarser_found; [exact K|].
  unfold okb. rewrite hi_is in R. rewrite lo_is in R. set (c := Core.zi f T e n - Core.zi f T e n mod 10 ^ (kap + 1)) in *. clearbody c.
  pose proof (HB e) as B0. pose proof (Z.mul_div_le (Core.X f T e n) (den e) B0) as M.
  unfold inL. cbn [include_left_endpoint andb]. apply orb_false_iff. rewrite Z.ltb_ge, Z.eqb_neq. apply orb_true_iff in R. destruct R as [R|R].
  - apply Z.ltb_lt in R. nia.
  - destruct (Z.eqb_spec c (Core.X f T e n / den e)) as [R'|]; [|discriminate]. rename R into D. rename R' into R. apply negb_true_iff in D.
    change (lo_u f T e n * ulp f e) with (Core.X f T e n) in D. subst c. split; [lia|]. intros Q.
    assert (DD : (den e | Core.X f T e n)) by (exists (Core.X f T e n / den e); exact Q).
    apply (proj2 (divb_true _ _ B0)) in DD. congruence.
Qed.
Lemma open_closed v : in_int f T open e n v = true -> in_int f T closed e n v = true.
Proof using.
  clear He. unfold in_int, inL, inR. cbn [include_left_endpoint include_right_endpoint andb]. rewrite !orb_false_r, !andb_true_iff, !orb_true_iff. tauto.
Qed.
Lemma chosen_kappa cfg crs itv kap v : cares crs = false -> itv = symmetric_boundary false \/ itv = symmetric_boundary true -> chosen kap v = true ->
  exists t, compute_tail cfg f T crs itv e n = Ok (t, kap - kexp e).
Proof using He.
  intros Hc Hi C. pose proof (chosen_open kap v C) as CO. pose proof (chosen_closed kap v C) as CC.
  assert (K0 : 0 <= kap) by (unfold chosen, chosen_with in C; rewrite !andb_true_iff in C; apply Z.leb_le, C).
  assert (IO : forall u, in_int f T itv e n u = true -> in_int f T closed e n u = true) by (destruct Hi as [-> | ->]; [exact open_closed | exact (fun u H => H)]).
  assert (OI : forall u, in_int f T open e n u = true -> in_int f T itv e n u = true) by (destruct Hi as [-> | ->]; [exact (fun u H => H) | exact open_closed]).
  destruct (largest_result cfg f T crs itv e n He Hn) as (k' & t & Et & Hk & I1 & NC & _); try discriminate.
  { intros k _ _ _. apply (right_integer_ok cfg f T itv e n He Hn); discriminate. }
  { left. exact Hc. }
  exists t. rewrite Et. do 2 f_equal. assert (M0 : 0 <= min_kappa f) by (destruct f; discriminate).
  assert (Q : forall a b u, 0 <= a -> a < b -> u * 10 ^ b = u * 10 ^ (b - (a + 1)) * 10 ^ (a + 1)).
  { intros a b u Ha Hab. rewrite <- Z.mul_assoc, <- Z.pow_add_r by lia. do 2 f_equal. lia. }
  destruct (Z.lt_trichotomy k' kap) as [L|[L|L]]; [exfalso | lia | exfalso].
  - specialize (NC (v * 10 ^ (kap - (k' + 1)))). rewrite <- Q in NC by lia. rewrite (OI _ CO) in NC. discriminate.
  - specialize (CC (t * 10 ^ (k' - (kap + 1)))). rewrite <- Q in CC by lia. rewrite (IO _ I1) in CC. discriminate.
Qed.
End Power.

(** ** Other builds *)
Section Programs.
Variables (cfg cfg' : config).
Hypothesis Hd : cfg_ndebug cfg = false.

Lemma int_loop_below {S R} (body body' : Z -> S -> outcome (S + R)) : (forall i s, below (body i s) (body' i s)) ->
  forall n i s, below (int_loop body i n s) (int_loop body' i n s).
Proof using.
  intros H. induction n as [|n IH]; intros i s; [apply below_refl|]. cbn [int_loop]. apply below_bind; [apply H|].
  intros [s'|r] _; [apply IH | apply below_refl].
Qed.
Lemma log10_below e : below (floor_log10_pow2 cfg e) (floor_log10_pow2 cfg' e).
Proof using Hd. unfold floor_log10_pow2. apply below_bind; [apply cassert_below, Hd | intros; apply below_refl]. Qed.
Lemma log2_below e : below (floor_log2_pow10 cfg e) (floor_log2_pow10 cfg' e).
Proof using Hd. unfold floor_log2_pow10. apply below_bind; [apply cassert_below, Hd | intros; apply below_refl]. Qed.

Lemma right_word f : word f (Z.lor (sign_bit_mask f) (boundary_bit f)). Proof using. destruct f; vm_compute; split; (discriminate || reflexivity). Qed.
Lemma left_word f : word f (sign_bit_mask f - edge_case_boundary_bit f). Proof using. destruct f; vm_compute; split; (discriminate || reflexivity). Qed.

Lemma examine_below f e : below (examine cfg f e) (examine cfg' f e).
Proof using Hd.
  unfold examine. cbv zeta. apply below_bind; [apply log10_below|]. intros l _. apply below_bind; [apply log2_below|]. intros l' _.
  apply below_bind; [apply (grisu_exact_below cfg cfg' Hd)|]. intros h _. apply below_bind; [apply (grisu_exact_below cfg cfg' Hd)|]. intros g _.
  apply below_if; [apply below_refl|]. apply below_bind; [intros c E; apply (get_cache_facts cfg cfg' Hd f _ c E)|]. intros c _.
  apply below_bind; [apply cassert_below, Hd | intros; apply below_refl].
Qed.
Lemma examine_cache f e e' k beta kappa divisor c : examine cfg f e = Ok (Some (e', k, beta, kappa, divisor, c)) -> cache_ok f c.
Proof using Hd.
  unfold examine. cbv zeta. destruct (floor_log10_pow2 _ _) as [l| | |]; try discriminate. cbn [bind].
  destruct (floor_log2_pow10 _ _) as [l'| | |]; try discriminate. cbn [bind].
  destruct (grisu_exact cfg f true nearest_to_odd _ _ _) as [h| | |]; try discriminate. cbn [bind].
  destruct (grisu_exact cfg f true nearest_to_even _ _ _) as [g| | |]; try discriminate. cbn [bind].
  destruct (negb _); [discriminate|]. destruct (get_cache cfg f (- l)) as [c'| | |] eqn:E; try discriminate. cbn [bind].
  destruct (cassert _ _) as [[]| | |]; try discriminate. cbn [bind]. intros H. assert (c' = c) by congruence. subst c'.
  apply (get_cache_facts cfg cfg Hd) in E. apply E.
Qed.
Lemma n_prime_eq f beta divisor c : cache_ok f c -> n_prime cfg f beta divisor c = n_prime cfg' f beta divisor c.
Proof using. intros H. unfold n_prime. rewrite (mul_eq cfg cfg' f _ _ _ (right_word f) H). reflexivity. Qed.
Lemma coincidence_below f e k beta divisor c : cache_ok f c -> below (coincidence cfg f e k beta divisor c) (coincidence cfg' f e k beta divisor c).
Proof using Hd.
  intros H. unfold coincidence. cbv zeta. rewrite (mul_eq cfg cfg' f _ _ _ (right_word f) H).
  apply below_bind; [apply below_refl|]. intros rd _. apply below_bind; [apply below_refl|]. intros zi _.
  apply below_bind; [apply below_refl|]. intros d _. apply below_bind; [apply below_refl|]. intros b _.
  apply below_bind; [apply below_refl|]. intros r _. apply below_if; [|apply below_refl]. apply below_if; [|apply below_refl].
  rewrite (mul_eq cfg cfg' f _ _ _ (left_word f) H). apply below_bind; [apply below_refl|]. intros m _.
  apply below_if; [apply below_refl|]. apply below_bind; [apply (equal_fractional_below cfg cfg' Hd), left_word | intros; apply below_refl].
Qed.
Lemma bound_below f : below (verify_bound cfg f) (verify_bound cfg' f).
Proof using Hd.
  unfold verify_bound. apply below_bind; [|intros; apply below_refl]. apply int_loop_below. intros i s.
  apply below_bind; [apply examine_below|]. intros [[[[[[e k] beta] kappa] divisor] c]|] E; [|apply below_refl].
  rewrite (n_prime_eq f beta divisor c (examine_cache _ _ _ _ _ _ _ _ E)). apply below_refl.
Qed.
Lemma removal_below f : below (verify_removal cfg f) (verify_removal cfg' f).
Proof using Hd.
  unfold verify_removal. cbv zeta. apply below_bind; [|intros; apply below_refl]. apply int_loop_below. intros i s.
  apply below_bind; [apply examine_below|]. intros [[[[[[e k] beta] kappa] divisor] c]|] E; [|apply below_refl].
  apply below_bind; [apply coincidence_below, (examine_cache _ _ _ _ _ _ _ _ E) | intros; apply below_refl].
Qed.
End Programs.

(** ** One sweep for two programs *)
Section Sweep.
Variables (cfg : config) (f : fmt).

Definition row (i : Z) : outcome (Z * option Z * option comparison_of_fractions) :=
  x <- examine cfg f i ;;
  match x with
  | None => Diverged
  | Some (e, k, beta, kappa, divisor, cache) =>
      np <- n_prime cfg f beta divisor cache ;;
      c <- coincidence cfg f e k beta divisor cache ;;
      Ok (e, if (5 <=? np) && negb (kappa =? 0) then Some np else None, c)
  end.
Fixpoint sweep (i : Z) (n : nat) : outcome (list (Z * option Z * option comparison_of_fractions)) :=
  match n with
  | O => Ok []
  | S n' =>
      r <- row i ;; l <- sweep (i + 1) n' ;;
      Ok (match r with (_, None, None) => l | _ => r :: l end)
  end.

Definition bound_step (st : bool * list (Z * Z)) (r : Z * option Z * option comparison_of_fractions) : bool * list (Z * Z) :=
  match r with
  | (e, Some np, _) => (match f with Binary32 => false | Binary64 => if 6 <=? np then false else fst st end, (np, e) :: snd st)
  | _ => st
  end.
Definition removal_step (special : Z) (st : bool * list (Z * comparison_of_fractions)) (r : Z * option Z * option comparison_of_fractions) : bool * list (Z * comparison_of_fractions) :=
  match r with
  | (e, _, Some c) =>
      (if match c with fraction_larger => e =? special | _ => negb (e =? special) end then fst st else false, (e, c) :: snd st)
  | _ => st
  end.

Lemma sweep_bound : forall n i l st, sweep i n = Ok l ->
  int_loop (fun e_shifted (st : bool * list (Z * Z)) =>
         x <- examine cfg f e_shifted ;;
         match x with
         | None => Ok (inr (false, snd st))
         | Some (e, _, beta, kappa, divisor, cache) =>
             np <- n_prime cfg f beta divisor cache ;;
             Ok (inl (if (5 <=? np) && negb (kappa =? 0) then
                        (match f with Binary32 => false | Binary64 => if 6 <=? np then false else fst st end, (np, e) :: snd st)
                      else st))
         end) i n st = Ok (inl (fold_left bound_step l st)).
Proof using.
  induction n as [|n IH]; intros i l st H; cbn [sweep int_loop] in *.
  - injection H as <-. reflexivity.
  - unfold row in H. destruct (examine cfg f i) as [[[[[[[e k] beta] kappa] divisor] c]|]| | |]; cbn [bind] in H |- *; try discriminate.
    destruct (n_prime cfg f beta divisor c) as [np| | |]; cbn [bind] in H |- *; try discriminate.
    destruct (coincidence cfg f e k beta divisor c) as [co| | |]; cbn [bind] in H |- *; try discriminate.
    destruct (sweep (i + 1) n) as [l'| | |] eqn:E; cbn [bind] in H; try discriminate. rewrite (IH (i + 1) l' _ E). injection H as <-.
    destruct ((5 <=? np) && negb (kappa =? 0)), co; reflexivity.
Qed.
Lemma sweep_removal : forall n i l st, sweep i n = Ok l ->
  int_loop (fun e_shifted (st : bool * list (Z * comparison_of_fractions)) =>
         x <- examine cfg f e_shifted ;;
         match x with
         | None => Ok (inr (false, snd st))
         | Some (e, k, beta, _, divisor, cache) =>
             c <- coincidence cfg f e k beta divisor cache ;;
             Ok (inl (match c with
                      | None => st
                      | Some c =>
                          let ok := match c with fraction_larger => e =? match f with Binary32 => 59 | Binary64 => -203 end
                                    | _ => negb (e =? match f with Binary32 => 59 | Binary64 => -203 end) end in
                          (if ok then fst st else false, (e, c) :: snd st)
                      end))
         end) i n st = Ok (inl (fold_left (removal_step (match f with Binary32 => 59 | Binary64 => -203 end)) l st)).
Proof using.
  induction n as [|n IH]; intros i l st H; cbn [sweep int_loop] in *.
  - injection H as <-. reflexivity.
  - unfold row in H. destruct (examine cfg f i) as [[[[[[[e k] beta] kappa] divisor] c]|]| | |]; cbn [bind] in H |- *; try discriminate.
    destruct (n_prime cfg f beta divisor c) as [np| | |]; cbn [bind] in H |- *; try discriminate.
    destruct (coincidence cfg f e k beta divisor c) as [co| | |]; cbn [bind] in H |- *; try discriminate.
    destruct (sweep (i + 1) n) as [l'| | |] eqn:E; cbn [bind] in H; try discriminate. rewrite (IH (i + 1) l' _ E). injection H as <-.
    destruct ((5 <=? np) && negb (kappa =? 0)), co; reflexivity.
Qed.
End Sweep.


(** ** The sweep with cheap products *)
Definition debug : config := mk_config MulInt128 CtzBuiltin true false.

Section Fast.
Variable f : fmt.
Definition fast_n_prime (zi beta divisor : Z) (cache : cache_entry) : outcome Z :=
  epsiloni <- compute_delta f left_closed_directed_tag false cache (- beta + 1) ;;
  r <- remaining zi divisor ;; half <- dividing divisor 2 ;;
  let displacement := wrap (extended_precision f) (r + half) in
  if epsiloni <? displacement then Ok (-1)
  else q <- dividing (wrap (extended_precision f) (epsiloni - displacement)) divisor ;; Ok (to_int q).
Definition fast_coincidence (zi e k beta divisor : Z) (cache : cache_entry) : outcome (option comparison_of_fractions) :=
  let w := extended_precision f in
  rounded_down <- rounded_down f e k beta divisor cache ;;
  deltai <- compute_delta f to_nearest_tag true cache (- beta) ;;
  let approx_x := wrap w (zi - deltai) in
  right_bdy <- dividing zi divisor ;;
  r <- remaining zi divisor ;;
  if right_bdy =? wrap w (rounded_down + 1) then
    let distancei := wrap w (r + divisor) in
    if distancei =? deltai then
      let fl := sign_bit_mask f - edge_case_boundary_bit f in
      m <- compute_mul debug f fl cache (- beta) ;;
      if negb (Z.land m 1 =? Z.land approx_x 1) then Ok (Some fraction_smaller)
      else equal <- equal_fractional_parts debug f to_nearest_tag fl e (- k) ;;
           Ok (Some (if equal : bool then fraction_equal else fraction_larger))
    else Ok None
  else Ok None.

(** the largest kap such that a multiple of 10^kap is in (l, h] *)
Fixpoint coarsest (fuel : nat) (h l kap P : Z) : Z * Z :=
  match fuel with
  | O => (kap, P)
  | S fuel' => let P' := 10 * P in if h - h mod P' <=? l then (kap, P) else coarsest fuel' h l (kap + 1) P'
  end.
Definition fast_row (e : Z) : option (Z * option Z * option comparison_of_fractions) :=
  let h := scaled f (4 * 2 ^ precision f + 2) e in
  let l := scaled f (lo_u f to_nearest_tag e (2 ^ precision f)) e in
  let k := kexp e in let beta := - mbexp e in
  let (kap, P) := coarsest 20 h l 0 1 in
  let v := h / P in
  if (P =? 10 ^ kap) && (P <? 2 ^ extended_precision f) && (if chosen_with f e h l kap v then true else chosen_with f e h l kap (v - 1)) then
    let cache := cache_at f k in
    match fast_n_prime h beta P cache, fast_coincidence h e k beta P cache with
    | Ok np, Ok c => Some (e, if (5 <=? np) && negb (kap =? 0) then Some np else None, c)
    | _, _ => None
    end
  else None.
Fixpoint fast_sweep (e : Z) (n : nat) : option (list (Z * option Z * option comparison_of_fractions)) :=
  match n with
  | O => Some []
  | S n' =>
      match fast_row e, fast_sweep (e + 1) n' with
      | Some r, Some l => Some (match r with (_, None, None) => l | _ => r :: l end)
      | _, _ => None
      end
  end.
End Fast.

(** ** The cheap sweep is the real one *)
Section Correct.
Variables (f : fmt) (e : Z).
Hypothesis He : exp_min f <= e <= exp_max f.
Local Notation x := (wrap (extended_precision f) (Z.shiftl (e + 1 - exp_min f) (precision f))).

Lemma power_bits : x = (e + 1 - exp_min f) * 2 ^ precision f /\ 0 <= x < 2 ^ extended_precision f.
Proof using He.
  rewrite Z.shiftl_mul_pow2 by (destruct f; discriminate). unfold wrap.
  assert (R : 0 <= (e + 1 - exp_min f) * 2 ^ precision f < 2 ^ extended_precision f).
  { pose proof (pp f) as P. assert (1 <= e + 1 - exp_min f <= 2 ^ exponent_bits f - 2) by (destruct f; cbn -[Z.pow] in *; unfold exp_min, exp_max in *; cbn in *; lia).
    assert (2 ^ extended_precision f = 2 * (2 ^ exponent_bits f * 2 ^ precision f)) by (destruct f; reflexivity). nia. }
  rewrite Z.mod_small by exact R. split; [reflexivity | exact R].
Qed.
Lemma power_fields : expo f x = e + 1 - exp_min f /\ frac f x = 0.
Proof using He.
  destruct power_bits as [-> _]. pose proof (pp f) as P. unfold expo, frac. rewrite Z.div_mul, Z.mod_mul by lia. split; [|reflexivity].
  apply Z.mod_small. destruct f; unfold exp_min, exp_max in *; cbn in *; lia.
Qed.
Lemma power_input : input f x /\ n_of f x = 2 ^ precision f /\ e_of f x = e.
Proof using He.
  destruct power_bits as [_ R]. destruct power_fields as [E F]. pose proof (pp f) as P.
  assert (E1 : 1 <= e + 1 - exp_min f <= 2 ^ exponent_bits f - 2) by (destruct f; unfold exp_min, exp_max in *; cbn in *; lia).
  assert (Px : pattern f x) by (destruct f; exact R).
  assert (Fx : finite f x = true).
  { rewrite finite_model, is_finite_expo, E. apply negb_true_iff, Z.eqb_neq. lia. }
  assert (N : is_nonzero f x = true).
  { rewrite is_nonzero_fields by exact R. rewrite E. destruct (Z.eqb_spec (e + 1 - exp_min f) 0); [lia | reflexivity]. }
  split; [split; [exact Px | split; [exact Fx | apply (nonzero_model f x Px Fx), N]]|].
  unfold n_of, e_of. rewrite E, F. destruct (Z.eqb_spec (e + 1 - exp_min f) 0); [lia|]. split; lia.
Qed.
Lemma power_even : (x mod 2 =? 0) = true.
Proof using He.
  destruct power_bits as [-> _]. apply Z.eqb_eq. replace (2 ^ precision f) with (2 ^ (precision f - 1) * 2) by (destruct f; reflexivity).
  rewrite Z.mul_assoc. apply Z.mod_mul. discriminate.
Qed.
Lemma power_result cfg m kap v : (m = nearest_to_even \/ m = nearest_to_odd) -> chosen f e kap v = true ->
  exists r, grisu_exact cfg f true m do_not_care assert_finite x = Ok r /\ fp_exponent r = kap - kexp e.
Proof using He.
  intros Hm C. destruct power_input as (Hin & En & Ee). destruct (input_facts f x Hin) as (Hx & Hf & Hz & _).
  assert (Hi : provider_tag (delegate f m x) = to_nearest_tag /\ (provider_call f (delegate f m x) x = symmetric_boundary false \/ provider_call f (delegate f m x) x = symmetric_boundary true)).
  { destruct Hm as [-> | ->]; cbn [delegate provider_tag provider_call]; rewrite power_even; (split; [reflexivity | first [left; reflexivity | right; reflexivity]]). }
  destruct Hi as [Ht Hi]. destruct (chosen_kappa f e He cfg do_not_care (provider_call f (delegate f m x) x) kap v eq_refl Hi C) as [t Et].
  eexists. split.
  - apply grisu_exact_ok; [exact Hin|]. rewrite compute_is_tail by assumption. rewrite Ht, En, Ee. exact Et.
  - reflexivity.
Qed.
Lemma right_mul cfg : compute_mul cfg f (Z.lor (sign_bit_mask f) (boundary_bit f)) (cache_at f (kexp e)) (mbexp e)
  = Ok (scaled f (4 * 2 ^ precision f + 2) e).
Proof using He.
  rewrite scaled_ok by (try exact He; clear; destruct f; vm_compute; split; discriminate).
  rewrite <- (mul_ok cfg f e (2 ^ precision f) He (Hn f)); [f_equal; clear; destruct f; reflexivity | clear; destruct f; vm_compute; discriminate | clear; destruct f; reflexivity].
Qed.
Lemma n_prime_fast P : n_prime debug f (- mbexp e) P (cache_at f (kexp e)) = fast_n_prime f (scaled f (4 * 2 ^ precision f + 2) e) (- mbexp e) P (cache_at f (kexp e)).
Proof using He. unfold n_prime, fast_n_prime. cbv zeta. rewrite (Z.opp_involutive (mbexp e)). rewrite right_mul. reflexivity. Qed.
Lemma coincidence_fast P r : fast_coincidence f (scaled f (4 * 2 ^ precision f + 2) e) e (kexp e) (- mbexp e) P (cache_at f (kexp e)) = Ok r ->
  coincidence debug f e (kexp e) (- mbexp e) P (cache_at f (kexp e)) = Ok r.
Proof using He.
  unfold coincidence, fast_coincidence. cbv zeta. rewrite !(Z.opp_involutive (mbexp e)). rewrite right_mul.
  destruct (rounded_down _ _ _ _ _ _) as [rd| | |]; try discriminate. cbn [bind]. exact (fun H => H).
Qed.
Lemma row_fast r : fast_row f e = Some r -> row debug f (e + 1 - exp_min f) = Ok r.
Proof using He.
  unfold fast_row. cbv zeta. destruct (coarsest _ _ _ _ _) as [kap P].
  destruct (_ && _) eqn:C; [|discriminate]. rewrite !andb_true_iff in C. destruct C as [[C1 C2] C3]. apply Z.eqb_eq in C1. apply Z.ltb_lt in C2.
  assert (CV : exists v, chosen f e kap v = true).
  { destruct (chosen_with f e _ _ kap (scaled f (4 * 2 ^ precision f + 2) e / P)) eqn:Q in C3; eexists; [exact Q | exact C3]. }
  clear C3. destruct CV as [v CV].
  destruct (fast_n_prime _ _ _ _ _) as [np| | |] eqn:N; try discriminate. destruct (fast_coincidence _ _ _ _ _ _ _) as [co| | |] eqn:K; try discriminate.
  intros H. destruct (e_basic f e He) as [Hk Hmb].
  assert (K0 : 0 <= kap) by (unfold chosen, chosen_with in CV; rewrite !andb_true_iff in CV; apply Z.leb_le, CV).
  destruct (power_result debug nearest_to_odd kap v (or_intror eq_refl) CV) as (r1 & E1 & X1).
  destruct (power_result debug nearest_to_even kap v (or_introl eq_refl) CV) as (r2 & E2 & X2).
  assert (EE : e + 1 - exp_min f + exponent_bias f - extended_precision f + 1 = e) by (clear; destruct f; unfold exp_min; cbn; lia).
  assert (X : examine debug f (e + 1 - exp_min f) = Ok (Some (e, kexp e, - mbexp e, kap, P, cache_at f (kexp e)))).
  { unfold examine. cbv zeta. rewrite EE.
    assert (RE : -1650 <= e + 1 - alpha f <= 1650) by (clear - He; destruct f; cbn in He |- *; lia).
    assert (RK : -330 <= kexp e <= 330) by (clear - Hk; destruct f; cbn in Hk; lia).
    assert (KK : - kexp e = Z.shiftr ((e + 1 - alpha f) * 315652) 20).
    { unfold kexp. rewrite Z.opp_involutive. do 2 f_equal. clear; destruct f; cbn; ring. }
    unfold floor_log10_pow2. rewrite BigFacts.cassert_ok by (apply andb_true_iff; rewrite !Z.leb_le; lia). cbn [bind].
    unfold i32 at 1. rewrite (proj2 (Z.leb_le (- 2 ^ 31) _)), (proj2 (Z.ltb_lt _ (2 ^ 31))) by lia. cbn [andb bind].
    rewrite <- KK, Z.opp_involutive.
    unfold floor_log2_pow10. rewrite BigFacts.cassert_ok by (apply andb_true_iff; rewrite !Z.leb_le; lia). cbn [bind].
    unfold i32 at 1. rewrite (proj2 (Z.leb_le (- 2 ^ 31) _)), (proj2 (Z.ltb_lt _ (2 ^ 31))) by lia. cbn [andb bind].
    fold (lexp (kexp e)). replace (e + lexp (kexp e) + 1) with (- mbexp e) by (unfold mbexp; ring).
    rewrite E1, E2. cbn [bind]. rewrite X1, X2. rewrite Z.eqb_refl. cbn [negb]. replace (kap - kexp e + kexp e) with kap by ring.
    rewrite get_cache_ok by exact Hk. cbn [bind]. rewrite Z.opp_involutive.
    rewrite BigFacts.cassert_ok by (unfold wrap; rewrite Z.mod_small by lia; apply Z.ltb_lt; clear - Hmb; destruct f; cbn; lia). cbn [bind].
    rewrite compute_power_exact; rewrite ?Z2Nat.id by exact K0; rewrite <- ?C1; try reflexivity; try (clear; destruct f; discriminate); try lia. }
  unfold row. rewrite X. cbn [bind]. rewrite n_prime_fast, N. cbn [bind]. rewrite (coincidence_fast _ _ K). cbn [bind]. congruence.
Qed.
End Correct.
Lemma sweep_fast f : forall n e l, exp_min f <= e -> e + Z.of_nat n <= exp_max f + 1 -> fast_sweep f e n = Some l ->
  sweep debug f (e + 1 - exp_min f) n = Ok l.
Proof.
  induction n as [|n IH]; intros e l He1 He2 H; cbn [fast_sweep sweep] in *.
  - injection H as <-. reflexivity.
  - destruct (fast_row f e) as [r|] eqn:R; [|discriminate]. destruct (fast_sweep f (e + 1) n) as [l'|] eqn:S; [|discriminate].
    rewrite (row_fast f e ltac:(lia) r R). cbn [bind]. replace (e + 1 - exp_min f + 1) with (e + 1 + 1 - exp_min f) by ring.
    rewrite (IH (e + 1) l' ltac:(lia) ltac:(lia) S). cbn [bind]. congruence.
Qed.

Definition found (f : fmt) : list (Z * option Z * option comparison_of_fractions) :=
  match f with
  | Binary32 => [(-60, None, Some fraction_smaller); (59, None, Some fraction_larger)]
  | Binary64 => [(-798, Some 5, None); (-655, None, Some fraction_smaller); (-592, Some 5, None); (-406, Some 5, None);
                 (-203, None, Some fraction_larger); (152, Some 5, None)]
  end.
Lemma fast_found f : fast_sweep f (exp_min f) (Z.to_nat (Z.shiftl 1 (exponent_bits f) - 2)) = Some (found f).
Proof. destruct f; vm_compute; reflexivity. Qed.

Lemma sweep_found f : sweep debug f 1 (Z.to_nat (Z.shiftl 1 (exponent_bits f) - 2)) = Ok (found f).
Proof.
  replace 1 with (exp_min f + 1 - exp_min f) at 1 by ring. apply sweep_fast; [lia | destruct f; vm_compute; discriminate | apply fast_found].
Qed.
Lemma bound_verified cfg f : verify_bound cfg f = Ok (true, match f with Binary32 => [] | Binary64 => [(5, 152); (5, -406); (5, -592); (5, -798)] end).
Proof.
  apply (bound_below debug cfg eq_refl f). unfold verify_bound. rewrite (sweep_bound debug f _ _ _ _ (sweep_found f)). destruct f; reflexivity.
Qed.
Lemma removal_verified cfg f : verify_removal cfg f = Ok (true, match f with
  | Binary32 => [(59, fraction_larger); (-60, fraction_smaller)] | Binary64 => [(-203, fraction_larger); (-655, fraction_smaller)] end).
Proof.
  apply (removal_below debug cfg eq_refl f). unfold verify_removal. cbv zeta. rewrite (sweep_removal debug f _ _ _ _ (sweep_found f)). destruct f; reflexivity.
Qed.
Lemma all_deltas_agree cfg f k : k_min f <= k <= k_max f -> exists d, two_deltas cfg f k = Ok (d, d).
Proof.
  intros H. apply deltas_agree. replace (min_k f) with (k_min f) by (destruct f; vm_compute; reflexivity).
  replace (max_k f) with (k_max f) by (destruct f; vm_compute; reflexivity). exact H.
Qed.
