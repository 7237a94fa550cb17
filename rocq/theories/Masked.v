(** * The modes rounding toward zero in a release build that counts trailing zeros with a mask

    There the test of the end point answers instead of failing. *)

From Coq Require Import ZArith Reals List Lra Lia Bool.
From Flocq Require Import Core.
From Verif Require Import Machine Tables Model Arith ExpFacts Products IntCheck Core EdgeCheck Nearest Directed Ones Link
  Spec Reading Bridge ReadsBack Shortest Main Results Inward Claims.
Import ListNotations.
Open Scope Z_scope.

(** the answer costs no digit *)
Definition check_masked (f : fmt) (e : Z) : bool :=
  if extended_precision f <=? - kexp e - e then true else
  (0 <=? - kexp e - e) && (divb (den e) (zr f e) || forallb (fun kap =>
    let z := EdgeCheck.scaled f (2 ^ (precision f + 3)) e in
    if z mod 10 ^ kap =? 0 then
      (10 ^ kap <=? EdgeCheck.scaled f 4 e) || (xr f e <=? (z - z mod 10 ^ (kap + 1)) * den e)
    else true) (kappas f)).
Lemma check_masked_ok f : forallb (check_masked f) (stops f) = true.
Proof. destruct f; vm_cast_no_check (eq_refl true). Qed.
Lemma masked_swept f e : memb e (stops f) = true -> check_masked f e = true.
Proof.
  intros H. unfold memb in H. apply existsb_exists in H. destruct H as (e' & H1 & H2). apply Z.eqb_eq in H2. subst e'.
  apply (proj1 (forallb_forall _ _) (check_masked_ok f) _ H1).
Qed.

Section Ones.
Variables (cfg : config) (f : fmt) (crs : crs_tag) (itv : interval_type) (e : Z).
Local Notation tag := left_closed_directed_tag.
Hypothesis He : exp_min f <= e <= exp_max f.
Hypothesis Hitv : itv = left_closed_right_open.
Local Notation n := (ones f).
Local Notation B := (den e).
Local Notation w := (extended_precision f).
Local Notation zi := (Core.zi f tag e n).
Local Notation deltai := (Core.deltai f tag e n).
Local Notation Zr := (Core.Z_ f tag e n).
Local Notation in_int := (Core.in_int f tag itv e n).
Local Notation found := (Core.found f tag itv e n).
Let hL : tag = left_closed_directed_tag -> itv = left_closed_right_open := fun _ => Hitv.
Let hR := hR itv.

Lemma masked_answers kap : memb e (stops f) = true -> cfg_ndebug cfg = true -> cfg_ctz cfg = CtzMask -> found kap -> zi mod 10 ^ kap = 0 ->
  right_check cfg f tag e n = Ok (divb B Zr) \/
  (right_check cfg f tag e n = Ok true /\ - kexp e - e < w /\ divb B Zr = false).
Proof using He Hitv.
  intros S ND CM F R0. assert (M0 : 0 <= min_kappa f) by (destruct f; discriminate).
  pose proof (proj1 (swept f itv e He Hitv kap ltac:(destruct F; lia) R0) F) as T. unfold check_test in T. rewrite S in T.
  destruct (Z.ltb_spec e (lower_q f)) as [L|]; [|discriminate].
  rewrite (right_check_ones cfg f e He). unfold zero_check, is_product_integer. fold (lower_q f).
  apply Z.ltb_lt in L. rewrite L. unfold divisible_by_power_of_2, cassert. rewrite ND, CM. cbn [bind].
  destruct (Z.ltb_spec (- kexp e - e) w) as [W|W].
  - destruct (Z.leb_spec w (- kexp e - e)); [lia|].
    pose proof (masked_swept f e S) as C. unfold check_masked in C.
    destruct (Z.leb_spec w (- kexp e - e)) as [|_]; [lia|]. apply andb_true_iff in C. destruct C as [C _].
    destruct (divb B Zr) eqn:D; [left | right; split; [|split; [exact W | reflexivity]]].
    all: unfold shl; rewrite C; apply Z.ltb_lt in W; rewrite W; cbn [andb bind]; rewrite Z.land_0_l; reflexivity.
  - destruct (Z.leb_spec w (- kexp e - e)); [|lia]. left. rewrite (Zr_ones f e He).
    apply negb_true_iff in T. rewrite T. reflexivity.
Qed.

Theorem ones_masked : memb e (stops f) = true -> cfg_ndebug cfg = true -> cfg_ctz cfg = CtzMask ->
  exists kap t, compute_tail cfg f tag crs itv e n = Ok (t, kap - kexp e) /\ min_kappa f <= kap <= top_kappa f
    /\ in_int (t * 10 ^ kap) = true /\ no_coarser f tag itv e n kap.
Proof using He Hitv hL.
  intros S ND CM. pose proof (ones_range f e He) as Hn. assert (M0 : 0 <= min_kappa f) by (destruct f; discriminate).
  assert (Good : (forall kap, found kap -> tag <> right_closed_directed_tag -> zi mod 10 ^ kap = 0 ->
     right_check cfg f tag e n = Ok (divb B Zr)) ->
   exists kap t, compute_tail cfg f tag crs itv e n = Ok (t, kap - kexp e) /\ min_kappa f <= kap <= top_kappa f
    /\ in_int (t * 10 ^ kap) = true /\ no_coarser f tag itv e n kap).
  { intros Hri. destruct (cares crs) eqn:Hc.
    - destruct (left_result cfg f crs itv e n He Hn Hitv Hc Hri) as (kap & t & Et & Hk & Hin & Hno & HC & _).
      exists kap, t. auto 8.
    - destruct (largest_result cfg f tag crs itv e n He Hn hL hR Hri (or_introl Hc)) as (kap & t & Et & Hk & Hin & Hno & _).
      exists kap, t. repeat split; auto; try lia; try congruence. }
  destruct (search_result cfg f tag crs itv e n He Hn hL hR) as (kap & z & F & _ & _).
  destruct (Z.eq_dec (zi mod 10 ^ kap) 0) as [R0|R0].
  2:{ apply Good. intros k2 F2 _ Hm. rewrite (found_unique f itv e He _ _ F2 F) in Hm. contradiction. }
  destruct (masked_answers kap S ND CM F R0) as [RC|(RC & W & D)]; [apply Good; intros; exact RC|].
  destruct (misfire cfg f crs itv e He Hitv kap F R0 RC) as (k' & t & Et & Hk & Hd & Hin & HC). exists k', t.
  pose proof F as (Fk & _ & Fn).
  assert (k' = kap); [|subst k'; repeat split; try assumption; try lia; apply no_coarser_found; [lia | exact Fn]].
  pose proof (masked_swept f e S) as C. unfold check_masked in C.
  destruct (Z.leb_spec w (- kexp e - e)) as [|_]; [lia|]. apply andb_true_iff in C. destruct C as [_ C].
  rewrite (Zr_ones f e He) in D. rewrite D in C. cbn [orb] in C.
  assert (IK : In kap (kappas f)).
  { unfold kappas. apply in_map_iff. exists (Z.to_nat kap). split; [lia|]. apply in_seq.
    unfold top_kappa in Fk. destruct f; lia. }
  pose proof (proj1 (forallb_forall _ _) C kap IK) as C1. cbv beta zeta in C1.
  rewrite <- zi_ones, <- deltai_ones, R0 in C1 by assumption. cbn [Z.eqb] in C1.
  unfold Core.okb in Fn. rewrite (inL_ones f itv e He Hitv) in Fn. rewrite Fn, orb_false_r in C1. apply Z.leb_le in C1.
  assert (10 ^ kap < 10 ^ (k' + 1)) by lia. apply Z.pow_lt_mono_r_iff in H; lia.
Qed.
End Ones.

Open Scope R_scope.
Section Inward.
Variables (cfg : config) (f : fmt) (m : rounding_mode) (crs : crs_tag) (x : Z).
Hypothesis Hin : input f x.
Hypothesis Hm : rounds_inward m (is_negative f x) = true.
Hypotheses (ND : cfg_ndebug cfg = true) (CM : cfg_ctz cfg = CtzMask).

Theorem masked_good : halts f x = true -> exists t E, compute cfg f (delegate f m x) crs x = Ok (t, E) /\ basic f m x t E.
Proof using Hin Hm ND CM.
  intros Hh. unfold halts in Hh. apply andb_true_iff in Hh. destruct Hh as [O Hh]. destruct (all_ones_n f m x Hin Hm O) as [En Ee].
  destruct (input_facts f x Hin) as (_ & _ & _ & He & _).
  assert (M0 : (0 <= min_kappa f)%Z) by (destruct f; discriminate).
  destruct (ones_masked cfg f crs left_closed_right_open (e_of f x) He eq_refl) as (kap & t & Et & Hk & Hi & Hno); try assumption.
  { rewrite stops_fields, Ee, memb_shift. exact Hh. }
  rewrite <- En in *. exists t, (kap - kexp (e_of f x))%Z. split; [rewrite (compute_left cfg f m crs x Hin Hm); exact Et|].
  rewrite <- (tagL f m x Hm) in Hi, Hno. rewrite <- (itvLo f m x Hm) in Hi, Hno.
  assert (K : (0 <= kap)%Z) by lia. apply (grid_basic f m x Hin kap t K Hi Hno).
  apply (I_lower f m x Hin kap t K Hi Hno); [rewrite (tagL f m x Hm); discriminate | apply (g_in f m x kap t K Hi)].
Qed.
End Inward.

Lemma masked_total cfg f rs m crs h x : input f x -> rounds_inward m (negative f x) = true ->
  cfg_ndebug cfg = true -> cfg_ctz cfg = CtzMask ->
  exists r, grisu_exact cfg f rs m crs h x = Ok r /\ reads_back f m x (signed f x r) (fp_exponent r) /\
    (lengthened f x = false -> shortest f m x (signed f x r) (fp_exponent r)).
Proof.
  intros Hin Hm ND CM. pose proof (Hm' f m x Hin Hm) as Hm1. destruct (halts f x) eqn:Hh.
  - destruct (masked_good cfg f m crs x Hin Hm1 ND CM Hh) as (t & E & Ec & Bs). eexists.
    split; [apply grisu_exact_ok; eassumption|]. pose proof (b_short _ _ _ _ _ Bs) as Sh. split; [apply Sh | intros _; exact Sh].
  - destruct (inward_total cfg f rs m crs h x Hin Hm Hh) as [r E]. exists r. split; [exact E|].
    split; [apply (inward_round_trip cfg f rs m crs h x Hin Hm), E|]. intros L.
    destruct (inward_shortest cfg f rs m crs h x Hin Hm Hh L) as (r' & E' & Sh). rewrite E in E'. injection E' as <-. exact Sh.
Qed.
