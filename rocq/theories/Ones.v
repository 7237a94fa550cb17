(** * The left-closed directed mode when the right end point wraps around to 0

    This happens for the largest significand of a binade, n = 2^(p+1) - 1: everything is determined
    by the exponent, and a sweep over the exponents settles which of these inputs are affected. *)

From Coq Require Import ZArith List Bool Lia.
From Verif Require Import Machine Tables Model Arith ExpFacts Products IntCheck Core EdgeCheck Directed.
Import ListNotations.
Open Scope Z_scope.

Definition ones (f : fmt) : Z := 2 ^ (precision f + 1) - 1.

(** exponents (of the scaled significand) where divisible_by_power_of_2(0, .) is reached *)
Definition stops (f : fmt) : list Z :=
  match f with
  | Binary32 =>
      [-157; -156; -155; -152; -145; -142; -132; -122; -118; -115; -109; -108; -105; -99; -95; -89;
       -75; -73; -72; -71; -70; -69; -62; -59; -55; -49; -48; -43; -42; -41; -40; -39; -38; -37; -36;
       -35; -34; -33; -32; -31; -30; -29; -28; -27; -26; -25; -24; -23; -22; -21; -20; -19; -18; -17;
       -16; -15; -14; -13; -12; -11]
  | Binary64 =>
      [-910; -909; -882; -863; -819; -749; -640; -623; -603; -521; -520; -519; -518; -517; -471; -470;
       -441; -437; -387; -338; -264; -205; -175; -118; -101; -87; -86; -85; -84; -83; -82; -81; -80;
       -79; -78; -77; -76; -75; -74; -73; -72; -71; -70; -69; -68; -67; -66; -65; -64; -63; -62; -61;
       -60; -59; -58; -57; -56; -55; -54; -53; -52; -51; -50; -49; -48; -47; -46; -45; -44; -43; -42;
       -41; -40; -39; -38; -37; -36; -35; -34; -33; -32; -31; -30; -29; -28; -27; -26; -25; -24; -23;
       -22; -21; -20; -19; -18; -17; -16; -15]
  end.
(** exponents where divisible_by_power_of_5(0, .) answers [true] although the end point is not an integer *)
Definition misfires (f : fmt) : list Z :=
  match f with
  | Binary32 => [11; 12; 18; 23; 28; 29; 1; 4]
  | Binary64 => [34; 35; 38; -2]
  end.
Definition memb (e : Z) (l : list Z) : bool := existsb (Z.eqb e) l.

Definition cfg0 : config := mk_config MulPortable CtzMask false false.
Definition lower_q (f : fmt) : Z := integer_check_exponent_lower_bound_for_q_mp_m1 f.
Definition zero_check (cfg : config) (f : fmt) (e : Z) : outcome bool :=
  is_product_integer cfg f other 0 e (- kexp e).

Definition kappas (f : fmt) : list Z := map Z.of_nat (seq 0 (match f with Binary32 => 10 | Binary64 => 19 end)).

Definition zr (f : fmt) (e : Z) : Z := 2 ^ (precision f + 3) * ulp f e.
Definition xr (f : fmt) (e : Z) : Z := (2 ^ (precision f + 3) - 4) * ulp f e.

(** the end point test at the multiple z of 10^kap *)
Definition check_test (f : fmt) (e : Z) : bool :=
  if memb e (stops f)
  then if e <? lower_q f
       then (if - kexp e - e <? extended_precision f then true else negb (divb (den e) (zr f e)))
       else false
  else if e <? lower_q f then false
  else match zero_check cfg0 f e with
       | Ok r => if memb e (misfires f) then r else Bool.eqb r (divb (den e) (zr f e))
       | _ => false
       end.
(** the lower end of the search range is never just below the interval *)
Definition check_coincidence (f : fmt) (e z dl : Z) : bool := xr f e <=? (z - dl) * den e.

Fixpoint divisors (fuel : nat) (z p : Z) (P : Z -> bool) : bool :=
  match fuel with
  | O => true
  | S fuel' => if z mod p =? 0 then (if P p then divisors fuel' z (10 * p) P else false) else true
  end.

Definition check_ones (f : fmt) (e : Z) : bool :=
  let z := scaled f (2 ^ (precision f + 3)) e in
  let dl := scaled f 4 e in
  divisors 19 z 1 (fun p =>
    (if z mod (10 * p) <? dl then true else if p <? 10 ^ min_kappa f then true
     else if xr f e <=? (z - z mod (10 * p)) * den e then true else check_test f e)
    && (if dl =? p then check_coincidence f e z dl else true))
  && (if memb e (stops f)
      then existsb (fun kap =>
             if z mod 10 ^ kap =? 0
             then (min_kappa f <=? kap) && (kap <=? top_kappa f) && ((z - z mod 10 ^ (kap + 1)) * den e <? xr f e)
             else false) (kappas f)
      else true).

(** misfires that cost a digit *)
Definition lengthens (f : fmt) : list Z :=
  match f with Binary32 => [11; 18; 28; 29] | Binary64 => [35] end.
Definition check_kept (f : fmt) (e : Z) : bool :=
  if memb e (misfires f) then
    if memb e (lengthens f) then true
    else forallb (fun kap =>
           let z := scaled f (2 ^ (precision f + 3)) e in
           if z mod 10 ^ kap =? 0 then
             (10 ^ kap <=? scaled f 4 e) || (xr f e <=? (z - z mod 10 ^ (kap + 1)) * den e)
           else true) (kappas f)
  else true.

Lemma check_ones_float : forallb (fun e => check_ones Binary32 e && check_kept Binary32 e) (erange Binary32) = true.
Proof. vm_cast_no_check (eq_refl true). Qed.
Lemma check_ones_double : forallb (fun e => check_ones Binary64 e && check_kept Binary64 e) (erange Binary64) = true.
Proof. vm_cast_no_check (eq_refl true). Qed.
Lemma ones_swept f e : exp_min f <= e <= exp_max f -> check_ones f e = true /\ check_kept f e = true.
Proof.
  intros He. apply andb_true_iff.
  destruct f; [apply (sweep Binary32 _ _ check_ones_float He) | apply (sweep Binary64 _ _ check_ones_double He)].
Qed.

Lemma divisors_ok z P : forall fuel p0 i, 0 < p0 -> 0 <= i < Z.of_nat fuel -> divisors fuel z p0 P = true ->
  z mod (10 ^ i * p0) = 0 -> P (10 ^ i * p0) = true.
Proof.
  induction fuel as [|fuel IH]; intros p0 i Hp Hi H Hm; [lia|].
  pose proof (pow10_pos i ltac:(lia)) as Pi.
  assert (D : (10 ^ i * p0 | z)) by (apply Z.mod_divide; [nia | exact Hm]).
  assert (D0 : z mod p0 = 0).
  { apply Z.mod_divide; [lia|]. eapply Z.divide_trans; [|exact D]. apply Z.divide_factor_r. }
  cbn [divisors] in H. rewrite D0 in H. cbn [Z.eqb] in H. destruct (P p0) eqn:E; [|discriminate].
  destruct (Z.eq_dec i 0) as [->|]; [rewrite Z.pow_0_r, Z.mul_1_l; exact E|].
  replace (10 ^ i * p0) with (10 ^ (i - 1) * (10 * p0)) in *.
  2:{ replace i with (Z.succ (i - 1)) at 2 by lia. rewrite Z.pow_succ_r by lia. ring. }
  apply IH; try assumption; lia.
Qed.

Section Ones.
Variables (cfg : config) (f : fmt) (crs : crs_tag) (itv : interval_type) (e : Z).
Local Notation tag := left_closed_directed_tag.
Hypothesis He : exp_min f <= e <= exp_max f.
Hypothesis Hitv : itv = left_closed_right_open.
Local Notation n := (ones f).
Local Notation B := (den e).
Local Notation w := (extended_precision f).
Local Notation zi := (Core.zi f tag e n).
Local Notation deltai := (Core.deltai f tag e n).
Local Notation X := (Core.X f tag e n).
Local Notation Zr := (Core.Z_ f tag e n).
Local Notation cx := (Core.cx f tag crs itv e n).
Local Notation inL := (Core.inL f tag itv e n).
Local Notation in_int := (Core.in_int f tag itv e n).
Local Notation found := (Core.found f tag itv e n).
Local Notation okb := (Core.okb f tag itv e n).
Let hL : tag = left_closed_directed_tag -> itv = left_closed_right_open := fun _ => Hitv.
Let hR := hR itv.

Lemma ones_range : 0 < n < 2 ^ (precision f + 1).
Proof. destruct f; split; reflexivity. Qed.
Lemma ones_hi : hi_u tag n = 2 ^ (precision f + 3).
Proof. destruct f; reflexivity. Qed.
Lemma ones_lo : lo_u f tag e n = 2 ^ (precision f + 3) - 4.
Proof. unfold lo_u. destruct f; reflexivity. Qed.
Lemma Zr_ones : Zr = zr f e.
Proof. unfold Core.Z_. rewrite ones_hi. reflexivity. Qed.
Lemma X_ones : X = xr f e.
Proof. unfold Core.X. rewrite ones_lo. reflexivity. Qed.
Lemma zi_ones : zi = scaled f (2 ^ (precision f + 3)) e.
Proof. rewrite scaled_ok; [|exact He | destruct f; split; discriminate]. unfold Core.zi, Core.Z_. rewrite ones_hi. reflexivity. Qed.
Lemma deltai_ones : deltai = scaled f 4 e.
Proof. rewrite scaled_ok; [|exact He | destruct f; split; discriminate]. reflexivity. Qed.
Lemma right_end_ones : right_endpoint f tag (fc f n) = 0.
Proof. unfold right_endpoint. destruct f; reflexivity. Qed.
Lemma right_check_ones : right_check cfg f tag e n = zero_check cfg f e.
Proof. unfold right_check. rewrite right_end_ones. reflexivity. Qed.

Lemma inL_ones v : inL v = (xr f e <=? v * B).
Proof.
  unfold Core.inL. rewrite X_ones, Hitv. cbn [include_left_endpoint andb].
  destruct (Z.ltb_spec (xr f e) (v * B)), (Z.eqb_spec (xr f e) (v * B)), (Z.leb_spec (xr f e) (v * B)); try reflexivity; lia.
Qed.

Lemma found_unique k1 k2 : found k1 -> found k2 -> k1 = k2.
Proof.
  intros (A1 & A2 & A3) (B1 & B2 & B3). assert (M0 : 0 <= min_kappa f) by (destruct f; discriminate).
  destruct (Z.lt_trichotomy k1 k2) as [G|[G|G]]; [|exact G|].
  - rewrite (okb_anti f tag itv e n (k1 + 1) k2) in A3 by (assumption || lia). discriminate.
  - rewrite (okb_anti f tag itv e n (k2 + 1) k1) in B3 by (assumption || lia). discriminate.
Qed.

(** the sweep at a divisor of zi *)
Lemma swept i : 0 <= i <= top_kappa f -> zi mod 10 ^ i = 0 ->
  (found i -> check_test f e = true) /\ (deltai = 10 ^ i -> inL (zi - deltai) = true).
Proof using He Hitv.
  intros Hi Hm. destruct (ones_swept f e He) as [C _]. unfold check_ones in C. cbv zeta in C.
  rewrite <- zi_ones, <- deltai_ones in C. apply andb_true_iff in C. destruct C as [C _].
  assert (Q : i < Z.of_nat 19) by (unfold top_kappa in Hi; destruct f; cbn; lia).
  apply (divisors_ok zi _ 19 1 i ltac:(lia) (conj (proj1 Hi) Q)) in C; [|rewrite Z.mul_1_r; exact Hm].
  rewrite Z.mul_1_r in C. apply andb_true_iff in C. destruct C as [C1 C2].
  assert (ED : 10 * 10 ^ i = 10 ^ (i + 1)) by (rewrite Z.pow_add_r by lia; ring). rewrite ED in C1.
  split.
  - intros (Hk & _ & F). unfold Core.okb in F. 
    destruct (Z.ltb_spec (zi mod 10 ^ (i + 1)) deltai) as [L|L].
    { rewrite (inL_lt f tag itv e n hL hR) in F by exact L. discriminate. }
    destruct (Z.ltb_spec (10 ^ i) (10 ^ min_kappa f)) as [L1|L1].
    { exfalso. assert (10 ^ min_kappa f <= 10 ^ i) by (apply Z.pow_le_mono_r; lia). lia. }
    rewrite inL_ones in F. rewrite F in C1. exact C1.
  - intros Q2. rewrite Q2, Z.eqb_refl in C2. rewrite inL_ones, Q2. exact C2.
Qed.

Lemma coincidence_ones j : 0 <= j -> deltai = 10 ^ j -> (10 ^ j | zi) -> inL (zi - deltai) = true.
Proof using He Hitv.
  intros Hj Hd D. destruct (Z.le_gt_cases j (top_kappa f)) as [L|L].
  - apply (swept j); [lia | | exact Hd]. apply Z.mod_divide; [|exact D]. pose proof (pow10_pos j Hj). lia.
  - exfalso. pose proof (deltai_small f tag itv e n He hL hR) as [_ DS].
    assert (10 ^ 9 <= 10 ^ j) by (apply Z.pow_le_mono_r; unfold top_kappa in L; destruct f; lia).
    change (10 ^ 9) with 1000000000 in H. destruct (unit_vals f); lia.
Qed.

Lemma zero_check_cfg b : lower_q f <= e -> zero_check cfg0 f e = Ok b -> zero_check cfg f e = Ok b.
Proof using.
  intros L E0. unfold zero_check, is_product_integer in E0 |- *. fold (lower_q f) in E0 |- *.
  apply Z.ltb_ge in L. rewrite L in E0 |- *.
  destruct (e <=? max_exponent_for_k_geq_0 f); [exact E0|].
  destruct (e <=? integer_check_exponent_upper_bound_for_p_p1 f); [|exact E0].
  unfold divisible_by_power_of_5 in E0 |- *. unfold cassert in E0 |- *. cbn [cfg0 cfg_ndebug] in E0.
  repeat match type of E0 with context [if ?b then Ok tt else AssertFailed] => destruct b; cbn [bind] in E0; try discriminate end.
  destruct (cfg_ndebug cfg); exact E0.
Qed.

(** what the end point test answers when it is reached *)
Lemma test_answers kap : memb e (stops f) = false -> found kap -> zi mod 10 ^ kap = 0 ->
  right_check cfg f tag e n = Ok (divb B Zr) \/ (memb e (misfires f) = true /\ right_check cfg f tag e n = Ok true).
Proof using He Hitv.
  intros S F Hm. assert (M0 : 0 <= min_kappa f) by (destruct f; discriminate).
  pose proof (proj1 (swept kap ltac:(destruct F; lia) Hm) F) as C. unfold check_test in C. rewrite S in C.
  rewrite right_check_ones, Zr_ones. destruct (Z.ltb_spec e (lower_q f)) as [L|L]; [discriminate|].
  destruct (zero_check cfg0 f e) as [r| | |] eqn:E0; try discriminate.
  rewrite (zero_check_cfg r L E0). destruct (memb e (misfires f)).
  - right. subst r. split; reflexivity.
  - left. apply eqb_prop in C. subst r. reflexivity.
Qed.

(** a misfire: the result is still in the interval, at the exponent found or a lower one *)
Lemma misfire kap : found kap -> zi mod 10 ^ kap = 0 -> right_check cfg f tag e n = Ok true ->
  exists k' t, compute_tail cfg f tag crs itv e n = Ok (t, k' - kexp e) /\ min_kappa f <= k' <= kap
    /\ 10 ^ k' <= deltai < 10 ^ (k' + 1) /\ in_int (t * 10 ^ k') = true
    /\ (cares crs = true -> no_coarser f tag itv e n k' -> (forall u, in_int (u * 10 ^ k') = true -> t <= u) \/ (exists S, 1 <= S <= 4 /\ (t - S) * 10 ^ k' = zi - deltai)).
Proof using He Hitv hL.
  intros F R0 RC. pose proof ones_range as Hn.
  destruct (search_result cfg f tag crs itv e n He Hn hL hR) as (kap2 & z & Hf & Hzf & E).
  pose proof (found_unique _ _ Hf F). subst kap2.
  pose proof Hf as (Hk & Hok & Hno).
  assert (M0 : 0 <= min_kappa f) by (destruct f; discriminate).
  unfold after_search in E. rewrite andb_false_r in E. cbn [andb] in E.
  assert (Dk : (10 ^ kap | zi)).
  { apply Z.mod_divide; [|exact R0]. pose proof (pow10_pos kap ltac:(lia)). lia. }
  destruct (adjust_wrong cfg f crs itv e n He Hn Hitv kap z Hf R0 RC) as (k' & R1 & R2 & DL & EA).
  rewrite EA in E. clear EA.
  pose proof (pow10_pos k' ltac:(lia)) as P'.
  assert (Dk' : (10 ^ k' | zi)).
  { eapply Z.divide_trans; [|exact Dk]. exists (10 ^ (kap - k')). rewrite <- Z.pow_add_r by lia. f_equal; lia. }
  assert (IL : inL (zi - 10 ^ k') = true).
  { destruct (Z.lt_ge_cases (10 ^ k') deltai) as [L|L]; [apply (inL_lt f tag itv e n hL hR); exact L|].
    assert (ED : deltai = 10 ^ k') by lia. rewrite <- ED. apply (coincidence_ones k'); [lia | exact ED | exact Dk']. }
  assert (Em : zi = zi / 10 ^ k' * 10 ^ k').
  { destruct Dk' as [c ->]. rewrite Z.div_mul by lia. reflexivity. }
  assert (Es : (zi / 10 ^ k' - 1) * 10 ^ k' = zi - 10 ^ k') by lia.
  assert (IN : in_int ((zi / 10 ^ k' - 1) * 10 ^ k') = true).
  { rewrite Es. unfold Core.in_int. rewrite IL. apply inR_lt. lia. }
  pose proof (inL_nonneg f itv e n Hn Hitv _ IL) as N0.
  pose proof (zi_small f tag itv e n He Hn hL hR) as [Z0 Z1].
  assert (S1 : 0 <= zi / 10 ^ k' - 1) by nia.
  assert (WS : wrap w (zi / 10 ^ k' - 1) = zi / 10 ^ k' - 1).
  { apply wrap_small. split; [exact S1|].
    assert (zi / 10 ^ k' <= zi); [|lia]. apply Z.div_le_upper_bound; [lia|].
    rewrite <- (Z.mul_1_l zi) at 1. apply Z.mul_le_mono_nonneg_r; lia. }
  rewrite WS in E. exists k'. destruct (cares crs) eqn:Hc.
  - destruct (left_from cfg f crs itv e n He Hn Hitv k' (zi / 10 ^ k' - 1) (10 ^ k') z Hc ltac:(lia) DL ltac:(lia) ltac:(lia) IN)
      as (t & Et & IT & HC & _).
    exists t. rewrite <- Et. repeat split; try assumption; try lia. intros _. exact HC.
  - exists (zi / 10 ^ k' - 1). repeat split; try assumption; try lia; try discriminate.
    rewrite E. unfold correct_rounding_search_label. cbn [Core.cx cx_crs]. rewrite Hc. reflexivity.
Qed.

(** [e] is not in [stops]: a value is returned, it is in the interval, and it is shortest unless [e] is in [lengthens] *)
Theorem ones_result : memb e (stops f) = false ->
  exists kap t, compute_tail cfg f tag crs itv e n = Ok (t, kap - kexp e) /\ min_kappa f <= kap <= top_kappa f
    /\ in_int (t * 10 ^ kap) = true /\ (memb e (lengthens f) = false -> no_coarser f tag itv e n kap)
    /\ (cares crs = true -> no_coarser f tag itv e n kap -> (forall u, in_int (u * 10 ^ kap) = true -> t <= u) \/ (exists S, 1 <= S <= 4 /\ (t - S) * 10 ^ kap = zi - deltai)).
Proof using He Hitv hL.
  intros S. pose proof ones_range as Hn. assert (M0 : 0 <= min_kappa f) by (destruct f; discriminate).
  assert (Good : (forall kap, found kap -> tag <> right_closed_directed_tag -> zi mod 10 ^ kap = 0 ->
     right_check cfg f tag e n = Ok (divb B Zr)) ->
   exists kap t, compute_tail cfg f tag crs itv e n = Ok (t, kap - kexp e) /\ min_kappa f <= kap <= top_kappa f
    /\ in_int (t * 10 ^ kap) = true /\ (memb e (lengthens f) = false -> no_coarser f tag itv e n kap)
    /\ (cares crs = true -> no_coarser f tag itv e n kap -> (forall u, in_int (u * 10 ^ kap) = true -> t <= u) \/ (exists S, 1 <= S <= 4 /\ (t - S) * 10 ^ kap = zi - deltai))).
  { intros Hri. destruct (cares crs) eqn:Hc.
    - destruct (left_result cfg f crs itv e n He Hn Hitv Hc Hri) as (kap & t & Et & Hk & Hin & Hno & HC & _).
      exists kap, t. auto 8.
    - destruct (largest_result cfg f tag crs itv e n He Hn hL hR Hri (or_introl Hc)) as (kap & t & Et & Hk & Hin & Hno & _).
      exists kap, t. repeat split; auto; try lia; try congruence. }
  destruct (search_result cfg f tag crs itv e n He Hn hL hR) as (kap & z & F & _ & _).
  destruct (Z.eq_dec (zi mod 10 ^ kap) 0) as [R0|R0].
  2:{ apply Good. intros k2 F2 _ Hm. rewrite (found_unique _ _ F2 F) in Hm. contradiction. }
  destruct (test_answers kap S F R0) as [RC|[M RC]]; [apply Good; intros; exact RC|].
  destruct (misfire kap F R0 RC) as (k' & t & Et & Hk & Hd & Hin & HC). exists k', t.
  pose proof F as (Fk & _ & Fn).
  repeat split; try assumption; try lia. intros L.
  assert (k' = kap); [|subst k'; apply no_coarser_found; [lia | exact Fn]].
  destruct (ones_swept f e He) as [_ C]. unfold check_kept in C. rewrite M, L in C.
  assert (IK : In kap (kappas f)).
  { unfold kappas. apply in_map_iff. exists (Z.to_nat kap). split; [lia|]. apply in_seq.
    unfold top_kappa in Fk. destruct f; lia. }
  pose proof (proj1 (forallb_forall _ _) C kap IK) as C1. cbv beta zeta in C1.
  rewrite <- zi_ones, <- deltai_ones, R0 in C1. cbn [Z.eqb] in C1.
  unfold Core.okb in Fn. rewrite inL_ones in Fn. rewrite Fn, orb_false_r in C1. apply Z.leb_le in C1.
  assert (10 ^ kap < 10 ^ (k' + 1)) by lia. apply Z.pow_lt_mono_r_iff in H; lia.
Qed.

(** [e] is in [stops]: the call ends at the assertion, or is undefined without assertions when the
    compiler's count-trailing-zeros is used *)
Theorem ones_stop : memb e (stops f) = true ->
  (cfg_ndebug cfg = false -> compute_tail cfg f tag crs itv e n = AssertFailed) /\
  (cfg_ndebug cfg = true -> cfg_ctz cfg <> CtzMask -> compute_tail cfg f tag crs itv e n = Undefined).
Proof using He Hitv hL.
  intros S. pose proof ones_range as Hn. assert (M0 : 0 <= min_kappa f) by (destruct f; discriminate).
  destruct (search_result cfg f tag crs itv e n He Hn hL hR) as (kap & z & F & _ & E).
  destruct (ones_swept f e He) as [C _]. unfold check_ones in C. cbv zeta in C.
  rewrite <- zi_ones, <- deltai_ones, S in C. apply andb_true_iff in C. destruct C as [_ C].
  apply existsb_exists in C. destruct C as (k2 & _ & C).
  destruct (Z.eqb_spec (zi mod 10 ^ k2) 0) as [R0|]; [|discriminate].
  rewrite !andb_true_iff in C. destruct C as [[C1 C2] C3]. apply Z.leb_le in C1, C2. apply Z.ltb_lt in C3.
  assert (F2 : found k2).
  { split; [lia|]. unfold Core.okb. rewrite !inL_ones. split.
    - rewrite R0, Z.sub_0_r. rewrite <- inL_ones. destruct F as (Fk & Fo & _). unfold Core.okb in Fo.
      apply inL_mono with (2 := Fo). pose proof (Z.mod_pos_bound zi (10 ^ kap)). pose proof (pow10_pos kap ltac:(lia)). lia.
    - apply Z.leb_gt. exact C3. }
  pose proof (found_unique _ _ F F2). subst k2.
  pose proof (proj1 (swept kap ltac:(lia) R0) F) as T. unfold check_test in T. rewrite S in T.
  destruct (Z.ltb_spec e (lower_q f)) as [L|]; [|discriminate].
  unfold after_search in E. rewrite andb_false_r in E. cbn [andb] in E.
  pose proof (right_check_ones) as RC. unfold zero_check, is_product_integer in RC. fold (lower_q f) in RC.
  apply Z.ltb_lt in L. rewrite L in RC. unfold divisible_by_power_of_2, cassert in RC.
  split.
  - intros ND. rewrite ND in RC. cbn [negb Z.eqb] in RC.
    assert (RC' : right_check cfg f tag e n = AssertFailed) by (destruct (1 <=? - kexp e - e); exact RC).
    rewrite E. rewrite (adjust_stop cfg f crs itv e n Hitv kap z F R0 AssertFailed RC') by discriminate. reflexivity.
  - intros ND Hz. rewrite ND in RC. cbn [bind Z.eqb] in RC.
    assert (RC' : right_check cfg f tag e n = Undefined) by (destruct (cfg_ctz cfg); [exact RC | exact RC | congruence]).
    rewrite E. rewrite (adjust_stop cfg f crs itv e n Hitv kap z F R0 Undefined RC') by discriminate. reflexivity.
Qed.

(** whatever is returned is in the interval *)
Theorem ones_in_interval res : compute_tail cfg f tag crs itv e n = Ok res ->
  exists kap t, res = (t, kap - kexp e) /\ min_kappa f <= kap <= top_kappa f /\ in_int (t * 10 ^ kap) = true.
Proof using He Hitv hL.
  intros Hres. pose proof ones_range as Hn. assert (M0 : 0 <= min_kappa f) by (destruct f; discriminate).
  apply (left_in_interval cfg f crs itv e n He Hn Hitv res); [apply coincidence_ones| |exact Hres].
  intros kap F R0 b Hb. destruct (memb e (stops f)) eqn:S.
  - pose proof (proj1 (swept kap ltac:(destruct F; lia) R0) F) as T. unfold check_test in T. rewrite S in T.
    destruct (Z.ltb_spec e (lower_q f)) as [L|]; [|discriminate].
    rewrite right_check_ones in Hb. unfold zero_check, is_product_integer in Hb. fold (lower_q f) in Hb.
    apply Z.ltb_lt in L. rewrite L in Hb. unfold divisible_by_power_of_2, cassert in Hb. cbn [negb Z.eqb] in Hb.
    destruct (cfg_ndebug cfg); [|destruct (1 <=? - kexp e - e); discriminate]. cbn [bind] in Hb.
    destruct (cfg_ctz cfg); try discriminate.
    destruct (Z.ltb_spec (- kexp e - e) w) as [W|W].
    + destruct (Z.leb_spec w (- kexp e - e)); [lia|]. destruct (shl w 1 (- kexp e - e)); cbn [bind] in Hb; try discriminate.
      rewrite Z.land_0_l in Hb. cbn [Z.eqb] in Hb. left. congruence.
    + destruct (Z.leb_spec w (- kexp e - e)); [|lia]. right. rewrite Zr_ones.
      destruct (divb B (zr f e)); [discriminate|]. congruence.
  - destruct (test_answers kap S F R0) as [RC|[_ RC]]; rewrite RC in Hb; [right | left]; congruence.
Qed.
End Ones.
