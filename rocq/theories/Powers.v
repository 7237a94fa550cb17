(** * Which powers of two are not rounded to their number of digits (C72) *)

From Coq Require Import ZArith Reals List Bool Lia Lra.
From Flocq Require Import Core.
From Verif Require Import Machine Model ExpFacts Core Link Spec UserSpec RoundSpec Bridge ReadsBack Results Claims Main Shortest Outputs Inward Users Signs RoundedDigits NarrowRows Narrow PowerTables.
Import ListNotations.
Open Scope R_scope.

(** ** The test on integers *)
Definition half_b (s e q : Z) : bool := (2 * Z.abs (s * up e q - down e q) <=? up e q)%Z.
Lemma half_ok s e q : half_b s e q = true <-> Rabs (IZR s - bpow radix2 q * bpow radix10 (- e)) <= / 2.
Proof.
  unfold half_b. rewrite Z.leb_le. pose proof (scale e q) as S. pose proof (IZR_lt _ _ (up_pos e q)) as U. set (u := up e q) in *. set (d := down e q) in *. clearbody u d.
  assert (E : bpow radix2 q * bpow radix10 (- e) = IZR d / IZR u).
  { rewrite bpow_opp. pose proof (bpow_gt_0 radix10 e). apply Rmult_eq_reg_r with (bpow radix10 e * IZR u); [|apply Rgt_not_eq, Rmult_lt_0_compat; lra].
    replace (bpow radix2 q * / bpow radix10 e * (bpow radix10 e * IZR u)) with (IZR u * bpow radix2 q) by (field; lra).
    replace (IZR d / IZR u * (bpow radix10 e * IZR u)) with (bpow radix10 e * IZR d) by (field; lra). symmetry. exact S. }
  rewrite E. replace (IZR s - IZR d / IZR u) with (IZR (s * u - d) * / IZR u) by (rewrite minus_IZR, mult_IZR; field; lra).
  rewrite Rabs_mult, (Rabs_pos_eq (/ IZR u)) by (apply Rlt_le, Rinv_0_lt_compat, U). rewrite <- abs_IZR. set (a := Z.abs (s * u - d)). clearbody a. split; intros H.
  - apply IZR_le in H. rewrite mult_IZR in H. apply Rmult_le_reg_r with (IZR u); [exact U|]. rewrite Rmult_assoc, Rinv_l by lra. lra.
  - apply le_IZR. rewrite mult_IZR. apply Rmult_le_compat_r with (r := IZR u) in H; [|lra]. rewrite Rmult_assoc, Rinv_l in H by lra. lra.
Qed.

(** ** The sweep over the positive powers of two above the smallest normal number *)
Definition bias (f : fmt) : Z := match f with Binary32 => 127 | Binary64 => 1023 end.
Definition power_ok (f : fmt) (E : Z) : bool :=
  match grisu_exact debug_build f true nearest_to_even tie_to_even assert_finite (E * 2 ^ precision f) with
  | Ok r => Bool.eqb (half_b (fp_significand r) (fp_exponent r) (E - bias f)) (negb (existsb (Z.eqb (E - bias f)) (misrounded_powers f)))
  | _ => false
  end.
Lemma float_powers : forallb (power_ok Binary32) (upto 254) = true.
Proof. vm_cast_no_check (eq_refl true). Qed.
(** of the doubles only those that are listed *)
Lemma double_powers : forallb (fun q => power_ok Binary64 (q + bias Binary64)) (misrounded_powers Binary64) = true.
Proof. vm_cast_no_check (eq_refl true). Qed.
Definition checked (f : fmt) (E : Z) : Prop :=
  match f with Binary32 => (1 <= E <= 254)%Z | Binary64 => In (E - bias Binary64)%Z (misrounded_powers Binary64) end.
Lemma powers_checked f E : checked f E -> power_ok f E = true.
Proof.
  destruct f; cbn [checked]; intros H.
  - apply (proj1 (forallb_forall _ _) float_powers), upto_in. lia.
  - pose proof (proj1 (forallb_forall _ _) double_powers _ H) as C. cbv beta in C. replace (E - bias Binary64 + bias Binary64)%Z with E in C by ring. exact C.
Qed.
Lemma upper_field f x : input f x -> (expo f x <= 2 ^ exponent_bits f - 2)%Z.
Proof.
  intros Hin. destruct (input_facts f x Hin) as (_ & F & _). rewrite is_finite_expo in F. pose proof (expo_range f x). apply negb_true_iff, Z.eqb_neq in F. lia.
Qed.
Lemma power_value f x : input f x -> fraction f x = 0%Z -> (1 <= expo f x)%Z -> Rabs (value f x) = bpow radix2 (expo f x - bias f).
Proof.
  intros Hin F E. rewrite (abs_value f x Hin). rewrite fraction_eq in F. unfold e0_of, n_of, e_of. rewrite F, Z.add_0_r.
  replace (expo f x =? 0)%Z with false by (symmetry; apply Z.eqb_neq; lia).
  destruct f; [change (IZR (2 ^ precision Binary32)) with (bpow radix2 23) | change (IZR (2 ^ precision Binary64)) with (bpow radix2 52)];
    rewrite <- bpow_plus; f_equal;
    [change (exp_min Binary32) with (-157)%Z; change (exponent_bits Binary32) with 8%Z | change (exp_min Binary64) with (-1085)%Z; change (exponent_bits Binary64) with 11%Z];
    unfold bias; lia.
Qed.
Lemma power_input f x : input f x -> fraction f x = 0%Z ->
  pattern f (expo f x * 2 ^ precision f) /\ (x = (expo f x * 2 ^ precision f)%Z \/ x = negate f (expo f x * 2 ^ precision f)).
Proof.
  intros Hin F. destruct (input_facts f x Hin) as (Hx & _). rewrite fraction_eq in F. destruct (fields f x Hx) as (s & S & E & _). rewrite F, Z.add_0_r in E.
  pose proof (expo_range f x) as R. unfold pattern, negate. rewrite full_w, half_w.
  assert (H : (2 ^ (extended_precision f - 1) = 2 ^ precision f * 2 ^ exponent_bits f)%Z) by (destruct f; reflexivity). rewrite H in E.
  pose proof (pp f) as P. set (a := expo f x) in *. clearbody a. set (A := (2 ^ precision f)%Z) in *. set (B := (2 ^ exponent_bits f)%Z) in *. clearbody A B.
  assert (L : (0 <= a * A < A * B)%Z) by nia. split; [lia|]. destruct S as [-> | ->]; [left; lia | right].
  replace (a * A <? A * B)%Z with true by (symmetry; apply Z.ltb_lt; lia). lia.
Qed.
Lemma power_result cfg f rs h x : input f x -> fraction f x = 0%Z -> (1 <= expo f x)%Z -> checked f (expo f x) ->
  exists r, grisu_exact cfg f rs nearest_to_even tie_to_even h x = Ok r /\
    (Rabs (IZR (fp_significand r) - Rabs (value f x) * bpow radix10 (- fp_exponent r)) <= / 2 <-> ~ misrounded f x).
Proof.
  intros Hin F E1 Ck. pose proof (powers_checked f (expo f x) Ck) as C. destruct (power_input f x Hin F) as [Py P].
  pose proof (power_value f x Hin F E1) as V. assert (Fin : finite f x = true) by apply Hin. unfold power_ok in C. set (y := (expo f x * 2 ^ precision f)%Z) in *. set (q := (expo f x - bias f)%Z) in *.
  destruct (grisu_exact debug_build f true nearest_to_even tie_to_even assert_finite y) as [r| | |] eqn:G; try discriminate C.
  assert (G2 : exists r2, grisu_exact debug_build f true nearest_to_even tie_to_even assert_finite x = Ok r2 /\ fp_significand r2 = fp_significand r /\ fp_exponent r2 = fp_exponent r).
  { destruct P as [P|P]; [exists r; rewrite P; auto|]. exists (flip_sign r). split; [|split; reflexivity]. rewrite P.
    pose proof (mirror_result debug_build f true nearest_to_even tie_to_even assert_finite y Py) as M. rewrite G in M. exact M. }
  destruct G2 as (r2 & G2 & Es & Ee). apply (debug_decides debug_build cfg) in G2; [|reflexivity].
  assert (G3 : grisu_exact cfg f true nearest_to_even tie_to_even h x = Ok r2) by (destruct h; [exact G2 | rewrite <- handler_passes; [exact G2 | exact Fin]]).
  exists (if rs then r2 else drop_sign r2). split; [destruct rs; [exact G3 | rewrite drop_sign_result, G3; reflexivity]|].
  replace (fp_significand (if rs then r2 else drop_sign r2)) with (fp_significand r) by (destruct rs; symmetry; exact Es).
  replace (fp_exponent (if rs then r2 else drop_sign r2)) with (fp_exponent r) by (destruct rs; symmetry; exact Ee).
  rewrite V, <- half_ok. apply eqb_prop in C. rewrite C, negb_true_iff, <- not_true_iff_false, existsb_exists.
  assert (I : (exists z, In z (misrounded_powers f) /\ (q =? z)%Z = true) <-> misrounded f x); [|tauto]. unfold misrounded. rewrite V. split; intros (z & Iz & Ez); exists z; (split; [exact Iz|]).
  - apply Z.eqb_eq in Ez. rewrite Ez. reflexivity.
  - apply Z.eqb_eq. apply (bpow_inj radix2). exact Ez.
Qed.
Lemma powers_low f q : In q (misrounded_powers f) -> (2 - bias f <= q)%Z.
Proof.
  intros H. assert (A : forallb (fun q => 2 - bias f <=? q)%Z (misrounded_powers f) = true) by (destruct f; reflexivity).
  apply Z.leb_le. exact (proj1 (forallb_forall _ _) A q H).
Qed.
Lemma even_rounded f x : input f x -> even_gaps f x -> ~ misrounded f x.
Proof.
  intros Hin Hg (q & I & V). apply powers_low in I. rewrite (abs_value f x Hin) in V. destruct (input_facts f x Hin) as (_ & _ & _ & _ & N & _).
  assert (Up : IZR (n_of f x) * bpow radix2 (e0_of f x) < bpow radix2 (precision f + 1 + e0_of f x)).
  { rewrite bpow_plus. apply Rmult_lt_compat_r; [apply bpow_gt_0|]. rewrite <- IZR_Zpower by (destruct f; discriminate). apply IZR_lt. apply N. }
  rewrite V in Up. apply lt_bpow in Up. unfold even_gaps in Hg. rewrite fraction_eq, exponent_field_eq in Hg. pose proof (expo_range f x) as R. pose proof (frac_range f x) as Fr.
  assert (Ce : (precision f + exponent_bits f + exp_min f = 1 - bias f + 0)%Z) by (destruct f; reflexivity).
  destruct (Z_le_gt_dec (expo f x) 1) as [L|L].
  - assert (e_of f x = exp_min f) by (unfold e_of; destruct (Z.eqb_spec (expo f x) 0); lia). unfold e0_of in *. lia.
  - assert (Fn : frac f x <> 0%Z) by lia.
    assert (Lo : bpow radix2 (precision f + e0_of f x) < IZR (n_of f x) * bpow radix2 (e0_of f x)).
    { rewrite bpow_plus. apply Rmult_lt_compat_r; [apply bpow_gt_0|]. rewrite <- IZR_Zpower by (destruct f; discriminate). apply IZR_lt. unfold n_of.
      replace (expo f x =? 0)%Z with false by (symmetry; apply Z.eqb_neq; lia). cbn [radix_val radix2]. lia. }
    rewrite V in Lo. apply lt_bpow in Lo. lia.
Qed.
(** ** Powers of two among the doubles: a decimal that is not the nearest one lies above, and the one below it is too far down *)
Section Edge.
Variables (f : fmt) (m : rounding_mode) (x : Z).
Hypothesis Hin : input f x.
Hypothesis Hm : is_nearest m = true.
Hypothesis He : is_edge f (e_of f x) (n_of f x) = true.
Local Notation neg := (Model.is_negative f x).
Local Notation q := (quarter f (e_of f x)).
Let X := IZR (n_of f x) * bpow radix2 (e0_of f x).
Lemma edge_reads y : 0 < y -> read f m (cond_Ropp neg y) = value f x -> X - q <= y <= X + 2 * q.
Proof using Hin Hm He.
  intros Hy. rewrite (reads_iff f m x Hin y Hy). unfold rin. rewrite (tag_nearest f m x Hm). unfold lo_u, hi_u. rewrite He.
  rewrite minus_IZR, plus_IZR, mult_IZR. pose proof (X_quarters f x) as XQ. fold X in XQ. intros [[A|[_ A]] [B|[_ B]]]; lra.
Qed.
Lemma edge_inside y : 0 < y -> X - q < y < X + 2 * q -> read f m (cond_Ropp neg y) = value f x.
Proof using Hin Hm He.
  intros Hy L. apply (reads_iff f m x Hin y Hy). unfold rin. rewrite (tag_nearest f m x Hm). unfold lo_u, hi_u. rewrite He.
  rewrite minus_IZR, plus_IZR, mult_IZR. pose proof (X_quarters f x) as XQ. fold X in XQ. split; left; lra.
Qed.
Variables (s e : Z).
Hypothesis Ps : (0 < s)%Z.
Hypothesis R : read f m (cond_Ropp neg (decimal s e)) = value f x.
Hypothesis C : forall t e', read f m (cond_Ropp neg (decimal t e')) = value f x -> (digits t <= digits s)%Z -> Rabs (decimal s e - X) <= Rabs (decimal t e' - X).
Local Notation p := (bpow radix10 e).
Lemma edge_misrounded : ~ Rabs (IZR s - X * bpow radix10 (- e)) <= / 2 ->
  exists t, s = (t + 1)%Z /\ IZR t * p + q <= X /\ 2 * X < (2 * IZR t + 1) * p /\ (IZR t + 1) * p <= X + 2 * q.
Proof using All.
  intros H. pose proof (bpow_gt_0 radix10 e) as Pp. destruct (pos_X f x Hin) as [PX Pq]. fold X in PX.
  assert (Pd : 0 < decimal s e) by (apply F2R_gt_0; cbn; lia). pose proof (edge_reads _ Pd R) as I. rewrite decimal_eq in *.
  assert (H2 : p / 2 < Rabs (IZR s * p - X)).
  { apply Rnot_le_lt. intros L. apply H. apply Rmult_le_reg_r with p; [exact Pp|]. replace (Rabs (IZR s - X * bpow radix10 (- e)) * p) with (Rabs (IZR s * p - X)); [lra|].
    replace (IZR s * p - X) with ((IZR s - X * bpow radix10 (- e)) * p) by (rewrite bpow_opp; field; lra). rewrite Rabs_mult, (Rabs_pos_eq p) by lra. reflexivity. }
  assert (D : forall t, (0 < t <= s)%Z -> (digits t <= digits s)%Z) by (intros; apply Zdigits_le; lia).
  destruct (Rle_lt_dec (IZR s * p) X) as [L|L].
  - exfalso. rewrite Rabs_left1 in H2 by lra. assert (Es : IZR (s + 1) * p = IZR s * p + p) by (rewrite plus_IZR; ring).
    assert (B : Rabs (IZR (s + 1) * p - X) < Rabs (IZR s * p - X)) by (rewrite (Rabs_left1 (IZR s * p - X)) by lra; apply Rabs_def1; lra).
    assert (Rs : read f m (cond_Ropp neg (IZR (s + 1) * p)) = value f x).
    { rewrite (Rabs_left1 (IZR s * p - X)) in B by lra. apply Rabs_def2 in B. apply edge_inside; lra. }
    destruct (Chars.digits_bounds s ltac:(lia)) as [B1 B2]. set (g := digits s) in *.
    assert (G : (0 < g)%Z) by (destruct (Z_lt_le_dec 0 g) as [G|G]; [exact G|]; assert (10 ^ g <= 10 ^ 0)%Z by (apply Z.pow_le_mono_r; lia); lia).
    destruct (Z_lt_le_dec (s + 1) (10 ^ g)) as [T|T].
    + assert (Dg : (digits (s + 1) <= g)%Z).
      { destruct (Chars.digits_bounds (s + 1) ltac:(lia)) as [T1 T2]. destruct (Z_le_gt_dec (digits (s + 1)) g) as [Q|Q]; [exact Q|].
        assert (10 ^ g <= 10 ^ (digits (s + 1) - 1))%Z by (apply Z.pow_le_mono_r; lia). lia. }
      specialize (C (s + 1)%Z e). rewrite decimal_eq in C. specialize (C Rs Dg). lra.
    + assert (T2 : (s + 1 = 1 * 10 ^ g)%Z) by lia. specialize (C 1%Z (e + g)%Z).
      rewrite <- (decimal_shift 1 e g) in C by lia. rewrite <- T2, decimal_eq in C. change (digits 1) with 1%Z in C. specialize (C Rs ltac:(lia)). lra.
  - rewrite Rabs_pos_eq in H2 by lra. exists (s - 1)%Z. assert (Es : IZR (s - 1) * p = IZR s * p - p) by (rewrite minus_IZR; ring).
    replace ((2 * IZR (s - 1) + 1) * p) with (2 * (IZR (s - 1) * p) + p) by ring. replace ((IZR (s - 1) + 1) * p) with (IZR (s - 1) * p + p) by ring. rewrite Es.
    split; [ring|]. split; [|lra]. apply Rnot_lt_le. intros A. assert (S1 : (0 < s - 1)%Z).
    { apply lt_IZR. apply Rmult_lt_reg_r with p; [exact Pp|]. rewrite Es. lra. }
    assert (Rs : read f m (cond_Ropp neg (IZR (s - 1) * p)) = value f x) by (apply edge_inside; lra).
    specialize (C (s - 1)%Z e). rewrite decimal_eq in C. specialize (C Rs (D (s - 1)%Z ltac:(lia))). rewrite (Rabs_pos_eq (IZR s * p - X)) in C by lra.
    assert (Rabs (IZR (s - 1) * p - X) < IZR s * p - X) by (apply Rabs_def1; lra). lra.
Qed.
End Edge.

(** ** For every 10^e only one power of two comes into question *)
(** a quarter of the unit in the last place of 2^q is to 10^e as [A] to [B] *)
Definition row_fine (A B q t : Z) : bool :=
  (2 * A <=? B) && (B <? 4 * A) && (t * B <=? 2 ^ 54 * A) && (2 ^ 54 * A <? (t + 1) * B) &&
  (existsb (Z.eqb q) (misrounded_powers Binary64) ||
   ((t + 1) mod 10 =? 0) || negb ((t * B + A <=? 2 ^ 54 * A) && (2 ^ 55 * A <? (2 * t + 1) * B) && ((t + 1) * B <=? 2 ^ 54 * A + 2 * A)))%Z.
Lemma row_sound A B q t u : (0 < B)%Z -> ((u + 1) mod 10 <> 0)%Z -> row_fine A B q t = true ->
  (u * B + A <= 2 ^ 54 * A)%Z -> (2 ^ 55 * A < (2 * u + 1) * B)%Z -> ((u + 1) * B <= 2 ^ 54 * A + 2 * A)%Z -> In q (misrounded_powers Binary64).
Proof.
  intros HB HM H H1 H2 H3. unfold row_fine in H. rewrite !andb_true_iff, !orb_true_iff in H. destruct H as ((((A1 & A2) & A3) & A4) & A5).
  destruct A5 as [[A5|A5]|A5]; [apply existsb_exists in A5; destruct A5 as (z & I & E); apply Z.eqb_eq in E; subst z; exact I| |]; exfalso.
  { apply Z.leb_le in A1, A3. apply Z.ltb_lt in A2, A4. assert (u = t) by nia. subst u. apply Z.eqb_eq in A5. contradiction. }
  apply Z.leb_le in A1, A3. apply Z.ltb_lt in A2, A4. assert (u = t) by nia. subst u.
  apply negb_true_iff in A5. rewrite !andb_false_iff, Z.leb_gt, Z.ltb_ge, Z.leb_gt in A5. lia.
Qed.
Fixpoint rows_fine (row : Z -> Z * Z -> bool) (p : Z) (rows : list (Z * Z)) : bool :=
  match rows with [] => true | r :: rows => row p r && rows_fine row (10 * p) rows end.
Lemma rows_nth row rows : forall a i r, (0 <= a)%Z -> rows_fine row (10 ^ a) rows = true -> nth_error rows i = Some r -> row (10 ^ (a + Z.of_nat i))%Z r = true.
Proof.
  induction rows as [|r0 rows IH]; intros a i r Ha H N; [destruct i; discriminate N|]. cbn [rows_fine] in H. apply andb_true_iff in H. destruct H as [H1 H2].
  destruct i as [|i]; cbn [nth_error] in N; [injection N as <-; rewrite Z.add_0_r; exact H1|].
  replace (10 * 10 ^ a)%Z with (10 ^ (a + 1))%Z in H2 by (rewrite Z.pow_add_r by lia; lia).
  replace (a + Z.of_nat (S i))%Z with (a + 1 + Z.of_nat i)%Z by lia. apply IH; [lia | exact H2 | exact N].
Qed.
Definition upper_row (p : Z) (r : Z * Z) : bool := (53 <=? fst r)%Z && row_fine (2 ^ (fst r - 53)) (2 * p) (fst r) (snd r).
Definition lower_row (p : Z) (r : Z * Z) : bool := (fst r <=? 54)%Z && row_fine p (2 ^ (54 - fst r)) (fst r) (snd r).
Lemma upper_fine : rows_fine upper_row (10 ^ 0) upper_rows = true. Proof. vm_cast_no_check (eq_refl true). Qed.
Lemma lower_fine : rows_fine lower_row (10 ^ 1) lower_rows = true. Proof. vm_cast_no_check (eq_refl true). Qed.
Lemma row_at rows i : (i < length rows)%nat -> exists r : Z * Z, nth_error rows i = Some r.
Proof. intros H. destruct (nth_error rows i) as [r|] eqn:E; [exists r; reflexivity | apply nth_error_None in E; lia]. Qed.
Lemma row_of e : (-323 <= e <= 293)%Z -> exists q t A B, (0 < A)%Z /\ (0 < B)%Z /\ row_fine A B q t = true /\ bpow radix2 (q - 54) * IZR B = bpow radix10 e * IZR A.
Proof.
  intros H. destruct (Z_le_gt_dec 0 e) as [L|L].
  - destruct (row_at upper_rows (Z.to_nat e)) as ([q t] & N); [change (length upper_rows) with 294%nat; lia|].
    pose proof (rows_nth _ _ 0 _ _ ltac:(lia) upper_fine N) as U. unfold upper_row in U. cbn [fst snd] in U. apply andb_true_iff in U. destruct U as [U1 U2]. apply Z.leb_le in U1.
    rewrite Z2Nat.id in U2 by lia. rewrite Z.add_0_l in U2. exists q, t, (2 ^ (q - 53))%Z, (2 * 10 ^ e)%Z.
    assert (0 < 10 ^ e)%Z by (apply Z.pow_pos_nonneg; lia). split; [apply Z.pow_pos_nonneg; lia|]. split; [lia|]. split; [exact U2|].
    rewrite mult_IZR. change 10%Z with (radix_val radix10). change (2 ^ (q - 53))%Z with (radix_val radix2 ^ (q - 53))%Z. rewrite !IZR_Zpower by lia.
    replace (bpow radix2 (q - 53)) with (2 * bpow radix2 (q - 54)) by (change 2 with (bpow radix2 1); rewrite <- bpow_plus; f_equal; ring). ring.
  - destruct (row_at lower_rows (Z.to_nat (- e - 1))) as ([q t] & N); [change (length lower_rows) with 323%nat; lia|].
    pose proof (rows_nth _ _ 1 _ _ ltac:(lia) lower_fine N) as U. unfold lower_row in U. cbn [fst snd] in U. apply andb_true_iff in U. destruct U as [U1 U2]. apply Z.leb_le in U1.
    rewrite Z2Nat.id in U2 by lia. replace (1 + (- e - 1))%Z with (- e)%Z in U2 by ring. exists q, t, (10 ^ (- e))%Z, (2 ^ (54 - q))%Z.
    split; [apply Z.pow_pos_nonneg; lia|]. split; [apply Z.pow_pos_nonneg; lia|]. split; [exact U2|].
    change 10%Z with (radix_val radix10). change (2 ^ (54 - q))%Z with (radix_val radix2 ^ (54 - q))%Z. rewrite !IZR_Zpower by lia. rewrite <- !bpow_plus.
    replace (q - 54 + (54 - q))%Z with 0%Z by ring. replace (e + - e)%Z with 0%Z by ring. reflexivity.
Qed.
Lemma edge_listed q e t : (-1021 <= q <= 1023)%Z -> ((t + 1) mod 10 <> 0)%Z ->
  let X := bpow radix2 q in let Q := bpow radix2 (q - 54) in let p := bpow radix10 e in
  IZR t * p + Q <= X -> 2 * X < (2 * IZR t + 1) * p -> (IZR t + 1) * p <= X + 2 * Q -> In q (misrounded_powers Binary64).
Proof.
  intros Hq HM X Q p H1 H2 H3. assert (EX : X = IZR (2 ^ 54) * Q) by (unfold X, Q; change (IZR (2 ^ 54)) with (bpow radix2 54); rewrite <- bpow_plus; f_equal; ring).
  pose proof (bpow_gt_0 radix2 (q - 54)) as PQ. fold Q in PQ. assert (L1 : 2 * Q < p) by lra. assert (L2 : p < 4 * Q) by lra.
  assert (F4 : 4 * Q = bpow radix2 (q - 52)) by (unfold Q; change 4 with (bpow radix2 2); rewrite <- bpow_plus; f_equal; ring).
  assert (F2 : 2 * Q = bpow radix2 (q - 53)) by (unfold Q; change 2 with (bpow radix2 1); rewrite <- bpow_plus; f_equal; ring).
  assert (Re : (-323 <= e <= 293)%Z).
  { split.
    - destruct (Z_le_gt_dec (-323) e) as [L|L]; [exact L|]. exfalso. assert (p <= bpow radix10 (-324)) by (apply bpow_le; lia).
      assert (bpow radix2 (-1074) <= 2 * Q) by (rewrite F2; apply bpow_le; lia).
      assert (bpow radix10 (-324) <= bpow radix2 (-1074)); [|lra]. change (-324)%Z with (- (324))%Z. change (-1074)%Z with (- (1074))%Z. rewrite !bpow_opp. apply Rinv_le; [apply bpow_gt_0|].
      rewrite <- !IZR_Zpower by lia. apply IZR_le, Z.leb_le. vm_compute. reflexivity.
    - destruct (Z_le_gt_dec e 293) as [L|L]; [exact L|]. exfalso. assert (bpow radix10 294 <= p) by (apply bpow_le; lia).
      assert (4 * Q <= bpow radix2 971) by (rewrite F4; apply bpow_le; lia).
      assert (bpow radix2 971 <= bpow radix10 294); [|lra]. rewrite <- !IZR_Zpower by lia. apply IZR_le, Z.leb_le. vm_compute. reflexivity. }
  destruct (row_of e Re) as (q0 & t0 & A & B & PA & PB & F & E). fold p in E. pose proof (bpow_gt_0 radix10 e) as Pp. fold p in Pp.
  apply IZR_lt in PA as RA. apply IZR_lt in PB as RB.
  assert (Eq : q0 = q).
  { pose proof F as F0. unfold row_fine in F0. rewrite !andb_true_iff in F0. destruct F0 as ((((A1 & A2) & _) & _) & _). apply Z.leb_le, IZR_le in A1. apply Z.ltb_lt, IZR_lt in A2. rewrite mult_IZR in A1, A2.
    set (Q0 := bpow radix2 (q0 - 54)) in *. pose proof (bpow_gt_0 radix2 (q0 - 54)) as PQ0. fold Q0 in PQ0.
    assert (M1 : 2 * Q0 <= p).
    { apply Rmult_le_reg_r with (IZR B); [exact RB|]. replace (2 * Q0 * IZR B) with (p * (2 * IZR A)) by (rewrite <- Rmult_assoc, (Rmult_comm p 2), Rmult_assoc, <- E; ring). apply Rmult_le_compat_l; lra. }
    assert (M2 : p < 4 * Q0).
    { apply Rmult_lt_reg_r with (IZR B); [exact RB|]. replace (4 * Q0 * IZR B) with (p * (4 * IZR A)) by (rewrite <- Rmult_assoc, (Rmult_comm p 4), Rmult_assoc, <- E; ring). apply Rmult_lt_compat_l; lra. }
    assert (N2 : 2 * Q0 = bpow radix2 (q0 - 53)) by (unfold Q0; change 2 with (bpow radix2 1); rewrite <- bpow_plus; f_equal; ring).
    assert (N4 : 4 * Q0 = bpow radix2 (q0 - 52)) by (unfold Q0; change 4 with (bpow radix2 2); rewrite <- bpow_plus; f_equal; ring).
    assert (bpow radix2 (q0 - 53) < bpow radix2 (q - 52)) as T1 by lra. assert (bpow radix2 (q - 53) < bpow radix2 (q0 - 52)) as T2 by lra.
    apply lt_bpow in T1, T2. lia. }
  subst q0. fold Q in E.
  assert (T : forall a b, IZR a * p <= IZR b * Q -> (a * B <= b * A)%Z).
  { intros a b L. apply le_IZR. rewrite !mult_IZR. apply Rmult_le_reg_l with p; [exact Pp|].
    replace (p * (IZR b * IZR A)) with (IZR b * Q * IZR B) by (rewrite Rmult_assoc, E; ring). replace (p * (IZR a * IZR B)) with (IZR a * p * IZR B) by ring. apply Rmult_le_compat_r; lra. }
  assert (T' : forall a b, IZR b * Q < IZR a * p -> (b * A < a * B)%Z).
  { intros a b L. apply lt_IZR. rewrite !mult_IZR. apply Rmult_lt_reg_l with p; [exact Pp|].
    replace (p * (IZR b * IZR A)) with (IZR b * Q * IZR B) by (rewrite Rmult_assoc, E; ring). replace (p * (IZR a * IZR B)) with (IZR a * p * IZR B) by ring. apply Rmult_lt_compat_r; lra. }
  rewrite EX in *. specialize (T t (2 ^ 54 - 1)%Z) as U1. specialize (T' (2 * t + 1)%Z (2 ^ 55)%Z) as U2. specialize (T (t + 1)%Z (2 ^ 54 + 2)%Z) as U3.
  rewrite minus_IZR in U1. rewrite (plus_IZR (2 * t) 1), (mult_IZR 2 t) in U2. rewrite (plus_IZR t 1), (plus_IZR (2 ^ 54) 2) in U3. replace (IZR (2 ^ 55)) with (2 * IZR (2 ^ 54)) in U2 by (rewrite <- mult_IZR; f_equal).
  clear EX F4 F2 T T' E L1 L2. clearbody X. set (K := IZR (2 ^ 54)) in *. clearbody K.
  apply (row_sound A B q t0 t PB HM F); [specialize (U1 ltac:(lra)) | specialize (U2 ltac:(lra)) | specialize (U3 ltac:(lra))]; lia.
Qed.
Lemma double_result cfg rs h x : input Binary64 x -> fraction Binary64 x = 0%Z -> (2 <= expo Binary64 x)%Z -> ~ In (expo Binary64 x - bias Binary64)%Z (misrounded_powers Binary64) ->
  exists r, grisu_exact cfg Binary64 rs nearest_to_even tie_to_even h x = Ok r /\
    Rabs (IZR (fp_significand r) - Rabs (value Binary64 x) * bpow radix10 (- fp_exponent r)) <= / 2.
Proof.
  intros Hin F E N. pose proof (power_value Binary64 x Hin F ltac:(lia)) as V. pose proof (upper_field Binary64 x Hin) as U. change (2 ^ exponent_bits Binary64 - 2)%Z with 2046%Z in U.
  destruct (nearest_closest cfg Binary64 rs nearest_to_even tie_to_even h x Hin eq_refl ltac:(discriminate)) as (r & G & C).
  destruct (returned cfg Binary64 rs nearest_to_even tie_to_even h x Hin eq_refl) as (r' & E2 & [Ps Pm _ _] & R). assert (r' = r) by congruence. subst r'. clear E2.
  exists r. split; [exact G|]. unfold signed in *. rewrite (neg_ok Binary64 x Hin) in *. set (neg := Model.is_negative Binary64 x) in *. set (s := fp_significand r) in *. set (e := fp_exponent r) in *.
  unfold reads_back in R. rewrite decimal_signed in R. rewrite (abs_value Binary64 x Hin) in V |- *.
  assert (He : is_edge Binary64 (e_of Binary64 x) (n_of Binary64 x) = true).
  { rewrite fraction_eq in F. unfold is_edge, n_of, e_of. rewrite F, Z.add_0_r. replace (expo Binary64 x =? 0)%Z with false by (symmetry; apply Z.eqb_neq; lia).
    rewrite Z.eqb_refl. apply negb_true_iff, Z.eqb_neq. lia. }
  destruct (Rle_lt_dec (Rabs (IZR s - IZR (n_of Binary64 x) * bpow radix2 (e0_of Binary64 x) * bpow radix10 (- e))) (/ 2)) as [L|L]; [exact L|]. exfalso. apply N.
  destruct (edge_misrounded Binary64 nearest_to_even x Hin eq_refl He s e Ps R) as (t & Et & T1 & T2 & T3); [|lra|].
  - intros t e' Rt Dt. specialize (C (cond_Zopp neg t) e'). unfold reads_back in C. rewrite !(error_mag Binary64 x Hin) in C. fold neg in C. rewrite !cond_Zopp_twice, !digits_cond in C.
    apply C; [rewrite decimal_signed; exact Rt | exact Dt].
  - assert (Q : quarter Binary64 (e_of Binary64 x) = bpow radix2 (expo Binary64 x - bias Binary64 - 54)).
    { rewrite quarter_bpow. f_equal. unfold e_of. replace (expo Binary64 x =? 0)%Z with false by (symmetry; apply Z.eqb_neq; lia).
      change (exp_min Binary64) with (-1085)%Z. change (exponent_bits Binary64) with 11%Z. unfold bias. lia. }
    rewrite V, Q in *. apply (edge_listed _ e t); try assumption; [unfold bias; lia | rewrite <- Et; exact Pm].
Qed.
Lemma rounded_exactly cfg f rs h x : input f x ->
  exists r, grisu_exact cfg f rs nearest_to_even tie_to_even h x = Ok r /\
    (Rabs (IZR (fp_significand r) - Rabs (value f x) * bpow radix10 (- fp_exponent r)) <= / 2 <-> ~ misrounded f x).
Proof.
  intros Hin. assert (D : even_gaps f x \/ (fraction f x = 0 /\ 2 <= expo f x)%Z) by (unfold even_gaps; rewrite exponent_field_eq; lia).
  destruct D as [D|[F E]].
  - destruct (rounded_digits cfg f rs nearest_to_even tie_to_even h x Hin eq_refl ltac:(discriminate) D) as (r & G & _ & H & _).
    exists r. split; [exact G|]. split; [intros _; exact (even_rounded f x Hin D) | intros _; exact H].
  - assert (Ck : checked f (expo f x) \/ (f = Binary64 /\ ~ In (expo f x - bias f)%Z (misrounded_powers f))).
    { destruct f; [left; pose proof (upper_field Binary32 x Hin) as U; change (2 ^ exponent_bits Binary32 - 2)%Z with 254%Z in U; cbn [checked]; lia|].
      destruct (in_dec Z.eq_dec (expo Binary64 x - bias Binary64)%Z (misrounded_powers Binary64)) as [I|I]; [left; exact I | right; split; [reflexivity | exact I]]. }
    destruct Ck as [Ck|[-> N]]; [apply power_result; [exact Hin | exact F | lia | exact Ck]|].
    destruct (double_result cfg rs h x Hin F E N) as (r & G & H). exists r. split; [exact G|]. split; [intros _ | intros _; exact H].
    intros (q & I & V). rewrite (power_value Binary64 x Hin F ltac:(lia)) in V. apply (bpow_inj radix2) in V. rewrite V in N. exact (N I).
Qed.
(** 2^90 as a float *)
Lemma misrounded_case : misrounded Binary32 0x6c800000.
Proof.
  exists 90%Z. split; [right; right; left; reflexivity|].
  rewrite (power_value Binary32 0x6c800000); [reflexivity | apply input_check; reflexivity | reflexivity | apply Z.leb_le; reflexivity].
Qed.
