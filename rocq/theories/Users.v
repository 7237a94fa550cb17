(** * Consequences for users: short decimals, integers, error bounds, agreement of policies *)

From Coq Require Import ZArith Reals List Lra Lia Bool.
From Flocq Require Import Core IEEE754.Binary IEEE754.Bits.
From Verif Require Import Machine Model Spec UserSpec Link Reading Bridge ReadsBack Shortest Main Results Inward Claims Signs Outputs Unique.
Open Scope R_scope.

Local Instance prec_pos f : Prec_gt_0 (prec f).
Proof. destruct f; reflexivity. Qed.
Local Instance valid_fexp f : Valid_exp (FLT_exp (emin f) (prec f)).
Proof. apply FLT_exp_valid, prec_pos. Qed.
Local Instance mono_fexp f : Monotone_exp (FLT_exp (emin f) (prec f)).
Proof. apply FLT_exp_monotone. Qed.

Section Input.
Variables (f : fmt) (m : rounding_mode) (x : Z).
Hypothesis Hin : input f x.
Local Notation neg := (negative f x).
Local Notation n := (n_of f x).
Local Notation e0 := (e0_of f x).
Local Notation I := (fun y => read f m (cond_Ropp neg y) = value f x).
Local Notation V := (IZR n * bpow radix2 e0).
Local Notation fexp := (FLT_exp (emin f) (prec f)).

Lemma V_pos : 0 < V.
Proof. pose proof (spec_n f x Hin). apply Rmult_lt_0_compat; [apply IZR_lt; lia | apply bpow_gt_0]. Qed.
Lemma V_format : generic_format radix2 fexp V.
Proof. pose proof (spec_n f x Hin). apply generic_int; [lia | apply spec_e0, Hin]. Qed.
Lemma V_abs : Rabs (value f x) = V.
Proof.
  rewrite (input_value f x Hin). pose proof V_pos. destruct neg; cbn [cond_Ropp]; [rewrite Rabs_Ropp|]; apply Rabs_pos_eq; lra.
Qed.
Lemma read_cond y : generic_format radix2 fexp y -> read f m (cond_Ropp neg y) = cond_Ropp neg y.
Proof.
  intros G. apply read_generic. destruct neg; cbn [cond_Ropp]; [apply generic_format_opp|]; exact G.
Qed.
(** an interval around the input without further numbers of the format *)
Lemma I_format y : I y -> generic_format radix2 fexp y -> y = V.
Proof. intros H G. cbv beta in H. rewrite (read_cond y G), (input_value f x Hin) in H. apply cond_Ropp_inj in H. exact H. Qed.
Lemma I_below y z : I y -> generic_format radix2 fexp z -> V < z -> y <= z.
Proof.
  intros H G L. destruct (Rle_lt_dec y z) as [|C]; [assumption|]. exfalso.
  assert (I z) by (apply (I_convex f m x Hin V z y); [lra | apply (I_V f m x Hin) | exact H]).
  pose proof (I_format z H0 G). lra.
Qed.
Lemma I_above y z : I y -> generic_format radix2 fexp z -> z < V -> z <= y.
Proof.
  intros H G L. destruct (Rle_lt_dec z y) as [|C]; [assumption|]. exfalso.
  assert (I z) by (apply (I_convex f m x Hin y z V); [lra | exact H | apply (I_V f m x Hin)]).
  pose proof (I_format z H0 G). lra.
Qed.

Lemma I_width y : I y -> V - ulp radix2 fexp V <= y <= V + ulp radix2 fexp V.
Proof.
  intros H. pose proof V_pos as VP. pose proof V_format as VF. split.
  - pose proof (generic_format_pred radix2 fexp V VF) as G. pose proof (pred_lt_id radix2 fexp V ltac:(lra)) as L.
    apply Rle_trans with (pred radix2 fexp V); [|exact (I_above y _ H G L)].
    pose proof (pred_plus_ulp radix2 fexp V VP VF) as E.
    assert (ulp radix2 fexp (pred radix2 fexp V) <= ulp radix2 fexp V).
    { apply ulp_le_pos; [apply valid_fexp | apply mono_fexp | apply pred_ge_0; [apply valid_fexp | exact VP | exact VF] | lra]. }
    lra.
  - rewrite <- succ_eq_pos by lra. apply I_below; [exact H | apply generic_format_succ; [apply valid_fexp | exact VF] | apply succ_gt_id; lra].
Qed.

(** ** Short decimals *)
Lemma ulp_bound : normal f x -> ulp radix2 fexp V * bpow radix2 (prec f - 1) <= V.
Proof.
  unfold normal. rewrite V_abs. intros Hn. pose proof V_pos as VP. rewrite ulp_neq_0 by lra. unfold cexp, FLT_exp.
  assert (Hm : (emin f + prec f - 1 < mag radix2 V)%Z).
  { apply mag_gt_bpow. rewrite Rabs_pos_eq by lra. exact Hn. }
  rewrite Z.max_l by lia. rewrite <- bpow_plus. replace (mag radix2 V - prec f + (prec f - 1))%Z with (mag radix2 V - 1)%Z by ring.
  pose proof (bpow_mag_le radix2 V ltac:(lra)) as B. rewrite Rabs_pos_eq in B by lra. exact B.
Qed.

Lemma grid_of s e j : (0 < s)%Z -> (j <= e)%Z -> exists a, decimal s e = IZR a * p10 j.
Proof.
  intros Hs Hj. exists (s * 10 ^ (e - j))%Z. rewrite <- (decimal_eq (s * 10 ^ (e - j)) j), decimal_shift by lia.
  f_equal. ring.
Qed.

Lemma short_distinct s e s' e' : normal f x -> (0 < s)%Z -> (0 < s')%Z -> (digits s <= dig f)%Z -> (digits s' <= dig f)%Z ->
  I (decimal s e) -> I (decimal s' e') -> ~ decimal s e < decimal s' e'.
Proof.
  intros Hn Hs Hs' D D' H H' L. pose proof V_pos as VP.
  pose proof (digits_bounds s e Hs) as [B1 B2]. pose proof (digits_bounds s' e' Hs') as [B1' B2'].
  set (j := (digits s + e - dig f)%Z).
  assert (digits s - 1 + e < digits s' + e')%Z by (apply (lt_bpow radix10); lra).
  destruct (grid_of s e j Hs) as [a Ea]; [unfold j; lia|]. destruct (grid_of s' e' j Hs') as [a' Ea']; [unfold j; lia|].
  assert (Haa : (a + 1 <= a')%Z).
  { apply Z.le_succ_l. apply lt_IZR. apply Rmult_lt_reg_r with (p10 j); [apply bpow_gt_0|]. rewrite <- Ea, <- Ea'. exact L. }
  assert (G : p10 j <= decimal s' e' - decimal s e).
  { rewrite Ea, Ea'. apply IZR_le in Haa. rewrite plus_IZR in Haa. pose proof (bpow_gt_0 radix10 j). nra. }
  assert (GJ : decimal s e < p10 j * IZR (10 ^ dig f)).
  { apply Rlt_le_trans with (1 := B2). unfold j. replace (digits s + e)%Z with (digits s + e - dig f + dig f)%Z at 1 by ring.
    rewrite bpow_plus. rewrite <- (IZR_Zpower radix10 (dig f)) by (destruct f; discriminate). apply Rle_refl. }
  pose proof (I_width _ H) as W. pose proof (I_width _ H') as W'. pose proof (ulp_bound Hn) as U.
  set (u := ulp radix2 fexp V) in *. assert (U0 : 0 <= u) by apply ulp_ge_0.
  rewrite <- (IZR_Zpower radix2 (prec f - 1)) in U by (destruct f; discriminate).
  assert (K : 3 * IZR (10 ^ dig f) <= IZR (radix2 ^ (prec f - 1))) by (rewrite <- mult_IZR; apply IZR_le; destruct f; vm_compute; discriminate).
  assert (K10 : 10 <= IZR (10 ^ dig f)) by (apply IZR_le; destruct f; vm_compute; discriminate).
  set (T := IZR (10 ^ dig f)) in *. set (B := IZR (radix2 ^ (prec f - 1))) in *.
  assert (G2 : p10 j <= 2 * u) by lra. assert (V - u < 2 * u * T) by nra. assert (u * (3 * T) <= u * B) by nra. nra.
Qed.

Lemma short_unique s e s' e' : normal f x -> (digits s <= dig f)%Z -> (digits s' <= dig f)%Z ->
  reads_back f m x s e -> reads_back f m x s' e' -> decimal s e = decimal s' e'.
Proof.
  intros Hn D D' H H'.
  assert (P : forall t a, reads_back f m x t a -> (0 < cond_Zopp neg t)%Z /\ I (decimal (cond_Zopp neg t) a)).
  { intros t a R. assert (RI : I (decimal (cond_Zopp neg t) a)) by (cbv beta; rewrite <- decimal_signed, cond_Zopp_twice; exact R).
    split; [|exact RI]. apply (decimal_pos _ a), (I_pos f m x Hin), RI. }
  destruct (P _ _ H) as [S1 I1]. destruct (P _ _ H') as [S2 I2].
  assert (E : decimal (cond_Zopp neg s) e = decimal (cond_Zopp neg s') e').
  { apply Rle_antisym; apply Rnot_lt_le; apply short_distinct; try assumption; rewrite digits_signed; assumption. }
  rewrite !decimal_signed in E. apply cond_Ropp_inj in E. exact E.
Qed.

(** ** Integers *)
Lemma integer_unique k : (0 < k)%Z -> V < IZR (2 ^ prec f) -> (exists v, V = IZR v) -> I (IZR k) -> IZR k = V.
Proof.
  intros Hk HV [v Ev] H.
  assert (F : forall z, (0 <= z <= 2 ^ prec f)%Z -> generic_format radix2 fexp (IZR z)).
  { intros z Hz. destruct (Z.eq_dec z (2 ^ prec f)) as [->|N].
    - change 2%Z with (radix_val radix2). rewrite IZR_Zpower by (destruct f; discriminate). apply generic_format_bpow.
      unfold FLT_exp. destruct f; vm_compute; discriminate.
    - replace (IZR z) with (IZR z * bpow radix2 0) by (cbn; ring). apply generic_int; [lia | destruct f; discriminate]. }
  destruct (Z.le_gt_cases k (2 ^ prec f)) as [L|L]; [apply I_format; [exact H | apply F; lia]|].
  exfalso. pose proof (I_below _ _ H (F (2 ^ prec f)%Z ltac:(destruct f; vm_compute; split; discriminate)) HV) as B.
  apply le_IZR in B. lia.
Qed.
End Input.

(** ** Results *)
Lemma minimal_result cfg f rs m crs h x : input f x -> minimal m f x = true -> exists r, grisu_exact cfg f rs m crs h x = Ok r /\
  in_range f r /\ shortest f m x (signed f x r) (fp_exponent r).
Proof.
  intros Hin Hm. unfold minimal in Hm. destruct (nearest_or_outward m (negative f x)) eqn:N.
  - destruct (returned cfg f rs m crs h x Hin) as (r & E & R & _); [unfold returns; rewrite N; reflexivity|].
    exists r. split; [exact E|]. split; [exact R|]. apply (b_short _ _ _ _ _ (g_basic _ _ _ _ _ _ (either_result cfg f rs m crs h x Hin r N E))).
  - cbn [orb] in Hm. apply negb_true_iff, orb_false_iff in Hm. destruct Hm as [H L].
    destruct (inward_shortest cfg f rs m crs h x Hin (inward_otherwise _ _ N) H L) as (r & E & S).
    destruct (returned cfg f rs m crs h x Hin) as (r' & E' & R & _); [unfold returns; rewrite N, H; reflexivity|].
    rewrite E in E'. injection E' as <-. exists r. auto.
Qed.

Lemma short_survives cfg f rs m crs h x s e : input f x -> normal f x -> minimal m f x = true ->
  (digits s <= dig f)%Z -> read f m (decimal s e) = value f x ->
  exists r, grisu_exact cfg f rs m crs h x = Ok r /\ decimal (signed f x r) (fp_exponent r) = decimal s e.
Proof.
  intros Hin Hn Hm D R. destruct (minimal_result cfg f rs m crs h x Hin Hm) as (r & E & _ & [B S]).
  exists r. split; [exact E|]. apply (short_unique f m x Hin); try assumption.
  apply Z.le_trans with (2 := D). apply (S s e), R.
Qed.

Lemma ones_n f x : all_ones f x = true -> n_of f x = (2 ^ prec f - 1)%Z /\ e0_of f x = (emin f - 1 + exponent_field f x)%Z.
Proof.
  unfold all_ones. rewrite fraction_eq, field_eq, andb_true_iff, negb_true_iff, Z.eqb_eq.
  intros [A B]. unfold e0_of, n_of, e_of. rewrite B, A. split; [destruct f; reflexivity|].
  assert (emin f = ExpFacts.exp_min f + exponent_bits f)%Z by (destruct f; reflexivity). lia.
Qed.
Lemma integer_minimal f m x v : input f x -> value f x = IZR v -> (Z.abs v < 2 ^ prec f)%Z -> minimal m f x = true.
Proof.
  intros Hin Ev Hv. unfold minimal. apply orb_true_iff. right. apply negb_true_iff. unfold halts, lengthened.
  destruct (all_ones f x) eqn:O; [|reflexivity]. cbn [andb]. destruct (ones_n f x O) as [En Ee].
  assert (EV : IZR (n_of f x) * bpow radix2 (e0_of f x) = IZR (Z.abs v)) by (rewrite <- (V_abs f x Hin), Ev, abs_IZR; reflexivity).
  assert (E0 : e0_of f x = 0%Z).
  { destruct (Z.lt_trichotomy (e0_of f x) 0) as [L|[E|L]]; [|exact E|]; exfalso.
    - assert (H : n_of f x = (Z.abs v * 2 ^ (- e0_of f x))%Z).
      { apply eq_IZR. rewrite mult_IZR. change 2%Z with (radix_val radix2). rewrite IZR_Zpower by lia. rewrite <- EV, Rmult_assoc, <- bpow_plus.
        rewrite Z.add_opp_diag_r. cbn. ring. }
      rewrite En in H. apply (f_equal Z.odd) in H. rewrite Z.odd_mul, Z.odd_pow in H by lia. rewrite andb_false_r in H. destruct f; discriminate.
    - assert (H : (n_of f x * 2 ^ e0_of f x = Z.abs v)%Z).
      { apply eq_IZR. rewrite mult_IZR. change 2%Z with (radix_val radix2). rewrite IZR_Zpower by lia. exact EV. }
      replace (e0_of f x) with (1 + (e0_of f x - 1))%Z in H by ring. rewrite Z.pow_add_r in H by lia.
      assert (0 < 2 ^ (e0_of f x - 1))%Z by (apply Z.pow_pos_nonneg; lia). rewrite En in H.
      assert (2 <= 2 ^ prec f)%Z by (destruct f; discriminate). nia. }
  rewrite E0 in Ee. assert (X : exponent_field f x = (1 - emin f)%Z) by lia. rewrite X. destruct f; reflexivity.
Qed.

Lemma p10_IZR k : (0 <= k)%Z -> p10 k = IZR (10 ^ k).
Proof. intros. symmetry. apply (IZR_Zpower radix10). assumption. Qed.

Lemma integers cfg f rs m crs h x v : input f x -> value f x = IZR v -> (Z.abs v < 2 ^ prec f)%Z ->
  exists r, grisu_exact cfg f rs m crs h x = Ok r /\ (0 <= fp_exponent r)%Z /\ (signed f x r * 10 ^ fp_exponent r)%Z = v.
Proof.
  intros Hin Ev Hv. destruct (minimal_result cfg f rs m crs h x Hin (integer_minimal f m x v Hin Ev Hv)) as (r & E & R & [B S]).
  exists r. split; [exact E|]. set (s := fp_significand r). set (e := fp_exponent r) in *.
  assert (Hs : (0 < s)%Z) by apply R. set (w := Z.abs v).
  assert (VE : IZR (n_of f x) * bpow radix2 (e0_of f x) = IZR w) by (unfold w; rewrite <- (V_abs f x Hin), Ev, abs_IZR; reflexivity).
  assert (Hw : (0 < w)%Z) by (apply lt_IZR; rewrite <- VE; apply (V_pos f x Hin)).
  pose proof (integer_unique f m x Hin) as IU. rewrite VE in IU.
  assert (Hex : exists z, IZR w = IZR z) by (exists w; reflexivity).
  assert (HV : IZR w < IZR (2 ^ prec f)) by (apply IZR_lt; exact Hv).
  assert (IS : read f m (cond_Ropp (negative f x) (decimal s e)) = value f x) by (rewrite <- decimal_signed; exact B).
  assert (IW : read f m (cond_Ropp (negative f x) (IZR w)) = value f x) by (rewrite <- VE; apply (I_V f m x Hin)).
  assert (He : (0 <= e)%Z).
  { destruct (Z.le_gt_cases 0 e) as [|L]; [assumption|]. exfalso.
    (* the integer, without its trailing zeros, has as many digits *)
    assert (T : exists t k, (0 <= k)%Z /\ w = (t * 10 ^ k)%Z /\ (0 < t)%Z /\ (t mod 10 <> 0)%Z).
    { clear - Hw. revert Hw. pattern w. apply Zlt_0_ind; [|lia]. intros y IH _ Hy.
      destruct (Z.eq_dec (y mod 10) 0) as [Z0|NZ].
      - pose proof (Z.div_mod y 10 ltac:(lia)) as DM. rewrite Z0 in DM.
        destruct (IH (y / 10)%Z) as (t & k & Hk & Et & Ht & Hm); [lia | lia |].
        exists t, (k + 1)%Z. rewrite Z.pow_add_r by lia. repeat split; try lia; assumption.
      - exists y, 0%Z. repeat split; try lia; assumption. }
    destruct T as (t & k & Hk & Et & Ht & Hm).
    assert (ET : decimal t k = IZR w) by (rewrite decimal_eq, p10_IZR, <- mult_IZR, <- Et by exact Hk; reflexivity).
    assert (D : (digits s <= digits t)%Z).
    { rewrite <- (digits_signed (negative f x) s), <- (digits_signed (negative f x) t). apply (S _ k).
      unfold reads_back. rewrite decimal_signed, ET. exact IW. }
    pose proof (digits_bounds s e Hs) as [_ U]. pose proof (digits_bounds t 0 Ht) as [Lo _].
    assert (Dt : (0 < digits t)%Z) by (pose proof (digits_pos t Ht); lia).
    rewrite decimal_eq in Lo. cbn [p10] in Lo. replace (digits t - 1 + 0)%Z with (digits t - 1)%Z in Lo by ring.
    change (p10 0) with 1 in Lo. rewrite Rmult_1_r in Lo.
    assert (P1 : decimal s e < p10 (digits t - 1)) by (apply Rlt_le_trans with (1 := U); apply bpow_le; lia).
    assert (tw : (t <= w)%Z). { rewrite Et. assert (0 < 10 ^ k)%Z by (apply Z.pow_pos_nonneg; lia). nia. }
    apply IZR_le in tw.
    assert (IP : read f m (cond_Ropp (negative f x) (p10 (digits t - 1))) = value f x).
    { apply (I_convex f m x Hin (decimal s e) _ (IZR w)); [lra | exact IS | exact IW]. }
    rewrite p10_IZR in IP by lia. assert (0 < 10 ^ (digits t - 1))%Z by (apply Z.pow_pos_nonneg; lia).
    pose proof (IU _ H HV Hex IP) as EP. apply eq_IZR in EP. rewrite p10_IZR in Lo, P1 by lia. apply le_IZR in Lo.
    assert (t = w) by (apply le_IZR in tw; lia).
    assert (digits t = 1)%Z.
    { destruct (Z.eq_dec (digits t) 1) as [|N1]; [assumption|]. exfalso. apply Hm. rewrite H0, <- EP.
      replace (digits t - 1)%Z with (1 + (digits t - 2))%Z by ring. rewrite Z.pow_add_r by lia. rewrite Z.mul_comm. apply Z_mod_mult. }
    rewrite H1 in EP, D. change (1 = w)%Z in EP.
    (* then 15/16 would read as 1 *)
    assert (S9 : (s <= 9)%Z).
    { assert (D1 : digits s = 1%Z) by (pose proof (digits_pos s Hs); lia).
      pose proof (digits_bounds s 0 Hs) as [_ U0]. rewrite D1, decimal_eq in U0. change (p10 (1 + 0)) with (IZR 10) in U0.
      change (p10 0) with 1 in U0. rewrite Rmult_1_r in U0. apply lt_IZR in U0. lia. }
    assert (B9 : decimal s e <= 15 / 16).
    { rewrite decimal_eq. apply IZR_le in S9. assert (p10 e <= p10 (-1)) by (apply bpow_le; lia). change (p10 (-1)) with (/ 10) in H2.
      pose proof (bpow_gt_0 radix10 e). apply IZR_lt in Hs. nra. }
    assert (I15 : read f m (cond_Ropp (negative f x) (15 / 16)) = value f x).
    { apply (I_convex f m x Hin (decimal s e) _ (IZR w)); [rewrite <- EP; lra | exact IS | exact IW]. }
    assert (E15 : 15 / 16 = IZR (n_of f x) * bpow radix2 (e0_of f x)).
    { apply (I_format f m x Hin); [exact I15|]. replace (15 / 16) with (IZR 15 * bpow radix2 (-4)) by (cbn; lra).
      apply generic_int; destruct f; vm_compute; try reflexivity; discriminate. }
    rewrite VE, <- EP in E15. lra. }
  split; [exact He|].
  assert (A : IZR (s * 10 ^ e) = IZR w).
  { apply IU; [apply Z.mul_pos_pos; [exact Hs | apply Z.pow_pos_nonneg; lia] | exact HV | exact Hex |].
    rewrite mult_IZR, <- p10_IZR, <- decimal_eq by exact He. exact IS. }
  apply eq_IZR in A. unfold signed. fold s. apply eq_IZR. rewrite mult_IZR. rewrite <- Ev, (input_value f x Hin), VE, <- A, mult_IZR.
  destruct (negative f x); cbn [cond_Zopp cond_Ropp]; [rewrite opp_IZR; ring | reflexivity].
Qed.

(** ** Identity of bit patterns *)
Lemma value_inj f x y : pattern f x -> pattern f y -> finite f x = true -> finite f y = true -> value f x = value f y -> value f x <> 0 -> x = y.
Proof.
  unfold pattern, finite, value. destruct f; cbn [width]; intros Px Py Fx Fy E N.
  - assert (Q : b32_of_bits x = b32_of_bits y).
    { apply B2R_inj; [| |exact E].
      - destruct (b32_of_bits x); try discriminate; [contradict N; reflexivity | reflexivity].
      - rewrite E in N. destruct (b32_of_bits y); try discriminate; [contradict N; reflexivity | reflexivity]. }
    unfold b32_of_bits in Q. apply (f_equal (bits_of_binary_float 23 8)) in Q.
    rewrite !bits_of_binary_float_of_bits in Q; assumption.
  - assert (Q : b64_of_bits x = b64_of_bits y).
    { apply B2R_inj; [| |exact E].
      - destruct (b64_of_bits x); try discriminate; [contradict N; reflexivity | reflexivity].
      - rewrite E in N. destruct (b64_of_bits y); try discriminate; [contradict N; reflexivity | reflexivity]. }
    unfold b64_of_bits in Q. apply (f_equal (bits_of_binary_float 52 11)) in Q.
    rewrite !bits_of_binary_float_of_bits in Q; assumption.
Qed.
Lemma same_bits cfg f rs m crs h x r y : input f x -> grisu_exact cfg f rs m crs h x = Ok r ->
  pattern f y -> finite f y = true -> (value f y = read f m (decimal (signed f x r) (fp_exponent r)) <-> y = x).
Proof.
  intros Hin E Py Fy. assert (B : reads_back f m x (signed f x r) (fp_exponent r)).
  { destruct (nearest_or_outward m (negative f x)) eqn:N.
    - apply (b_short _ _ _ _ _ (g_basic _ _ _ _ _ _ (either_result cfg f rs m crs h x Hin r N E))).
    - apply (inward_round_trip cfg f rs m crs h x Hin (inward_otherwise _ _ N)), E. }
  unfold reads_back in B. rewrite B. destruct Hin as (Px & Fx & Nz). split; [|intros ->; reflexivity].
  intros V. apply (value_inj f); try assumption. rewrite V. exact Nz.
Qed.

(** ** Distance to the input *)
Section Bounds.
Variables (f : fmt) (m : rounding_mode) (x : Z).
Hypothesis Hin : input f x.
Local Notation fexp := (FLT_exp (emin f) (prec f)).


Lemma nearest_error s e : is_nearest m = true -> reads_back f m x s e -> error f x s e <= spacing f x / 2.
Proof.
  intros Hm R. unfold error, spacing. rewrite <- R. unfold read. rewrite Rabs_minus_sym.
  assert (Q : exists c, reading m = Znearest c) by (destruct m; try discriminate Hm; eexists; reflexivity).
  destruct Q as [c ->]. pose proof (error_le_half_ulp_round radix2 fexp c (decimal s e)). lra.
Qed.
Lemma directed_error s e : reads_back f m x s e -> error f x s e < spacing f x.
Proof.
  intros R. unfold reads_back in R. unfold error, spacing. rewrite <- R. unfold read. rewrite Rabs_minus_sym.
  pose proof (valid_reading m). apply error_lt_ulp_round; [apply valid_fexp | apply mono_fexp | exact H |]. intros Z. rewrite Z in R. unfold read in R.
  rewrite round_0 in R by exact H. exact (proj2 (proj2 Hin) (eq_sym R)).
Qed.

Lemma outward_side s e : rounds_outward m (negative f x) = true -> reads_back f m x s e ->
  Rabs (decimal s e) <= Rabs (value f x).
Proof.
  intros Hm R. unfold reads_back in R.
  assert (G : decimal s e = cond_Ropp (negative f x) (decimal (cond_Zopp (negative f x) s) e)) by (rewrite <- decimal_signed, cond_Zopp_twice; reflexivity).
  set (y := decimal (cond_Zopp (negative f x) s) e) in *.
  assert (Y : 0 < y) by (apply (I_pos f m x Hin); rewrite <- G; exact R).
  rewrite <- R, G. unfold read. destruct (negative f x) eqn:N; cbn [cond_Ropp].
  - assert (D : round radix2 fexp (reading m) (- y) = round radix2 fexp Zfloor (- y)).
    { destruct m; try discriminate Hm; [reflexivity|]. cbn [reading]. apply round_AW_DN. lra. }
    pose proof (round_DN_pt radix2 fexp (- y)) as (_ & L & _). rewrite D. rewrite !Rabs_left1 by lra. lra.
  - assert (D : round radix2 fexp (reading m) y = round radix2 fexp Zceil y).
    { destruct m; try discriminate Hm; [reflexivity|]. cbn [reading]. apply round_AW_UP. lra. }
    pose proof (round_UP_pt radix2 fexp y) as (_ & L & _). rewrite D. rewrite !Rabs_pos_eq by lra. lra.
Qed.
Lemma inward_side s e : rounds_inward m (negative f x) = true -> reads_back f m x s e ->
  Rabs (value f x) <= Rabs (decimal s e).
Proof.
  intros Hm R. unfold reads_back in R.
  assert (G : decimal s e = cond_Ropp (negative f x) (decimal (cond_Zopp (negative f x) s) e)) by (rewrite <- decimal_signed, cond_Zopp_twice; reflexivity).
  set (y := decimal (cond_Zopp (negative f x) s) e) in *.
  assert (Y : 0 < y) by (apply (I_pos f m x Hin); rewrite <- G; exact R).
  rewrite <- R, G. unfold read. destruct (negative f x) eqn:N; cbn [cond_Ropp].
  - assert (D : round radix2 fexp (reading m) (- y) = round radix2 fexp Zceil (- y)).
    { destruct m; try discriminate Hm; [reflexivity|]. cbn [reading]. apply round_ZR_UP. lra. }
    pose proof (round_UP_pt radix2 fexp (- y)) as (_ & L & M). rewrite D. specialize (M 0 (generic_format_0 _ _) ltac:(lra)).
    rewrite !Rabs_left1 by lra. lra.
  - assert (D : round radix2 fexp (reading m) y = round radix2 fexp Zfloor y).
    { destruct m; try discriminate Hm; [reflexivity|]. cbn [reading]. apply round_ZR_DN. lra. }
    pose proof (round_DN_pt radix2 fexp y) as (_ & L & M). rewrite D. specialize (M 0 (generic_format_0 _ _) ltac:(lra)).
    rewrite !Rabs_pos_eq by lra. lra.
Qed.
End Bounds.

Lemma reads_back_ok cfg f rs m crs h x r : input f x -> grisu_exact cfg f rs m crs h x = Ok r ->
  reads_back f m x (signed f x r) (fp_exponent r).
Proof.
  intros Hin E. destruct (nearest_or_outward m (negative f x)) eqn:N.
  - apply (b_short _ _ _ _ _ (g_basic _ _ _ _ _ _ (either_result cfg f rs m crs h x Hin r N E))).
  - apply (inward_round_trip cfg f rs m crs h x Hin (inward_otherwise _ _ N)), E.
Qed.
Lemma half_spacing cfg f rs m crs h x : input f x -> is_nearest m = true ->
  exists r, grisu_exact cfg f rs m crs h x = Ok r /\ error f x (signed f x r) (fp_exponent r) <= spacing f x / 2.
Proof.
  intros Hin Hm. destruct (nearest_round_trip cfg f rs m crs h x Hin Hm) as (r & E & R). exists r. split; [exact E|].
  apply (nearest_error f m x); assumption.
Qed.
Lemma directed_sides cfg f rs m crs h x r : input f x -> grisu_exact cfg f rs m crs h x = Ok r ->
  error f x (signed f x r) (fp_exponent r) < spacing f x /\
  (rounds_outward m (negative f x) = true -> Rabs (decimal (signed f x r) (fp_exponent r)) <= Rabs (value f x)) /\
  (rounds_inward m (negative f x) = true -> Rabs (value f x) <= Rabs (decimal (signed f x r) (fp_exponent r))).
Proof.
  intros Hin E. pose proof (reads_back_ok cfg f rs m crs h x r Hin E) as R.
  split; [apply (directed_error f m x); assumption|].
  split; intros H; [apply (outward_side f m x); assumption | apply (inward_side f m x); assumption].
Qed.

(** ** Tie policies *)
Lemma policies cfg f rs m crs crs' h x : input f x -> nearest_or_outward m (negative f x) = true ->
  crs <> do_not_care -> crs' <> do_not_care ->
  exists r r', grisu_exact cfg f rs m crs h x = Ok r /\ grisu_exact cfg f rs m crs' h x = Ok r' /\
  (r = r' \/ value f x = (decimal (signed f x r) (fp_exponent r) + decimal (signed f x r') (fp_exponent r')) / 2).
Proof.
  intros Hin Hm Hc Hc'. destruct (total cfg f rs m crs h x Hin Hm) as [r E]. destruct (total cfg f rs m crs' h x Hin Hm) as [r' E'].
  exists r, r'. split; [exact E|]. split; [exact E'|].
  pose proof (either_result cfg f rs m crs h x Hin r Hm E) as G. pose proof (either_result cfg f rs m crs' h x Hin r' Hm E') as G'.
  pose proof (to_candidate f m x Hin _ _ (b_short _ _ _ _ _ (g_basic _ _ _ _ _ _ G)) (g_close _ _ _ _ _ _ G (cares_true Hc))) as A.
  pose proof (to_candidate f m x Hin _ _ (b_short _ _ _ _ _ (g_basic _ _ _ _ _ _ G')) (g_close _ _ _ _ _ _ G' (cares_true Hc'))) as A'.
  rewrite !cond_Zopp_twice in A, A'.
  destruct (Req_dec (decimal (fp_significand r) (fp_exponent r)) (decimal (fp_significand r') (fp_exponent r'))) as [Q|Q].
  - left. pose proof (same_digits _ _ _ _ _ _ A A') as D. pose proof (c_pos _ _ _ _ A) as P. pose proof (c_pos _ _ _ _ A') as P'.
    assert (EE : fp_exponent r = fp_exponent r').
    { pose proof (digits_bounds _ (fp_exponent r) P) as B. pose proof (digits_bounds _ (fp_exponent r') P') as B'. rewrite <- D, <- Q in B'.
      assert (H : p10 (digits (fp_significand r) - 1 + fp_exponent r) < p10 (digits (fp_significand r) + fp_exponent r')) by lra.
      assert (H0 : p10 (digits (fp_significand r) - 1 + fp_exponent r') < p10 (digits (fp_significand r) + fp_exponent r)) by lra.
      apply lt_bpow in H. apply lt_bpow in H0. lia. }
    assert (SS : fp_significand r = fp_significand r').
    { rewrite !decimal_eq, EE in Q. apply Rmult_eq_reg_r in Q; [|apply Rgt_not_eq, bpow_gt_0]. apply eq_IZR, Q. }
    assert (NN : fp_is_negative r = fp_is_negative r').
    { destruct rs.
      - rewrite (result_sign cfg f m crs h x r (proj1 Hin) E), (result_sign cfg f m crs' h x r' (proj1 Hin) E'). reflexivity.
      - revert E E'. unfold grisu_exact. destruct (run_case_handler cfg f h x); cbn [bind]; try discriminate.
        destruct (compute cfg f (delegate f m x) crs x) as [[? ?]| | |]; cbn [bind]; try discriminate.
        destruct (compute cfg f (delegate f m x) crs' x) as [[? ?]| | |]; cbn [bind]; try discriminate.
        intros U W. injection U as <-. injection W as <-. reflexivity. }
    destruct r as [a b c], r' as [a' b' c']. cbn in EE, SS, NN. subst. reflexivity.
  - right. pose proof (middle _ _ _ _ _ _ A A' Q) as M. rewrite (input_value f x Hin). unfold signed. rewrite !decimal_signed.
    destruct (negative f x); cbn [cond_Ropp]; lra.
Qed.
Lemma do_not_care_above cfg f rs m crs h x : input f x -> nearest_or_outward m (negative f x) = true ->
  exists r r', grisu_exact cfg f rs m do_not_care h x = Ok r /\ grisu_exact cfg f rs m crs h x = Ok r' /\
  digits (fp_significand r) = digits (fp_significand r') /\
  Rabs (decimal (signed f x r') (fp_exponent r')) <= Rabs (decimal (signed f x r) (fp_exponent r)).
Proof.
  intros Hin Hm. destruct (total cfg f rs m do_not_care h x Hin Hm) as [r E]. destruct (total cfg f rs m crs h x Hin Hm) as [r' E'].
  exists r, r'. split; [exact E|]. split; [exact E'|].
  pose proof (either_result cfg f rs m do_not_care h x Hin r Hm E) as G. pose proof (either_result cfg f rs m crs h x Hin r' Hm E') as G'.
  destruct (b_short _ _ _ _ _ (g_basic _ _ _ _ _ _ G)) as [R S]. destruct (b_short _ _ _ _ _ (g_basic _ _ _ _ _ _ G')) as [R' S'].
  assert (D : digits (fp_significand r) = digits (fp_significand r')).
  { pose proof (S _ _ R') as L. pose proof (S' _ _ R) as L'. rewrite !digits_signed in L, L'. lia. }
  split; [exact D|]. apply (g_large _ _ _ _ _ _ G); [reflexivity | exact R'|]. unfold signed. rewrite !digits_signed. lia.
Qed.

(** ** For the examples *)
Lemma normal_check f x : input f x -> (exponent_field f x <> 0)%Z -> normal f x.
Proof.
  intros Hin H. unfold normal. rewrite (V_abs f x Hin). rewrite field_eq in H.
  assert (N : (2 ^ (prec f - 1) <= n_of f x)%Z).
  { unfold n_of. destruct (Z.eqb_spec (expo f x) 0) as [|_]; [contradiction|]. pose proof (frac_range f x).
    assert (prec f - 1 = precision f)%Z as -> by (destruct f; reflexivity). lia. }
  assert (Ex : (emin f <= e0_of f x)%Z) by apply (spec_e0 f x Hin).
  replace (emin f + prec f - 1)%Z with ((prec f - 1) + emin f)%Z by ring. rewrite bpow_plus.
  apply Rmult_le_compat; try apply bpow_ge_0; [|apply bpow_le; exact Ex].
  rewrite <- IZR_Zpower by (destruct f; discriminate). apply IZR_le. exact N.
Qed.
