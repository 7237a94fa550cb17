(** * Floats printed, read as doubles and narrowed to floats *)

From Coq Require Import ZArith Reals Lra Lia Bool List.
From Flocq Require Import Core.
From Verif Require Import Machine Model Spec ProgramSpec FormatSpec RoundSpec ExpFacts Inward Link Reading Bridge ReadsBack Shortest Main Results Claims Signs Unique Users Formats Outputs RoundedDigits Reader NarrowTables NarrowRows.
Import ListNotations.
Open Scope R_scope.

Local Notation fexp32 := (FLT_exp (emin Binary32) (prec Binary32)).
Local Notation fexp64 := (FLT_exp (emin Binary64) (prec Binary64)).

Local Instance prec_pos f : Prec_gt_0 (prec f). Proof. destruct f; reflexivity. Qed.

(** ** The numbers half way between two floats *)
Lemma midway_form d : 0 < d -> midway Binary32 d ->
  exists n k, d = IZR n * bpow radix2 k /\ (0 < n < 2 ^ 25)%Z /\ Z.even n = false /\ (-150 <= k)%Z /\ (k = -150 \/ 2 ^ 24 <= n)%Z /\
    read Binary32 toward_minus_infinity d = d - bpow radix2 k /\ read Binary32 toward_plus_infinity d = d + bpow radix2 k.
Proof.
  intros Pd [M1 M2]. assert (N : ~ generic_format radix2 fexp32 d) by (intros G; rewrite (read_generic Binary32 _ d G) in M1; lra).
  pose proof (FLT_exp_valid (emin Binary32) (prec Binary32)) as Val.
  unfold read in M1, M2 |- *. cbn [reading] in *. rewrite (round_UP_DN_ulp radix2 fexp32 d N), ulp_neq_0 in * by lra.
  unfold round, F2R in *. cbn [Fnum Fexp] in *. set (c := cexp radix2 fexp32 d) in *. set (sm := scaled_mantissa radix2 fexp32 d) in *. set (j := Zfloor sm) in *.
  exists (2 * j + 1)%Z, (c - 1)%Z.
  assert (E : d = IZR (2 * j + 1) * bpow radix2 (c - 1)) by (rewrite plus_IZR, mult_IZR; rewrite (bpow2_pred c) in *; lra).
  assert (Psm : 0 <= sm) by (unfold sm, scaled_mantissa; apply Rmult_le_pos; [lra | apply bpow_ge_0]).
  assert (J0 : (0 <= j)%Z) by (apply Zfloor_lub; exact Psm).
  assert (J1 : (j < 2 ^ 24)%Z).
  { apply lt_IZR. apply Rle_lt_trans with sm; [apply Zfloor_lb|]. apply Rle_lt_trans with (Rabs sm); [apply RRle_abs|].
    apply Rlt_le_trans with (1 := scaled_mantissa_lt_bpow radix2 fexp32 d). change (IZR (2 ^ 24)) with (bpow radix2 24). apply bpow_le.
    fold c. unfold c, cexp, FLT_exp. cbn [prec emin]. lia. }
  split; [exact E|]. split; [lia|]. split; [rewrite Z.add_comm, Z.even_add_mul_2; reflexivity|].
  assert (C0 : (-149 <= c)%Z) by (unfold c, cexp, FLT_exp; cbn [emin]; lia). split; [lia|].
  split.
  { destruct (Z.eq_dec c (-149)) as [->|C1]; [left; reflexivity | right].
    assert (Ec : c = (mag radix2 d - 24)%Z) by (unfold c, cexp, FLT_exp in *; cbn [emin prec] in *; lia).
    assert (2 ^ 23 <= j)%Z; [|lia]. apply Zfloor_lub. change (IZR (2 ^ 23)) with (bpow radix2 23).
    unfold sm, scaled_mantissa. fold c. apply Rmult_le_reg_r with (bpow radix2 c); [apply bpow_gt_0|].
    rewrite Rmult_assoc, <- !bpow_plus. replace (- c + c)%Z with 0%Z by ring. cbn [bpow]. rewrite Rmult_1_r.
    replace (23 + c)%Z with (mag radix2 d - 1)%Z by lia. clear - Pd. revert Pd.
    destruct (mag radix2 d) as [md Hd]. cbn [mag_val]. intros Pd. specialize (Hd ltac:(lra)). rewrite Rabs_pos_eq in Hd by lra. apply Hd. }
  rewrite plus_IZR, mult_IZR in E. rewrite (bpow2_pred c). split; lra.
Qed.
(** how far a decimal is from its reading as a double *)
Lemma reading_error D n k : (0 < n < 2 ^ 25)%Z -> (-150 <= k)%Z -> read Binary64 nearest_to_even D = IZR n * bpow radix2 k ->
  Rabs (IZR n * bpow radix2 k - D) <= bpow radix2 (k - 29).
Proof.
  intros Hn Hk E. pose proof (FLT_exp_valid (emin Binary64) (prec Binary64)) as Val. pose proof (FLT_exp_monotone (emin Binary64) (prec Binary64)) as Mo.
  pose proof (error_le_half_ulp_round radix2 fexp64 (fun t => negb (Z.even t)) D) as H.
  change (round radix2 fexp64 (Znearest (fun t : Z => negb (Z.even t))) D) with (read Binary64 nearest_to_even D) in H. rewrite E in H.
  apply Rle_trans with (1 := H). pose proof (bpow_gt_0 radix2 k) as P. assert (0 < IZR n) by (apply IZR_lt; lia).
  assert (NZ : IZR n * bpow radix2 k <> 0) by (apply Rgt_not_eq, Rmult_lt_0_compat; assumption).
  rewrite ulp_neq_0 by exact NZ.
  assert (C : (cexp radix2 fexp64 (IZR n * bpow radix2 k) <= k - 28)%Z).
  { unfold cexp, FLT_exp. cbn [emin prec]. assert (mag radix2 (IZR n * bpow radix2 k) <= k + 25)%Z; [|lia].
    apply mag_le_bpow; [exact NZ|]. rewrite Rabs_pos_eq by (apply Rmult_le_pos; lra). rewrite Z.add_comm, bpow_plus.
    apply Rmult_lt_compat_r; [exact P|]. change (bpow radix2 25) with (IZR (2 ^ 25)). apply IZR_lt. lia. }
  apply (bpow_le radix2) in C. replace (bpow radix2 (k - 28)) with (2 * bpow radix2 (k - 29)) in C by (rewrite (bpow2_pred (k - 28)); replace (k - 28 - 1)%Z with (k - 29)%Z by ring; reflexivity).
  lra.
Qed.
Lemma scale e k : bpow radix10 e * IZR (down e k) = IZR (up e k) * bpow radix2 k.
Proof.
  unfold up, down. rewrite !mult_IZR. change 10%Z with (radix_val radix10). change 2%Z with (radix_val radix2). rewrite !IZR_Zpower by lia.
  rewrite <- Rmult_assoc, <- bpow_plus, Rmult_assoc, <- bpow_plus. f_equal; f_equal; lia.
Qed.
Lemma close_of s e n k : Rabs (IZR n * bpow radix2 k - decimal s e) <= bpow radix2 (k - 29) -> close s e n k.
Proof.
  intros H. unfold close. apply le_IZR. rewrite mult_IZR, abs_IZR, minus_IZR, !mult_IZR. pose proof (bpow_gt_0 radix2 k) as P.
  pose proof (IZR_lt _ _ (down_pos e k)) as B. apply Rmult_le_reg_r with (bpow radix2 k); [exact P|].
  replace (IZR (2 ^ 29) * Rabs (IZR s * IZR (up e k) - IZR n * IZR (down e k)) * bpow radix2 k)
    with (IZR (2 ^ 29) * (Rabs (IZR n * bpow radix2 k - decimal s e) * IZR (down e k))).
  - replace (IZR (down e k) * bpow radix2 k) with (IZR (2 ^ 29) * (bpow radix2 (k - 29) * IZR (down e k))).
    + apply Rmult_le_compat_l; [apply IZR_le; lia|]. apply Rmult_le_compat_r; lra.
    + assert (Ek : bpow radix2 k = IZR (2 ^ 29) * bpow radix2 (k - 29)) by (change (IZR (2 ^ 29)) with (bpow radix2 29); rewrite <- bpow_plus; f_equal; ring).
      rewrite Ek. ring.
  - rewrite Rmult_assoc. f_equal. rewrite Rabs_minus_sym. rewrite <- (Rabs_pos_eq (IZR (down e k))) at 1 by lra.
    replace (Rabs (IZR s * IZR (up e k) - IZR n * IZR (down e k)) * bpow radix2 k) with (Rabs (IZR s * IZR (up e k) - IZR n * IZR (down e k)) * Rabs (bpow radix2 k)) by (rewrite (Rabs_pos_eq (bpow radix2 k)) by lra; reflexivity).
    rewrite <- !Rabs_mult. f_equal. rewrite decimal_eq. pose proof (scale e k) as S.
    replace ((IZR s * bpow radix10 e - IZR n * bpow radix2 k) * IZR (down e k)) with (IZR s * (bpow radix10 e * IZR (down e k)) - IZR n * bpow radix2 k * IZR (down e k)) by ring.
    rewrite S. ring.
Qed.
Lemma exact_of s e n k : (s * up e k = n * down e k)%Z -> decimal s e = IZR n * bpow radix2 k.
Proof.
  intros H. apply (f_equal IZR) in H. rewrite !mult_IZR in H. pose proof (scale e k) as S. pose proof (IZR_lt _ _ (down_pos e k)) as B.
  apply Rmult_eq_reg_r with (IZR (down e k)); [|lra]. rewrite decimal_eq, Rmult_assoc, S. rewrite <- Rmult_assoc, H. ring.
Qed.
Lemma double_top : read Binary64 nearest_to_even (bpow radix2 128) = bpow radix2 128.
Proof. apply read_generic. apply generic_format_FLT_bpow; [reflexivity | cbn; lia]. Qed.

Lemma near_or_exact s e : (0 < s < 336000000)%Z -> decimal s e <= bpow radix2 128 -> midway Binary32 (read Binary64 nearest_to_even (decimal s e)) ->
  read Binary64 nearest_to_even (decimal s e) = decimal s e \/ exists s' e', In (s', e') near_decimals /\ decimal s e = decimal s' e'.
Proof.
  intros Hs HD M. set (d := read Binary64 nearest_to_even (decimal s e)) in *.
  assert (PD : 0 < decimal s e) by (apply F2R_gt_0; cbn; lia).
  assert (Pd : 0 < d).
  { assert (d >= 0) as [G|G]; [|exact G|].
    - apply Rle_ge. replace 0 with (read Binary64 nearest_to_even 0); [apply read_mono; lra|]. apply read_generic, generic_format_0.
    - exfalso. destruct M as [M _]. rewrite G in M. rewrite (read_generic Binary32) in M by apply generic_format_0. lra. }
  destruct (midway_form d Pd M) as (n & k & E & Hn & Odd & K0 & Hk & _).
  pose proof (reading_error (decimal s e) n k Hn K0 E) as Er.
  assert (K1 : (k <= 103)%Z).
  { assert (Ld : d <= bpow radix2 128) by (rewrite <- double_top; apply read_mono, HD).
    destruct (Z_le_gt_dec k 103) as [L|L]; [exact L|]. exfalso. assert (H : (2 ^ 24 < n)%Z).
    { destruct Hk as [Hk|Hk]; [lia|]. destruct (Z.eq_dec n (2 ^ 24)) as [->|]; [discriminate Odd | lia]. }
    assert (bpow radix2 104 <= bpow radix2 k) by (apply bpow_le; lia).
    apply IZR_lt in H. change (IZR (2 ^ 24)) with (bpow radix2 24) in H. replace (bpow radix2 128) with (bpow radix2 24 * bpow radix2 104) in Ld by (rewrite <- bpow_plus; reflexivity).
    pose proof (bpow_gt_0 radix2 104). pose proof (bpow_gt_0 radix2 24).
    assert (bpow radix2 24 * bpow radix2 104 < IZR n * bpow radix2 k); [|lra].
    apply Rlt_le_trans with (IZR n * bpow radix2 104); [apply Rmult_lt_compat_r | apply Rmult_le_compat_l]; lra. }
  (* at least eight digits *)
  assert (Sc : exists t e', decimal s e = decimal t e' /\ (10 ^ 7 <= t < 336000000)%Z).
  { destruct (Z_lt_le_dec s (10 ^ 8)) as [S8|S8]; [|exists s, e; split; [reflexivity | lia]].
    destruct (Chars.digits_bounds s ltac:(lia)) as [G1 G2]. set (g := digits s) in *.
    assert (G3 : (g <= 8)%Z) by (destruct (Z_le_gt_dec g 8) as [L|L]; [exact L|]; assert (10 ^ 8 <= 10 ^ (g - 1))%Z by (apply Z.pow_le_mono_r; lia); lia).
    exists (s * 10 ^ (8 - g))%Z, (e - (8 - g))%Z. split; [rewrite decimal_shift by lia; f_equal; ring|].
    assert (A7 : (10 ^ 7 = 10 ^ (g - 1) * 10 ^ (8 - g))%Z) by (rewrite <- Z.pow_add_r by lia; f_equal; lia).
    assert (A8 : (10 ^ 8 = 10 ^ g * 10 ^ (8 - g))%Z) by (rewrite <- Z.pow_add_r by lia; f_equal; lia).
    assert (0 < 10 ^ (8 - g))%Z by (apply Z.pow_pos_nonneg; lia).
    assert (10 ^ 7 <= s * 10 ^ (8 - g))%Z by (rewrite A7; apply Z.mul_le_mono_nonneg_r; lia).
    assert (s * 10 ^ (8 - g) < 10 ^ 8)%Z by (rewrite A8; apply Z.mul_lt_mono_pos_r; lia). lia. }
  destruct Sc as (t & e' & Et & Ht).
  clearbody d. rewrite Et in HD, Er, PD |- *.
  destruct (near_misses t e' n k ltac:(lia) Ht Hn Odd Hk (close_of t e' n k Er)) as [X|X].
  - left. rewrite E. symmetry. apply exact_of, X.
  - right. exists t, e'. split; [exact X | reflexivity].
Qed.

(** ** Longer decimals: one with fewer digits would have been found *)
Lemma long_apart X s e : (336000000 <= s)%Z -> 0 < X -> read Binary32 nearest_to_even (decimal s e) = X ->
  (forall t e', read Binary32 nearest_to_even (decimal t e') = X -> (digits s <= digits t)%Z) ->
  ~ midway Binary32 (read Binary64 nearest_to_even (decimal s e)).
Proof.
  intros Hs PX R C M. set (d := read Binary64 nearest_to_even (decimal s e)) in *.
  assert (PD : 0 < decimal s e) by (apply F2R_gt_0; cbn; lia).
  assert (Pd : 0 < d).
  { assert (d >= 0) as [G|G]; [|exact G|].
    - apply Rle_ge. replace 0 with (read Binary64 nearest_to_even 0); [apply read_mono; lra|]. apply read_generic, generic_format_0.
    - exfalso. destruct M as [M _]. rewrite G in M. rewrite (read_generic Binary32) in M by apply generic_format_0. lra. }
  destruct (midway_form d Pd M) as (n & k & E & Hn & Odd & K0 & Hk & Lo & Up).
  pose proof (reading_error (decimal s e) n k Hn K0 E) as Er. rewrite <- E in Er. apply Rabs_le_inv in Er.
  set (D := decimal s e) in *. pose proof (bpow_gt_0 radix2 k) as Pk. pose proof (bpow_gt_0 radix10 e) as Pe.
  assert (Sm : bpow radix2 k = 536870912 * bpow radix2 (k - 29)).
  { change 536870912 with (bpow radix2 29). rewrite <- bpow_plus. f_equal. ring. }
  pose proof (bpow_gt_0 radix2 (k - 29)) as Pw.
  (* the unit in the last place but one is less than the distance *)
  assert (Un : bpow radix10 (e + 1) <= bpow radix2 k - bpow radix2 (k - 29)).
  { rewrite bpow_plus. change (bpow radix10 1) with 10.
    assert (336000000 * bpow radix10 e <= D) by (unfold D; rewrite decimal_eq; apply Rmult_le_compat_r; [lra | apply IZR_le; exact Hs]).
    assert (d <= 33554432 * bpow radix2 k) by (rewrite E; apply Rmult_le_compat_r; [lra | apply IZR_le; lia]). lra. }
  (* X is one of the neighbours of d *)
  assert (NF : ~ generic_format radix2 fexp32 d) by (intros G; destruct M as [M _]; rewrite (read_generic Binary32 _ d G) in M; lra).
  assert (FX : generic_format radix2 fexp32 X) by (rewrite <- R; apply generic_format_round; [apply FLT_exp_valid, prec_pos | apply valid_reading]).
  pose proof (gap_of Binary32 d NF) as Gap. destruct (lower_pt Binary32 d) as [FL _]. destruct (upper_pt Binary32 d) as [FU _]. rewrite Lo, Up in *.
  set (a := d - bpow radix2 k) in *. set (b := d + bpow radix2 k) in *.
  assert (Xa : a <= X) by (rewrite <- R, <- (read_generic Binary32 nearest_to_even a FL); apply read_mono; unfold a; lra).
  assert (Xb : X <= b) by (rewrite <- R, <- (read_generic Binary32 nearest_to_even b FU); apply read_mono; unfold b; lra).
  assert (RX : read Binary32 nearest_to_even X = X) by (apply read_generic, FX).
  assert (Tens : D = IZR (s / 10) * bpow radix10 (e + 1) + IZR (s mod 10) * bpow radix10 e).
  { unfold D. rewrite decimal_eq, bpow_plus. change (bpow radix10 1) with (IZR 10). rewrite (Z.div_mod s 10) at 1 by lia. rewrite plus_IZR, mult_IZR. ring. }
  pose proof (Z.mod_pos_bound s 10 ltac:(lia)) as Md. assert (Md1 : 0 <= IZR (s mod 10) <= 9) by (split; apply IZR_le; lia).
  assert (Te : bpow radix10 (e + 1) = bpow radix10 e * 10) by (rewrite bpow_plus; reflexivity).
  assert (Ml : 0 <= IZR (s mod 10) * bpow radix10 e <= 9 * bpow radix10 e) by (split; [apply Rmult_le_pos | apply Rmult_le_compat_r]; lra).
  destruct (Chars.digits_bounds s ltac:(lia)) as [B1 B2]. set (g := digits s) in *.
  assert (G9 : (9 <= g)%Z) by (destruct (Z_le_gt_dec 9 g) as [L|L]; [exact L|]; assert (10 ^ g <= 10 ^ 8)%Z by (apply Z.pow_le_mono_r; lia); lia).
  assert (Tg : (10 ^ g = 10 * 10 ^ (g - 1))%Z) by (rewrite <- Z.pow_succ_r by lia; f_equal; lia).
  assert (Short : forall t, (0 < t < 10 ^ (g - 1))%Z -> (digits t < g)%Z).
  { intros t Ht. destruct (Chars.digits_bounds t ltac:(lia)) as [T1 T2]. destruct (Z_lt_le_dec (digits t) g) as [L|L]; [exact L|].
    exfalso. assert (10 ^ (g - 1) <= 10 ^ (digits t - 1))%Z by (apply Z.pow_le_mono_r; lia). lia. }
  assert (Q : (33600000 <= s / 10 < 10 ^ (g - 1))%Z) by (split; [apply Z.div_le_lower_bound | apply Z.div_lt_upper_bound]; lia).
  destruct (Gap X FX) as [G|G].
  - assert (X = a) by lra. set (t := (s / 10)%Z) in *.
    assert (Rt : read Binary32 nearest_to_even (decimal t (e + 1)) = X).
    { rewrite decimal_eq. apply Rle_antisym; [apply Rle_trans with (read Binary32 nearest_to_even D); [apply read_mono | rewrite R] | apply Rle_trans with (read Binary32 nearest_to_even X); [rewrite RX | apply read_mono]]; unfold a in *; lra. }
    specialize (C _ _ Rt). specialize (Short t ltac:(lia)). lia.
  - assert (X = b) by lra. set (t := (s / 10 + 1)%Z).
    assert (Et : IZR t * bpow radix10 (e + 1) = IZR (s / 10) * bpow radix10 (e + 1) + bpow radix10 (e + 1)) by (unfold t; rewrite plus_IZR; ring).
    assert (Rt : read Binary32 nearest_to_even (decimal t (e + 1)) = X).
    { rewrite decimal_eq. apply Rle_antisym; [apply Rle_trans with (read Binary32 nearest_to_even X); [apply read_mono | rewrite RX] | apply Rle_trans with (read Binary32 nearest_to_even D); [rewrite R | apply read_mono]]; unfold b in *; lra. }
    destruct (Z_lt_le_dec t (10 ^ (g - 1))) as [L|L].
    + specialize (C _ _ Rt). specialize (Short t ltac:(unfold t in *; lia)). lia.
    + assert (T : (t = 1 * 10 ^ (g - 1))%Z) by (unfold t in *; lia). rewrite T, decimal_shift in Rt by lia.
      specialize (C _ _ Rt). change (digits 1) with 1%Z in C. lia.
Qed.
