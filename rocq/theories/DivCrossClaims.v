(** The division whose remainder lines up with the top of the divisor one limb
    up: what comes out, in terms of the numbers divided, and that it is wrong. *)
From Coq Require Import ZArith List Lia Bool.
From Verif Require Import Machine Model Arith BigintModel BigSpec BigFacts Bigint BigintOps BigintMul DivModel DivSpec Division BigClaims DivClaims DivCross.
Open Scope Z_scope.

(** ** In terms of the numbers *)
Lemma division_crossing cfg N js jq b c v w : 64 * Z.of_nat N < 2 ^ 64 -> represents N b v -> represents N c w -> 0 < w -> Z.odd w = true ->
  crosses_last v w -> ~ leaps v w ->
  exists r q Q X, long_division cfg N js jq b c = Ok (r, q) /\ represents N q Q /\ represents N r (X mod w) /\
    v = Q * w + (Q mod 2 ^ 64) / 2 + X /\ 0 <= X <= w /\ 2 ^ 63 <= Q mod 2 ^ 64.
Proof.
  intros HN R S P O Cr Lp. apply rep in R, S. destruct R as [Vb <-], S as [Vc <-].
  destruct (long_division_from cfg N js jq b c (fun r q => valid N r /\ valid N q /\
    exists X, val b = val q * val c + (val q mod W) / 2 + X /\ 0 <= X <= val c /\ val r = X mod val c /\ 2 ^ 63 <= val q mod W) HN Vb Vc P) as (r & q & E & Vr & Vq & X & X1 & X2 & X3 & X4).
  - intros L. exfalso. destruct Cr as [C _]. pose proof (val_bounds N b Vb) as B.
    pose proof (Z.log2_le_mono _ _ (Z.mod_le (val b) (val c * 2 ^ 64) ltac:(lia) ltac:(lia))). lia.
  - intros d t St Li T. apply (divide_before cfg N (val b) (val c) HN P O Lp Cr d t St Li T).
  - exists r, q, (val q), X. split; [exact E|]. split; [apply rep_of; [exact Vq | reflexivity]|]. split; [apply rep_of; assumption|]. split; [exact X1|]. split; assumption.
Qed.
Lemma crosses_short v w : 0 <= v -> 0 < w -> Z.log2 v - Z.log2 w < 128 -> crosses v w -> crosses_last v w /\ ~ leaps v w.
Proof.
  intros Hv Hw H (k & Hk & E). assert (A : forall j, 1 <= j -> Z.log2 (v mod (w * 2 ^ (64 * j))) <= Z.log2 v).
  { intros j Hj. apply log2_rest; [exact Hv | apply Z.pow_pos_nonneg; lia]. }
  pose proof (A k Hk). assert (k = 1) by lia. subst k. change (64 * 1) with 64 in E. split.
  - split; [exact E|]. intros k Hk2. pose proof (A k ltac:(lia)). lia.
  - intros (t & T0 & T1 & T2 & T3). cbv zeta in T3. destruct T3 as [T3 T4].
    assert (F : v / w < 2 ^ 128) by (apply Z.div_lt_upper_bound; [lia|]; apply Z.log2_lt_cancel; rewrite log2_shift by lia; lia).
    assert (T5 : t < 128).
    { destruct (Z_lt_le_dec t 128) as [|L]; [assumption|exfalso]. pose proof (Z.div_pos v w Hv Hw) as P. destruct (Z.eq_dec (v / w) 0) as [E0|E0]; [rewrite E0, Z.bits_0 in T1; discriminate|].
      rewrite Z.bits_above_log2 in T1; [discriminate | exact P |]. apply Z.log2_lt_pow2; [lia|]. apply Z.lt_le_trans with (1 := F). apply Z.pow_le_mono_r; lia. }
    set (r := v mod (w * 2 ^ t)) in *. assert (Er : v mod (w * 2 ^ 64) = r mod (w * 2 ^ 64)).
    { pose proof (Z.div_mod v (w * 2 ^ t) ltac:(pose proof (pow_ge1 t T0); nia)) as D. fold r in D. rewrite D at 1.
      replace (2 ^ t) with (2 ^ (t - 64) * 2 ^ 64) at 1 by (rewrite <- Z.pow_add_r by lia; f_equal; lia).
      replace (w * (2 ^ (t - 64) * 2 ^ 64) * (v / (w * 2 ^ t)) + r) with (r + 2 ^ (t - 64) * (v / (w * 2 ^ t)) * (w * 2 ^ 64)) by ring. apply Z.mod_add. lia. }
    rewrite Er in E. pose proof (Z.log2_le_mono _ _ (Z.mod_le r (w * 2 ^ 64) ltac:(lia) ltac:(lia))). lia.
Qed.
Lemma division_odd_exact cfg N js jq b c v w : 64 * Z.of_nat N < 2 ^ 64 -> represents N b v -> represents N c w -> 0 < w -> Z.odd w = true ->
  Z.log2 v - Z.log2 w < 128 -> ~ leaps v w ->
  ((exists r q, long_division cfg N js jq b c = Ok (r, q) /\ represents N r (v mod w) /\ represents N q (v / w)) <-> ~ crosses v w).
Proof.
  intros HN R S P O H Lp. assert (Hv : 0 <= v) by (apply rep in R; destruct R as [Vb <-]; apply (val_bounds N b Vb)). split.
  - intros (r & q & E & Rr & Rq) C. destruct (crosses_short v w Hv P H C) as [C1 _].
    destruct (division_crossing cfg N js jq b c v w HN R S P O C1 Lp) as (r2 & q2 & Q & X & E2 & RQ & RX & X1 & X2 & X3).
    rewrite E in E2. injection E2 as <- <-. assert (EQ : Q = v / w) by (rewrite <- (rep_value _ _ _ RQ); apply (rep_value _ _ _ Rq)).
    assert (EX : X mod w = v mod w) by (rewrite <- (rep_value _ _ _ RX); apply (rep_value _ _ _ Rr)).
    pose proof (Z.div_mod v w ltac:(lia)) as D. rewrite <- EQ, <- EX in D. pose proof (Z.mod_le X w ltac:(lia) P).
    assert (2 ^ 62 <= (Q mod 2 ^ 64) / 2) by (apply Z.div_le_lower_bound; lia). lia.
  - intros C. apply (division cfg N js jq b c v w HN R S P). split; [right; exact C | exact Lp].
Qed.

Lemma crossing_example : crosses_last (2 ^ 65) 3 /\ ~ leaps (2 ^ 65) 3 /\ Z.log2 (2 ^ 65) - Z.log2 3 < 128 /\
  match long_division debug_cfg 2 never never (two_words 0 2) (one_word 3) with
  | Ok (r, q) => number (elements q) 2 = 10540996613548315209 /\ number (elements r) 2 = 1 /\
      2 ^ 65 / 3 = 12297829382473034410 /\ 2 ^ 65 = 10540996613548315209 * 3 + 10540996613548315209 / 2 + 1
  | _ => False
  end.
Proof.
  destruct (crosses_short (2 ^ 65) 3 ltac:(lia) ltac:(lia) ltac:(vm_compute; reflexivity) division_fails_crosses) as [C L].
  split; [exact C|]. split; [exact L|]. split; [vm_compute; reflexivity|]. vm_compute. repeat split.
Qed.
(** a move by 65 bits that does no harm *)
Lemma harmless_example : safe (2 ^ 65 + 1) 1 /\ Z.log2 (2 ^ 65 + 1) - Z.log2 1 = 65 /\
  match long_division debug_cfg 2 never never (two_words 1 2) (one_word 1) with
  | Ok (r, q) => number (elements q) 2 = 2 ^ 65 + 1 /\ number (elements r) 2 = 0
  | _ => False
  end.
Proof.
  split; [|split; [vm_compute; reflexivity | vm_compute; repeat split]]. split.
  - right. intros (k & Hk & E). pose proof (log2_rest (2 ^ 65 + 1) 1 (2 ^ (64 * k)) ltac:(lia) ltac:(apply Z.pow_pos_nonneg; lia)) as L.
    change (Z.log2 (2 ^ 65 + 1)) with 65 in L. change (Z.log2 1) with 0 in E. assert (k = 1) by lia. subst k. vm_compute in E. discriminate E.
  - intros (t & T0 & T1 & T2 & T3). rewrite Z.div_1_r in T1. cbv zeta in T3. destruct T3 as [T3 T4]. assert (t <= 65).
    { destruct (Z_le_gt_dec t 65) as [L|L]; [exact L|]. rewrite Z.bits_above_log2 in T1; [discriminate | lia |]. change (Z.log2 (2 ^ 65 + 1)) with 65. lia. }
    assert (t = 65) by (pose proof (Z.log2_nonneg (( 2 ^ 65 + 1) mod (1 * 2 ^ t))); change (Z.log2 1) with 0 in T3; lia). subst t. apply T4. vm_compute. reflexivity.
Qed.
(** what is left is smaller than the divisor and as long: whatever the shifted divisor is, nothing is taken away any more *)
Lemma leaps_right : leaps (7 * 2 ^ 63 * 2 ^ 65 + 2 ^ 65) (7 * 2 ^ 63) /\
  match long_division debug_cfg 3 never never (three_words 0 2 7) (two_words (2 ^ 63) 3) with
  | Ok (r, q) => number (elements q) 3 = 2 ^ 65 /\ number (elements r) 3 = 2 ^ 65
  | _ => False
  end.
Proof.
  split; [|vm_compute; repeat split]. exists 65. split; [lia|]. split; [vm_compute; reflexivity|]. split; [vm_compute; reflexivity|]. vm_compute. repeat split; congruence.
Qed.
