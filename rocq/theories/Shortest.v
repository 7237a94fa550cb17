(** * From a grid without coarser points to shortest and closest decimals *)

From Coq Require Import ZArith Reals Lra Lia Bool.
From Flocq Require Import Core.
From Verif Require Import Machine Model Spec.
Open Scope R_scope.

Notation p10 := (bpow radix10).

Lemma decimal_eq s e : decimal s e = IZR s * p10 e.
Proof. reflexivity. Qed.
Lemma decimal_shift s e j : (0 <= j)%Z -> decimal (s * 10 ^ j) e = decimal s (e + j).
Proof.
  intros Hj. rewrite !decimal_eq, mult_IZR, bpow_plus. change 10%Z with (radix_val radix10).
  rewrite IZR_Zpower by exact Hj. ring.
Qed.
Lemma decimal_pos s e : 0 < decimal s e <-> (0 < s)%Z.
Proof.
  rewrite decimal_eq. pose proof (bpow_gt_0 radix10 e) as P. split; intros H.
  - apply lt_IZR. apply Rmult_lt_reg_r with (1 := P). lra.
  - apply Rmult_lt_0_compat; [apply IZR_lt|]; assumption.
Qed.
Lemma decimal_le s s' e : (s <= s')%Z -> decimal s e <= decimal s' e.
Proof. intros H. rewrite !decimal_eq. apply Rmult_le_compat_r; [apply bpow_ge_0 | apply IZR_le, H]. Qed.

Lemma p10_succ e : p10 (e + 1) = 10 * p10 e.
Proof. rewrite bpow_plus, Rmult_comm. reflexivity. Qed.

Lemma digits_bounds s e : (0 < s)%Z -> p10 (digits s - 1 + e) <= decimal s e < p10 (digits s + e).
Proof.
  intros Hs. pose proof (Zdigits_correct radix10 s) as D. rewrite Z.abs_eq in D by lia.
  assert (0 < digits s)%Z by (apply Zdigits_gt_0; lia). fold (digits s) in D. rewrite decimal_eq, !bpow_plus.
  pose proof (bpow_gt_0 radix10 e) as P. rewrite <- (IZR_Zpower radix10 (digits s - 1)), <- (IZR_Zpower radix10 (digits s)) by lia. split.
  - apply Rmult_le_compat_r; [lra|]. apply IZR_le. apply D.
  - apply Rmult_lt_compat_r; [lra|]. apply IZR_lt. apply D.
Qed.

Lemma digits_pos s : (0 < s)%Z -> (1 <= digits s)%Z.
Proof. intros H. assert (0 < digits s)%Z by (apply Zdigits_gt_0; lia). lia. Qed.

Section Grid.
Variable I : R -> Prop.
Hypothesis I_convex : forall a b c, a <= b <= c -> I a -> I c -> I b.
Variables (t E : Z).
Hypothesis Ht : (0 < t)%Z.
Hypothesis HI : I (decimal t E).
Hypothesis Hno : forall u, ~ I (decimal u (E + 1)).

Lemma p10_decimal j : (0 <= j)%Z -> p10 (E + 1 + j) = decimal (10 ^ j) (E + 1).
Proof. intros Hj. rewrite <- (Z.mul_1_l (10 ^ j)), decimal_shift by exact Hj. rewrite decimal_eq. ring. Qed.

Lemma no_higher s e : I (decimal s e) -> (e <= E)%Z.
Proof.
  intros H. destruct (Z.le_gt_cases e E) as [|G]; [assumption|]. exfalso.
  apply (Hno (s * 10 ^ (e - E - 1))). rewrite decimal_shift by lia. replace (E + 1 + (e - E - 1))%Z with e by ring. exact H.
Qed.

Lemma below_power s e : (0 < s)%Z -> (digits s + e <= digits t - 1 + E)%Z -> I (decimal s e) ->
  digits t = 1%Z /\ I (p10 E) /\ decimal s e < p10 E.
Proof.
  intros Hs Hd H. pose proof (digits_bounds s e Hs) as [_ D1]. pose proof (digits_bounds t E Ht) as [D2 _].
  assert (L : p10 (digits s + e) <= p10 (digits t - 1 + E)) by (apply bpow_le; exact Hd).
  assert (M : I (p10 (digits t - 1 + E))) by (apply I_convex with (decimal s e) (decimal t E); [lra | assumption | assumption]).
  pose proof (digits_pos t Ht).
  destruct (Z.eq_dec (digits t) 1) as [Q|Q].
  - split; [exact Q|]. rewrite Q in M, L. replace (1 - 1 + E)%Z with E in * by ring. split; [exact M | lra].
  - exfalso. apply (Hno (10 ^ (digits t - 2))). rewrite <- p10_decimal by lia.
    replace (E + 1 + (digits t - 2))%Z with (digits t - 1 + E)%Z by ring. exact M.
Qed.

Theorem grid_shortest s e : (0 < s)%Z -> I (decimal s e) -> (digits t <= digits s)%Z.
Proof.
  intros Hs H. destruct (Z.le_gt_cases (digits t) (digits s)) as [|G]; [assumption|]. exfalso.
  pose proof (no_higher s e H). pose proof (digits_pos s Hs).
  destruct (below_power s e Hs) as (Q & _); [lia | exact H | lia].
Qed.

Theorem grid_competitor s e : (0 < s)%Z -> I (decimal s e) -> (digits s <= digits t)%Z ->
  e = E \/ (digits t = 1%Z /\ I (p10 E) /\ decimal s e <= 9 * p10 (E - 1) /\ decimal s e < p10 E).
Proof.
  intros Hs H Hd. pose proof (no_higher s e H) as Le. pose proof (grid_shortest s e Hs H) as Ge.
  destruct (Z.eq_dec e E) as [|N]; [left; assumption | right].
  destruct (below_power s e Hs) as (Q & IE & Lt); [lia | exact H |].
  repeat split; try assumption.
  assert (Ds : (digits s = 1)%Z) by lia.
  pose proof (Zdigits_correct radix10 s) as D. fold (digits s) in D. rewrite Ds, Z.abs_eq in D by lia.
  assert (s <= 9)%Z by (change (Zpower radix10 1) with 10%Z in D; lia).
  rewrite decimal_eq. apply Rmult_le_compat; [apply IZR_le; lia | apply bpow_ge_0 | apply IZR_le; lia | apply bpow_le; lia].
Qed.

Theorem grid_no_trailing_zero : (t mod 10 <> 0)%Z.
Proof.
  intros Q. apply (Hno (t / 10)). replace (decimal (t / 10) (E + 1)) with (decimal t E); [exact HI|].
  rewrite <- decimal_shift by lia. f_equal. change (10 ^ 1)%Z with 10%Z.
  pose proof (Z.div_mod t 10 ltac:(lia)). lia.
Qed.
End Grid.
