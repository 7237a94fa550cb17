(** * Which positive reals round to a given number of the format *)

From Coq Require Import ZArith Reals Lra Lia Bool.
From Flocq Require Import Core.
Open Scope R_scope.

Section Reading.
Variables (emin prec : Z).
Hypothesis Hprec : (1 < prec)%Z.
Local Instance prec_pos : Prec_gt_0 prec. Proof. unfold Prec_gt_0. lia. Qed.
Notation fexp := (FLT_exp emin prec).
Notation bpow := (bpow radix2).

Lemma cexp_gen m e y : (0 <= m)%Z -> (m + 1 <= 2 ^ prec)%Z -> (emin <= e)%Z ->
  (e = emin \/ 2 ^ (prec - 1) <= m)%Z -> 0 < y -> IZR m * bpow e <= y < IZR (m + 1) * bpow e ->
  cexp radix2 fexp y = e.
Proof.
  intros Hm Hm1 Hem Hor Hy [Hlo Hhi]. unfold cexp.
  assert (Hup : y < bpow (e + prec)).
  { apply Rlt_le_trans with (1 := Hhi). replace (e + prec)%Z with (prec + e)%Z by ring. rewrite bpow_plus. apply Rmult_le_compat_r; [apply bpow_ge_0|].
    rewrite <- IZR_Zpower by lia. apply IZR_le. exact Hm1. }
  assert (Hmag : (mag radix2 y <= e + prec)%Z).
  { apply mag_le_bpow; [lra|]. rewrite Rabs_pos_eq by lra. exact Hup. }
  unfold FLT_exp. destruct Hor as [->|Hor]; [lia|].
  assert (Hge : (e + prec - 1 < mag radix2 y)%Z).
  { apply mag_gt_bpow. rewrite Rabs_pos_eq by lra. apply Rle_trans with (2 := Hlo).
    replace (e + prec - 1)%Z with ((prec - 1) + e)%Z by ring. rewrite bpow_plus.
    apply Rmult_le_compat_r; [apply bpow_ge_0|]. rewrite <- IZR_Zpower by lia. apply IZR_le. exact Hor. }
  lia.
Qed.

Lemma round_at (rnd : R -> Z) y e : cexp radix2 fexp y = e ->
  round radix2 fexp rnd y = IZR (rnd (y * bpow (- e))) * bpow e.
Proof. intros H. unfold round, scaled_mantissa. rewrite H. reflexivity. Qed.

Variables (n e0 : Z).
Hypothesis Hn : (0 < n < 2 ^ prec)%Z.
Hypothesis He0 : (emin <= e0)%Z.
Hypothesis Hnorm : (e0 = emin \/ 2 ^ (prec - 1) <= n)%Z.

Definition on_edge : bool := (n =? 2 ^ (prec - 1))%Z && negb (e0 =? emin)%Z.
Definition e1 : Z := if on_edge then (e0 - 1)%Z else e0.
Definition n1 : Z := if on_edge then (2 * n)%Z else n.
Notation x := (IZR n * bpow e0).

Lemma pow_prec : (2 ^ prec = 2 * 2 ^ (prec - 1))%Z.
Proof. replace prec with (1 + (prec - 1))%Z at 1 by ring. rewrite Z.pow_add_r by lia. reflexivity. Qed.

Lemma n1_e1 : IZR n1 * bpow e1 = x.
Proof.
  unfold n1, e1. destruct on_edge; [|reflexivity]. rewrite mult_IZR.
  replace (bpow e0) with (2 * bpow (e0 - 1)); [ring|].
  replace e0 with (1 + (e0 - 1))%Z at 2 by ring. rewrite bpow_plus. reflexivity.
Qed.

Lemma cexp_above y : x <= y < IZR (n + 1) * bpow e0 -> cexp radix2 fexp y = e0.
Proof.
  intros H. apply cexp_gen with n; try lia; try assumption.
  apply Rlt_le_trans with x; [|apply H]. apply Rmult_lt_0_compat; [apply IZR_lt; lia | apply bpow_gt_0].
Qed.

Lemma edge_facts : on_edge = true -> (n = 2 ^ (prec - 1) /\ e0 <> emin)%Z.
Proof.
  unfold on_edge. rewrite andb_true_iff, negb_true_iff, Z.eqb_eq, Z.eqb_neq. tauto.
Qed.
Lemma not_edge_facts : on_edge = false -> (e0 = emin \/ 2 ^ (prec - 1) < n)%Z.
Proof.
  unfold on_edge. rewrite andb_false_iff, negb_false_iff, Z.eqb_neq, Z.eqb_eq. intros [H|H]; [|tauto].
  destruct Hnorm; [tauto|]. right. lia.
Qed.

Lemma cexp_below y : 0 < y -> IZR (n1 - 1) * bpow e1 < y < x -> cexp radix2 fexp y = e1.
Proof.
  intros Hy H. apply cexp_gen with (n1 - 1)%Z; try assumption.
  - unfold n1. destruct on_edge; lia.
  - unfold n1. destruct on_edge eqn:E; [|lia]. apply edge_facts in E. rewrite pow_prec. lia.
  - unfold e1. destruct on_edge eqn:E; [|lia]. apply edge_facts in E. lia.
  - unfold n1, e1. destruct on_edge eqn:E.
    + apply edge_facts in E. right.
      assert (1 <= 2 ^ (prec - 1))%Z by (apply (Z.pow_le_mono_r 2 0); lia). lia.
    + apply not_edge_facts in E. lia.
  - replace (n1 - 1 + 1)%Z with n1 by ring. rewrite n1_e1. lra.
Qed.

Lemma format_above : generic_format radix2 fexp (IZR (n + 1) * bpow e0).
Proof.
  destruct (Z.eq_dec (n + 1) (2 ^ prec)) as [E|E].
  - apply generic_format_FLT. exists (Float radix2 (2 ^ (prec - 1)) (e0 + 1)); cbn [Fnum Fexp].
    + unfold F2R. cbn [Fnum Fexp]. rewrite E, pow_prec, mult_IZR, bpow_plus. change (bpow 1) with 2. ring.
    + rewrite Z.abs_eq by (apply Z.pow_nonneg; lia). change (radix_val radix2) with 2%Z.
      apply Z.pow_lt_mono_r; lia.
    + lia.
  - apply generic_format_FLT. exists (Float radix2 (n + 1) e0); cbn [Fnum Fexp].
    + reflexivity.
    + change (radix_val radix2) with 2%Z. lia.
    + lia.
Qed.
Lemma format_below : generic_format radix2 fexp (IZR (n1 - 1) * bpow e1).
Proof.
  apply generic_format_FLT. exists (Float radix2 (n1 - 1) e1); cbn [Fnum Fexp].
  - reflexivity.
  - change (radix_val radix2) with 2%Z. unfold n1. destruct on_edge eqn:E; [|lia].
    apply edge_facts in E. rewrite pow_prec. lia.
  - unfold e1. destruct on_edge eqn:E; [|lia]. apply edge_facts in E. lia.
Qed.

Lemma scaled e y : y * bpow (- e) * bpow e = y.
Proof. rewrite Rmult_assoc, <- bpow_plus. replace (- e + e)%Z with 0%Z by ring. cbn. ring. Qed.

Lemma eq_scaled a b e : IZR a * bpow e = IZR b * bpow e <-> a = b.
Proof.
  split; [|intros ->; reflexivity]. intros H. apply Rmult_eq_reg_r in H.
  - apply eq_IZR. exact H.
  - apply Rgt_not_eq, bpow_gt_0.
Qed.

Theorem round_iff (rnd : R -> Z) `{Valid_rnd rnd} y : 0 < y ->
  (round radix2 fexp rnd y = x <->
   (x <= y < IZR (n + 1) * bpow e0 /\ rnd (y * bpow (- e0)) = n) \/
   (IZR (n1 - 1) * bpow e1 < y < x /\ rnd (y * bpow (- e1)) = n1)).
Proof.
  intros Hy. split.
  - intros E. destruct (Rlt_le_dec y (IZR (n + 1) * bpow e0)) as [A|A].
    + destruct (Rle_lt_dec x y) as [C|C].
      * left. split; [lra|]. rewrite (round_at rnd y e0) in E by (apply cexp_above; lra).
        apply eq_scaled in E. exact E.
      * right. destruct (Rlt_le_dec (IZR (n1 - 1) * bpow e1) y) as [D|D].
        -- split; [lra|]. rewrite (round_at rnd y e1) in E by (apply cexp_below; lra).
           rewrite <- n1_e1 in E. apply eq_scaled in E. exact E.
        -- exfalso. assert (round radix2 fexp rnd y <= IZR (n1 - 1) * bpow e1).
           { apply round_le_generic; [apply FLT_exp_valid, prec_pos | assumption | apply format_below | exact D]. }
           rewrite E, <- n1_e1 in H0. assert (IZR (n1 - 1) * bpow e1 < IZR n1 * bpow e1).
           { apply Rmult_lt_compat_r; [apply bpow_gt_0|]. apply IZR_lt. lia. } lra.
    + exfalso. assert (IZR (n + 1) * bpow e0 <= round radix2 fexp rnd y).
      { apply round_ge_generic; [apply FLT_exp_valid, prec_pos | assumption | apply format_above | exact A]. }
      rewrite E in H0. assert (x < IZR (n + 1) * bpow e0).
      { apply Rmult_lt_compat_r; [apply bpow_gt_0|]. apply IZR_lt. lia. } lra.
  - intros [[A E]|[A E]].
    + rewrite (round_at rnd y e0) by (apply cexp_above; lra). rewrite E. reflexivity.
    + rewrite (round_at rnd y e1) by (apply cexp_below; lra). rewrite E. apply n1_e1.
Qed.

Lemma above_iff y : x <= y < IZR (n + 1) * bpow e0 <-> IZR n <= y * bpow (- e0) < IZR (n + 1).
Proof.
  pose proof (bpow_gt_0 radix2 e0) as P. pose proof (scaled e0 y) as S. set (t := y * bpow (- e0)) in *.
  rewrite <- S. split; intros [A C]; split.
  - apply Rmult_le_reg_r with (1 := P). lra.
  - apply Rmult_lt_reg_r with (1 := P). lra.
  - apply Rmult_le_compat_r; lra.
  - apply Rmult_lt_compat_r; lra.
Qed.
Lemma below_iff y : IZR (n1 - 1) * bpow e1 < y < x <-> IZR (n1 - 1) < y * bpow (- e1) < IZR n1.
Proof.
  pose proof (bpow_gt_0 radix2 e1) as P. pose proof (scaled e1 y) as S. set (t := y * bpow (- e1)) in *.
  rewrite <- S, <- n1_e1. split; intros [A C]; split.
  - apply Rmult_lt_reg_r with (1 := P). lra.
  - apply Rmult_lt_reg_r with (1 := P). lra.
  - apply Rmult_lt_compat_r; lra.
  - apply Rmult_lt_compat_r; lra.
Qed.

(** ** Rounding functions that agree with a floor, a ceiling or a nearest function on positive reals *)
Theorem floor_iff (rnd : R -> Z) `{Valid_rnd rnd} y : (forall z, 0 < z -> rnd z = Zfloor z) -> 0 < y ->
  (round radix2 fexp rnd y = x <-> x <= y < IZR (n + 1) * bpow e0).
Proof.
  intros Hr Hy. rewrite round_iff by assumption.
  rewrite !Hr by (apply Rmult_lt_0_compat; [exact Hy | apply bpow_gt_0]). split.
  - intros [[A _]|[A E]]; [exact A|]. exfalso. apply below_iff in A.
    rewrite (Zfloor_imp (n1 - 1)) in E; [lia|]. replace (n1 - 1 + 1)%Z with n1 by ring. lra.
  - intros A. left. split; [exact A|]. apply above_iff in A. apply Zfloor_imp. exact A.
Qed.

Theorem ceil_iff (rnd : R -> Z) `{Valid_rnd rnd} y : (forall z, 0 < z -> rnd z = Zceil z) -> 0 < y ->
  (round radix2 fexp rnd y = x <-> IZR (n1 - 1) * bpow e1 < y <= x).
Proof.
  intros Hr Hy. rewrite round_iff by assumption.
  rewrite !Hr by (apply Rmult_lt_0_compat; [exact Hy | apply bpow_gt_0]).
  assert (L1 : IZR (n1 - 1) * bpow e1 < IZR n1 * bpow e1) by (apply Rmult_lt_compat_r; [apply bpow_gt_0 | apply IZR_lt; lia]).
  rewrite n1_e1 in L1. split.
  - intros [[A E]|[A E]]; [|lra].
    assert (y = x); [|lra]. apply above_iff in A.
    destruct (Req_dec (y * bpow (- e0)) (IZR n)) as [Q|Q].
    + rewrite <- (scaled e0 y), Q. reflexivity.
    + exfalso. rewrite (Zceil_imp (n + 1)) in E; [lia|]. replace (n + 1 - 1)%Z with n by ring. lra.
  - intros A. destruct (Req_dec y x) as [Q|Q].
    + left. split.
      * subst y. split; [lra|]. apply Rmult_lt_compat_r; [apply bpow_gt_0|]. apply IZR_lt. lia.
      * rewrite Q, Rmult_assoc, <- bpow_plus. replace (e0 + - e0)%Z with 0%Z by ring. cbn. rewrite Rmult_1_r. apply Zceil_IZR.
    + right. assert (A' : IZR (n1 - 1) * bpow e1 < y < x) by lra. split; [exact A'|].
      apply below_iff in A'. apply Zceil_imp. lra.
Qed.

Definition half_lo : R := IZR (2 * n1 - 1) * bpow (e1 - 1).
Definition half_hi : R := IZR (2 * n + 1) * bpow (e0 - 1).

Lemma two_bpow e : bpow e = 2 * bpow (e - 1).
Proof. replace e with (1 + (e - 1))%Z at 1 by ring. rewrite bpow_plus. reflexivity. Qed.

Lemma cmp_half m e y : y < IZR (2 * m + 1) * bpow (e - 1) <-> y * bpow (- e) - IZR m < / 2.
Proof.
  pose proof (bpow_gt_0 radix2 e) as P. pose proof (scaled e y) as S. set (t := y * bpow (- e)) in *.
  rewrite <- S. rewrite (two_bpow e) in *. rewrite plus_IZR, mult_IZR. set (b := bpow (e - 1)) in *.
  split; intros H.
  - apply Rmult_lt_reg_r with (2 * b); lra.
  - assert (t * (2 * b) < (IZR m + / 2) * (2 * b)); [apply Rmult_lt_compat_r; lra | lra].
Qed.
Lemma cmp_half' m e y : IZR (2 * m + 1) * bpow (e - 1) < y <-> / 2 < y * bpow (- e) - IZR m.
Proof.
  pose proof (bpow_gt_0 radix2 e) as P. pose proof (scaled e y) as S. set (t := y * bpow (- e)) in *.
  rewrite <- S. rewrite (two_bpow e) in *. rewrite plus_IZR, mult_IZR. set (b := bpow (e - 1)) in *.
  split; intros H.
  - apply Rmult_lt_reg_r with (2 * b); lra.
  - assert ((IZR m + / 2) * (2 * b) < t * (2 * b)); [apply Rmult_lt_compat_r; lra | lra].
Qed.
Lemma cmp_half_eq m e y : y = IZR (2 * m + 1) * bpow (e - 1) <-> y * bpow (- e) - IZR m = / 2.
Proof.
  pose proof (cmp_half m e y). pose proof (cmp_half' m e y).
  split; intros E; destruct (Rtotal_order y (IZR (2 * m + 1) * bpow (e - 1))) as [L|[L|L]]; try lra.
Qed.

Lemma Znearest_above ch t m : IZR m <= t < IZR (m + 1) ->
  (Znearest ch t = m <-> t - IZR m < / 2 \/ (ch m = false /\ t - IZR m = / 2)).
Proof.
  intros Ht. pose proof (Zfloor_imp m t Ht) as F. unfold Znearest. rewrite F.
  destruct (Rcompare_spec (t - IZR m) (/ 2)) as [L|L|L].
  - tauto.
  - assert (C : Zceil t = (m + 1)%Z) by (apply Zceil_imp; replace (m + 1 - 1)%Z with m by ring; lra).
    rewrite C. destruct (ch m); split.
    + lia.
    + intros [?|[? _]]; [lra|discriminate].
    + auto.
    + auto.
  - assert (C : Zceil t = (m + 1)%Z) by (apply Zceil_imp; replace (m + 1 - 1)%Z with m by ring; lra).
    rewrite C. split; [lia | intros [?|[_ ?]]; lra].
Qed.
Lemma Znearest_below ch t m : IZR m < t < IZR (m + 1) ->
  (Znearest ch t = (m + 1)%Z <-> / 2 < t - IZR m \/ (ch m = true /\ t - IZR m = / 2)).
Proof.
  intros Ht. assert (Ht' : IZR m <= t < IZR (m + 1)) by lra. pose proof (Zfloor_imp m t Ht') as F. unfold Znearest. rewrite F.
  assert (C : Zceil t = (m + 1)%Z) by (apply Zceil_imp; replace (m + 1 - 1)%Z with m by ring; lra). rewrite C.
  destruct (Rcompare_spec (t - IZR m) (/ 2)) as [L|L|L].
  - split; [lia | intros [?|[_ ?]]; lra].
  - destruct (ch m); split; auto; [lia|]. intros [?|[? _]]; [lra|discriminate].
  - tauto.
Qed.

Theorem nearest_iff (rnd : R -> Z) `{Valid_rnd rnd} ch y : (forall z, 0 < z -> rnd z = Znearest ch z) -> 0 < y ->
  (round radix2 fexp rnd y = x <->
   (half_lo < y \/ (ch (n1 - 1)%Z = true /\ y = half_lo)) /\
   (y < half_hi \/ (ch n = false /\ y = half_hi))).
Proof.
  intros Hr Hy. rewrite round_iff by assumption.
  rewrite !Hr by (apply Rmult_lt_0_compat; [exact Hy | apply bpow_gt_0]).
  assert (HL : half_lo = IZR (2 * (n1 - 1) + 1) * bpow (e1 - 1)) by (unfold half_lo; f_equal; f_equal; ring).
  pose proof (bpow_gt_0 radix2 (e1 - 1)) as P1. pose proof (bpow_gt_0 radix2 (e0 - 1)) as P0.
  assert (EL : half_lo = x - bpow (e1 - 1)).
  { unfold half_lo. rewrite <- n1_e1, (two_bpow e1). rewrite minus_IZR, mult_IZR. ring. }
  assert (EH : half_hi = x + bpow (e0 - 1)).
  { unfold half_hi. rewrite (two_bpow e0). rewrite plus_IZR, mult_IZR. ring. }
  assert (EA : IZR (n + 1) * bpow e0 = x + 2 * bpow (e0 - 1)) by (rewrite plus_IZR, (two_bpow e0); ring).
  assert (EB : IZR (n1 - 1) * bpow e1 = x - 2 * bpow (e1 - 1)) by (rewrite minus_IZR, <- n1_e1, (two_bpow e1); ring).
  split.
  - intros [[A E]|[A E]].
    + pose proof A as A'. apply above_iff in A'. apply (Znearest_above ch _ n A') in E.
      split; [left; lra|]. destruct E as [E|[E1 E2]].
      * left. unfold half_hi. apply cmp_half. exact E.
      * right. split; [exact E1|]. unfold half_hi. apply cmp_half_eq. exact E2.
    + pose proof A as A'. apply below_iff in A'. replace n1 with (n1 - 1 + 1)%Z in A' at 2 by ring.
      replace n1 with (n1 - 1 + 1)%Z in E at 1 by ring. apply (Znearest_below ch _ (n1 - 1) A') in E.
      split; [|left; lra]. rewrite HL. destruct E as [E|[E1 E2]].
      * left. apply cmp_half'. exact E.
      * right. split; [exact E1|]. apply cmp_half_eq. exact E2.
  - intros [Lo Hi]. destruct (Rle_lt_dec x y) as [C|C].
    + left. assert (A : x <= y < IZR (n + 1) * bpow e0) by (destruct Hi as [?|[_ ?]]; lra).
      split; [exact A|]. apply above_iff in A. apply (Znearest_above ch _ n A).
      destruct Hi as [Hi|[E1 E2]].
      * left. apply cmp_half. exact Hi.
      * right. split; [exact E1|]. apply cmp_half_eq. exact E2.
    + right. assert (A : IZR (n1 - 1) * bpow e1 < y < x) by (destruct Lo as [?|[_ ?]]; lra).
      split; [exact A|]. apply below_iff in A. replace n1 with (n1 - 1 + 1)%Z at 1 by ring.
      replace n1 with (n1 - 1 + 1)%Z in A at 2 by ring. apply (Znearest_below ch _ (n1 - 1) A).
      rewrite HL in Lo. destruct Lo as [Lo|[E1 E2]].
      * left. apply cmp_half'. exact Lo.
      * right. split; [exact E1|]. apply cmp_half_eq. exact E2.
Qed.

(** nothing that is not positive rounds to x *)
Lemma round_nonpos (rnd : R -> Z) `{Valid_rnd rnd} y : y <= 0 -> round radix2 fexp rnd y <> x.
Proof.
  intros Hy E. assert (round radix2 fexp rnd y <= 0).
  { apply round_le_generic; [apply FLT_exp_valid, prec_pos | assumption | apply generic_format_0 | exact Hy]. }
  assert (0 < x) by (apply Rmult_lt_0_compat; [apply IZR_lt; lia | apply bpow_gt_0]). lra.
Qed.
End Reading.
