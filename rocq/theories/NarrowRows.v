(** * Decimals of eight digits, and the smaller ones of nine, near odd multiples of powers of two *)

From Coq Require Import ZArith Lia Bool List.
From Verif Require Import NarrowTables.
Import ListNotations.
Open Scope Z_scope.

(** [10^e / 2^k] is [up e k / down e k] *)
Definition up (e k : Z) : Z := 10 ^ Z.max 0 e * 2 ^ Z.max 0 (- k).
Definition down (e k : Z) : Z := 10 ^ Z.max 0 (- e) * 2 ^ Z.max 0 k.
Lemma up_pos e k : 0 < up e k. Proof. apply Z.mul_pos_pos; apply Z.pow_pos_nonneg; lia. Qed.
Lemma down_pos e k : 0 < down e k. Proof. apply Z.mul_pos_pos; apply Z.pow_pos_nonneg; lia. Qed.

(** [s * 10^e] is within [2^(k-29)] of [n * 2^k] *)
Definition close (s e n k : Z) : Prop := 2 ^ 29 * Z.abs (s * up e k - n * down e k) <= down e k.

(** ** Near misses lie on two lines *)
Section Lines.
Variables (A B p1 q1 p2 q2 s n : Z).
Hypothesis HB : 0 < B.
Hypothesis Hq1 : 0 < q1.
Hypothesis Hq2 : 0 < q2.
Hypothesis Hdet : p2 * q1 - p1 * q2 = 1.
Hypothesis Hsum : 336000000 <= q1 + q2.
Hypothesis Hlow : p1 * B <= q1 * A.
Hypothesis Hup : q2 * A < p2 * B.
Hypothesis Hgap : B < 2 ^ 29 * ((q1 * A - p1 * B) + (p2 * B - q2 * A)).
Hypothesis Hs : 0 < s < 336000000.
Hypothesis Hc : 2 ^ 29 * Z.abs (s * A - n * B) <= B.
Lemma on_line : (exists u, 0 < u /\ s = u * q1 /\ n = u * p1) \/ (exists v, 0 < v /\ s = v * q2 /\ n = v * p2).
Proof using All.
  set (u := p2 * s - q2 * n). set (v := q1 * n - p1 * s).
  assert (Es : s = u * q1 + v * q2) by (unfold u, v; replace ((p2 * s - q2 * n) * q1 + (q1 * n - p1 * s) * q2) with (s * (p2 * q1 - p1 * q2)) by ring; rewrite Hdet; ring).
  assert (En : n = u * p1 + v * p2) by (unfold u, v; replace ((p2 * s - q2 * n) * p1 + (q1 * n - p1 * s) * p2) with (n * (p2 * q1 - p1 * q2)) by ring; rewrite Hdet; ring).
  clearbody u v. set (d1 := q1 * A - p1 * B) in *. set (d2 := p2 * B - q2 * A) in *.
  assert (Ed : s * A - n * B = u * d1 - v * d2) by (unfold d1, d2; rewrite Es, En; ring).
  assert (D1 : 0 <= d1) by (unfold d1; lia). assert (D2 : 0 < d2) by (unfold d2; lia). rewrite Ed in Hc. clearbody d1 d2.
  destruct (Z.lt_trichotomy u 0) as [U|[U|U]]; [exfalso | right | ].
  - assert (V : 1 <= v) by nia. assert (u * d1 <= - d1) by nia. assert (d2 <= v * d2) by nia. lia.
  - subst u. exists v. repeat split; nia.
  - destruct (Z.lt_trichotomy v 0) as [V|[V|V]]; [exfalso | left | exfalso].
    + assert (d1 <= u * d1) by nia. assert (v * d2 <= - d2) by nia. lia.
    + subst v. exists u. repeat split; nia.
    + nia.
Qed.
End Lines.

(** ** The check of one row *)
Fixpoint upto (n : nat) : list Z := match n with O => [] | S n => Z.of_nat (S n) :: upto n end.
Lemma upto_in n u : 0 < u <= Z.of_nat n -> In u (upto n).
Proof.
  induction n as [|n IH]; [lia|]. intros H. cbn [upto]. destruct (Z.eq_dec u (Z.of_nat (S n))) as [->|N]; [left; reflexivity | right; apply IH; lia].
Qed.
Definition listed (s e : Z) : bool := existsb (fun d => (fst d =? s) && (snd d =? e)) near_decimals.
(** multiples of [p/q]: they meet [10^e/2^k], or the few that come close enough are listed *)
Definition multiples_ok (k e B p q d : Z) : bool :=
  (d =? 0) ||
  let most := Z.min ((336000000 - 1) / q) (B / (2 ^ 29 * d)) in
  (most <=? 100) &&
  forallb (fun u => (u * q <? 10 ^ 7) || Z.even (u * p) || (2 ^ 25 <=? u * p) || (negb (k =? -150) && (u * p <? 2 ^ 24)) || listed (u * q) e) (upto (Z.to_nat most)).
Definition pair_ok (k e : Z) (pq : Z * Z * Z * Z) : bool :=
  let '(p1, q1, p2, q2) := pq in
  let A := up e k in let B := down e k in
  (0 <? q1) && (0 <? q2) && (p2 * q1 - p1 * q2 =? 1) && (336000000 <=? q1 + q2) && (p1 * B <=? q1 * A) && (q2 * A <? p2 * B) &&
  (B <? 2 ^ 29 * ((q1 * A - p1 * B) + (p2 * B - q2 * A))) &&
  multiples_ok k e B p1 q1 (q1 * A - p1 * B) && multiples_ok k e B p2 q2 (p2 * B - q2 * A).
(** decimals with this exponent or a smaller one are too small; with this exponent or a larger one too large *)
Definition too_small (k e : Z) : bool :=
  let B := down e k in B <? 2 ^ 29 * ((if k =? -150 then 1 else 2 ^ 24) * B - 336000000 * up e k).
Definition too_large (k e : Z) : bool :=
  let B := down e k in B <? 2 ^ 29 * (10 ^ 7 * up e k - 2 ^ 25 * B).
Definition find_pair (row : list (Z * (Z * Z * Z * Z))) (e : Z) : option (Z * Z * Z * Z) :=
  match find (fun r => fst r =? e) row with Some r => Some (snd r) | None => None end.
Definition row_ok (row : Z * list (Z * (Z * Z * Z * Z))) : bool :=
  let k := fst row in
  let low := fst (hd (0, (0, 0, 0, 0)) (snd row)) in let high := fst (last (snd row) (0, (0, 0, 0, 0))) in
  too_small k (low - 1) && too_large k (high + 1) &&
  forallb (fun i => let e := low - 1 + i in match find_pair (snd row) e with Some pq => pair_ok k e pq | None => false end) (upto (Z.to_nat (high - low + 1))).
Definition rows_ok (rows : list (Z * list (Z * (Z * Z * Z * Z)))) : bool :=
  forallb (fun i => existsb (fun row => fst row =? i - 151) rows) (upto 254) && forallb row_ok rows.
Lemma rows_checked : rows_ok farey_rows = true. Proof. vm_compute. reflexivity. Qed.

Lemma multiples_sound k e A B p q d u : 0 < q -> 0 < B -> 0 <= d -> u * d = Z.abs (u * q * A - u * p * B) ->
  multiples_ok k e B p q d = true -> 0 < u -> 10 ^ 7 <= u * q < 336000000 -> 0 < u * p < 2 ^ 25 -> Z.even (u * p) = false -> (k = -150 \/ 2 ^ 24 <= u * p) ->
  2 ^ 29 * Z.abs (u * q * A - u * p * B) <= B ->
  u * q * A = u * p * B \/ In (u * q, e) near_decimals.
Proof.
  intros Hq HB Hd Ed M Hu Hs Hn Odd Hk C. destruct (Z.eq_dec d 0) as [D|D]; [left; subst d; lia | right].
  unfold multiples_ok in M. apply orb_true_iff in M. destruct M as [M|M]; [apply Z.eqb_eq in M; contradiction|].
  cbv zeta in M. apply andb_true_iff in M. destruct M as [_ M]. rewrite forallb_forall in M. specialize (M u). rewrite <- Ed in C.
  assert (I : In u (upto (Z.to_nat (Z.min ((336000000 - 1) / q) (B / (2 ^ 29 * d)))))).
  { apply upto_in. rewrite Z2Nat.id by (apply Z.min_glb; apply Z.div_pos; lia). split; [lia|].
    apply Z.min_glb; apply Z.div_le_lower_bound; lia. }
  specialize (M I). apply orb_true_iff in M. destruct M as [M|M].
  - exfalso. rewrite Odd in M. replace (u * q <? 10 ^ 7) with false in M by (symmetry; apply Z.ltb_ge; lia).
    replace (2 ^ 25 <=? u * p) with false in M by (symmetry; apply Z.leb_gt; lia). cbn [orb] in M. apply andb_true_iff in M. destruct M as [M1 M2].
    apply Z.ltb_lt in M2. apply negb_true_iff, Z.eqb_neq in M1. lia.
  - unfold listed in M. apply existsb_exists in M. destruct M as ([a b] & In1 & E). cbn [fst snd] in E. apply andb_true_iff in E.
    destruct E as [E1 E2]. apply Z.eqb_eq in E1. apply Z.eqb_eq in E2. subst. exact In1.
Qed.
Lemma pair_sound k e pq s n : pair_ok k e pq = true -> 10 ^ 7 <= s < 336000000 -> 0 < n < 2 ^ 25 -> Z.even n = false -> (k = -150 \/ 2 ^ 24 <= n) ->
  close s e n k -> s * up e k = n * down e k \/ In (s, e) near_decimals.
Proof.
  destruct pq as [[[p1 q1] p2] q2]. intros H Hs Hn Odd Hk C. unfold pair_ok in H. cbv zeta in H. pose proof (down_pos e k) as HB. pose proof (up_pos e k) as HA.
  unfold close in C. set (A := up e k) in *. set (B := down e k) in *. clearbody A B.
  rewrite !andb_true_iff in H. destruct H as ((((((((Q1 & Q2) & De) & Su) & Lo) & Up) & Ga) & M1) & M2).
  apply Z.ltb_lt in Q1, Q2, Up, Ga. apply Z.eqb_eq in De. apply Z.leb_le in Su, Lo.
  destruct (on_line A B p1 q1 p2 q2 s n HB Q1 Q2 De Su Lo Up Ga ltac:(lia) C) as [(u & U & -> & ->)|(u & U & -> & ->)].
  - apply (multiples_sound k e A B p1 q1 (q1 * A - p1 * B) u); try assumption; try lia.
    rewrite Z.abs_eq; [ring | nia].
  - apply (multiples_sound k e A B p2 q2 (p2 * B - q2 * A) u); try assumption; try lia.
    rewrite Z.abs_neq; [ring | nia].
Qed.
Lemma up_down e e' k : e' <= e -> up e' k * down e k <= up e k * down e' k.
Proof.
  intros H. unfold up, down.
  replace (10 ^ Z.max 0 e' * 2 ^ Z.max 0 (- k) * (10 ^ Z.max 0 (- e) * 2 ^ Z.max 0 k)) with (10 ^ (Z.max 0 e' + Z.max 0 (- e)) * (2 ^ Z.max 0 (- k) * 2 ^ Z.max 0 k)) by (rewrite Z.pow_add_r by lia; ring).
  replace (10 ^ Z.max 0 e * 2 ^ Z.max 0 (- k) * (10 ^ Z.max 0 (- e') * 2 ^ Z.max 0 k)) with (10 ^ (Z.max 0 e + Z.max 0 (- e')) * (2 ^ Z.max 0 (- k) * 2 ^ Z.max 0 k)) by (rewrite Z.pow_add_r by lia; ring).
  apply Z.mul_le_mono_nonneg_r; [apply Z.mul_nonneg_nonneg; apply Z.pow_nonneg; lia | apply Z.pow_le_mono_r; lia].
Qed.
Lemma small_apart k e e' s n : e' <= e -> too_small k e = true -> s < 336000000 -> 0 < n -> (k = -150 \/ 2 ^ 24 <= n) -> ~ close s e' n k.
Proof.
  intros H T Hs Hn Hk C. unfold too_small in T. cbv zeta in T. apply Z.ltb_lt in T. unfold close in C. set (l := if k =? -150 then 1 else 2 ^ 24) in *.
  assert (L : l <= n) by (unfold l; destruct (Z.eqb_spec k (-150)); lia). pose proof (up_down e e' k H) as M.
  pose proof (down_pos e k) as B. pose proof (up_pos e k) as A. pose proof (down_pos e' k) as B'. pose proof (up_pos e' k) as A'.
  set (a := up e k) in *. set (b := down e k) in *. set (a' := up e' k) in *. set (b' := down e' k) in *. clearbody a b a' b' l.
  assert (s * a' <= 336000000 * a') by nia. assert (l * b' <= n * b') by nia.
  assert (C2 : 2 ^ 29 * (l * b' - 336000000 * a') <= b') by lia.
  assert (2 ^ 29 * (l * b' - 336000000 * a') * b <= b' * b) by (apply Z.mul_le_mono_nonneg_r; lia).
  assert (b * b' < 2 ^ 29 * (l * b - 336000000 * a) * b') by (apply Z.mul_lt_mono_pos_r; lia). lia.
Qed.
Lemma large_apart k e e' s n : e <= e' -> too_large k e = true -> 10 ^ 7 <= s -> n < 2 ^ 25 -> ~ close s e' n k.
Proof.
  intros H T Hs Hn C. unfold too_large in T. cbv zeta in T. apply Z.ltb_lt in T. unfold close in C. pose proof (up_down e' e k H) as M.
  pose proof (down_pos e k) as B. pose proof (up_pos e k) as A. pose proof (down_pos e' k) as B'. pose proof (up_pos e' k) as A'.
  set (a := up e k) in *. set (b := down e k) in *. set (a' := up e' k) in *. set (b' := down e' k) in *. clearbody a b a' b'.
  assert (10 ^ 7 * a' <= s * a') by nia. assert (n * b' <= 2 ^ 25 * b') by nia.
  assert (C2 : 2 ^ 29 * (10 ^ 7 * a' - 2 ^ 25 * b') <= b') by lia.
  assert (2 ^ 29 * (10 ^ 7 * a' - 2 ^ 25 * b') * b <= b' * b) by (apply Z.mul_le_mono_nonneg_r; lia).
  assert (b * b' < 2 ^ 29 * (10 ^ 7 * a - 2 ^ 25 * b) * b') by (apply Z.mul_lt_mono_pos_r; lia). lia.
Qed.
Lemma near_misses_of rows s e n k : rows_ok rows = true -> -150 <= k <= 103 ->
  10 ^ 7 <= s < 336000000 -> 0 < n < 2 ^ 25 -> Z.even n = false -> (k = -150 \/ 2 ^ 24 <= n) ->
  close s e n k -> s * up e k = n * down e k \/ In (s, e) near_decimals.
Proof.
  intros R K Hs Hn Odd Hk C. unfold rows_ok in R. apply andb_true_iff in R. destruct R as [R1 R2].
  rewrite forallb_forall in R1, R2. specialize (R1 (k + 151) ltac:(apply upto_in; lia)). apply existsb_exists in R1.
  destruct R1 as (row & In1 & K1). apply Z.eqb_eq in K1. replace (k + 151 - 151) with k in K1 by lia. specialize (R2 row In1).
  unfold row_ok in R2. cbv zeta in R2. rewrite K1 in R2. clear In1 K1.
  set (low := fst (hd (0, (0, 0, 0, 0)) (snd row))) in *. set (high := fst (last (snd row) (0, (0, 0, 0, 0)))) in *. clearbody low high.
  rewrite !andb_true_iff in R2. destruct R2 as ((R2 & R3) & R4).
  destruct (Z_lt_le_dec e low) as [L|L]; [exfalso; apply (small_apart k (low - 1) e s n); try assumption; lia|].
  destruct (Z_lt_le_dec high e) as [G|G]; [exfalso; apply (large_apart k (high + 1) e s n); try assumption; lia|].
  rewrite forallb_forall in R4. specialize (R4 (e - low + 1) ltac:(apply upto_in; lia)). cbv zeta in R4.
  replace (low - 1 + (e - low + 1)) with e in R4 by lia. destruct (find_pair (snd row) e) as [pq|]; [|discriminate R4].
  exact (pair_sound k e pq s n R4 Hs Hn Odd Hk C).
Qed.
Lemma near_misses s e n k : -150 <= k <= 103 ->
  10 ^ 7 <= s < 336000000 -> 0 < n < 2 ^ 25 -> Z.even n = false -> (k = -150 \/ 2 ^ 24 <= n) ->
  close s e n k -> s * up e k = n * down e k \/ In (s, e) near_decimals.
Proof. exact (near_misses_of farey_rows s e n k rows_checked). Qed.
