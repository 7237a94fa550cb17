(** * randomly_generate_float_with_given_digits returns what the first turn finds that finds anything *)

From Coq Require Import ZArith Reals List Bool Lia.
From Verif Require Import Machine Model BigintModel RandomModel Spec ProgramSpec RandomSpec RandomClaims.
Open Scope Z_scope.

Definition the_sign (draw : nat -> Z -> Z -> Z) : Z := if draw 0%nat 0 1 =? 0 then 1 else -1.
Lemma the_sign_cases draw : the_sign draw = 1 \/ the_sign draw = -1.
Proof. unfold the_sign. destruct (_ =? 0); [left | right]; reflexivity. Qed.

Lemma turn_result draw sto cfg f n j : 1 <= n <= max_digits f -> within_bounds draw -> correct_reader f sto ->
  (attempt draw sto cfg f n (the_sign draw) (from_of n) (to_of n) (3 * j + 1) = Ok None /\ forall x, ~ finds f n sto draw j x) \/
  exists x, attempt draw sto cfg f n (the_sign draw) (from_of n) (to_of n) (3 * j + 1) = Ok (Some x) /\ finds f n sto draw j x.
Proof.
  intros Hn W C. destruct (attempt_split draw sto cfg f n (the_sign draw) (3 * j + 1) Hn W (the_sign_cases draw)) as (s & e & E & He & Hs & Ee & Es).
  pose proof (the_sign_cases draw) as Hsign. rewrite E.
  assert (Q : sto (the_sign draw * s) e = sto (drawn_significand n draw j) (drawn_exponent f n draw j)).
  { unfold drawn_significand, drawn_exponent. fold (the_sign draw). rewrite Es, Ee.
    replace (S (S (3 * j + 1))) with (3 * j + 3)%nat by lia. replace (S (3 * j + 1)) with (3 * j + 2)%nat by lia. reflexivity. }
  unfold finds. rewrite <- Q. clear Q Ee Es E.
  pose proof (C (the_sign draw * s) e) as Cs. destruct (sto (the_sign draw * s) e) as [x|]; [|left; split; [reflexivity | intros x [F _]; discriminate]].
  destruct Cs as (Px & Fx & V). destruct Hs as [[Hs Hd]|[-> ->]].
  - assert (A : Z.abs (the_sign draw * s) = s) by lia.
    assert (N : value f x <> 0%R).
    { rewrite V. apply read_nonzero. rewrite decimal_abs, A. apply (decimal_above f n); [exact Hs | exact Hd | lia]. }
    destruct (accepted_nonzero cfg f n x Hn) as [[E K]|[E K]].
    + split; [exact Px | split; [exact Fx | exact N]].
    + exists (the_sign draw * s), e. split; [unfold reads_back; symmetry; exact V|]. rewrite <- digits_abs, A. exact Hd.
    + left. split; [exact E|]. intros y [Y G]. injection Y as <-. destruct G as [G|[_ G]]; [exact (K G) | exact (N G)].
    + right. exists x. split; [exact E|]. split; [reflexivity | left; exact K].
  - rewrite Z.mul_0_r, decimal_zero, read_zero in V. right. exists x. split; [apply accepted_zero; assumption|].
    split; [reflexivity|]. right. split; [reflexivity | exact V].
Qed.

Lemma turns_result draw sto cfg f n : 1 <= n <= max_digits f -> within_bounds draw -> correct_reader f sto -> forall turns j,
  (exists k x, (j <= k < j + turns)%nat /\ finds f n sto draw k x /\ (forall i y, (j <= i < k)%nat -> ~ finds f n sto draw i y) /\
    attempts draw sto cfg f n (the_sign draw) (from_of n) (to_of n) turns (3 * j + 1) = Ok x) \/
  ((forall i y, (j <= i < j + turns)%nat -> ~ finds f n sto draw i y) /\
    attempts draw sto cfg f n (the_sign draw) (from_of n) (to_of n) turns (3 * j + 1) = Diverged).
Proof.
  intros Hn W C. induction turns as [|t IH]; intros j; [right; split; [intros; lia | reflexivity]|]. cbn [attempts].
  destruct (turn_result draw sto cfg f n j Hn W C) as [[-> F]|(x & -> & F)]; cbn [bind].
  - replace (3 * j + 1 + 3)%nat with (3 * S j + 1)%nat by lia. destruct (IH (S j)) as [(k & x & K & G & L & ->)|[L ->]].
    + left. exists k, x. split; [lia|]. split; [exact G|]. split; [|reflexivity]. intros i y I.
      destruct (Nat.eq_dec i j) as [->|D]; [apply F | apply L; lia].
    + right. split; [|reflexivity]. intros i y I. destruct (Nat.eq_dec i j) as [->|D]; [apply F | apply L; lia].
  - left. exists j, x. split; [lia|]. split; [exact F|]. split; [intros; lia | reflexivity].
Qed.

Lemma found_unique f n sto draw j x y : finds f n sto draw j x -> finds f n sto draw j y -> x = y.
Proof. intros [E _] [F _]. congruence. Qed.

Lemma first_found : forall draw sto cfg f turns n, 1 <= n <= max_digits f -> within_bounds draw -> correct_reader f sto ->
  (forall x, float_with_given_digits draw sto cfg f turns n = Ok x <->
    exists j, (j < turns)%nat /\ finds f n sto draw j x /\ forall i y, (i < j)%nat -> ~ finds f n sto draw i y) /\
  ((forall j y, (j < turns)%nat -> ~ finds f n sto draw j y) -> float_with_given_digits draw sto cfg f turns n = Diverged).
Proof.
  intros draw sto cfg f turns n Hn W C. rewrite start by exact Hn. fold (the_sign draw).
  pose proof (turns_result draw sto cfg f n Hn W C turns 0) as T. change (3 * 0 + 1)%nat with 1%nat in T.
  destruct T as [(k & x & K & G & L & ->)|[L ->]].
  - split.
    + intros y. split.
      * intros E. injection E as <-. exists k. split; [lia|]. split; [exact G|]. intros i z I. apply L. lia.
      * intros (j & J & F & M). f_equal. assert (k = j).
        { destruct (Nat.lt_trichotomy k j) as [A|[A|A]]; [exfalso; exact (M k x A G) | exact A | exfalso; exact (L j y ltac:(lia) F)]. }
        subst k. exact (found_unique _ _ _ _ _ _ _ G F).
    + intros N. exfalso. apply (N k x); [lia | exact G].
  - split; [|reflexivity]. intros y. split; [discriminate|]. intros (j & J & F & _). exfalso. apply (L j y); [lia | exact F].
Qed.

Lemma general_float_uniform : forall f, (forall draw, within_bounds draw -> pattern f (general_float draw f)) /\
  forall x draw, general_float draw f = x <-> draw 0%nat 0 (2 ^ width f - 1) = x.
Proof.
  intros f. assert (E : extended_precision f = width f) by (destruct f; reflexivity). split.
  - intros draw W. unfold general_float, pattern. rewrite E. pose proof (W 0%nat 0 (2 ^ width f - 1) ltac:(destruct f; vm_compute; discriminate)). lia.
  - intros x draw. unfold general_float. rewrite E. reflexivity.
Qed.
