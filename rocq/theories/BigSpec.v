(** * What a bigint stands for *)

From Coq Require Import ZArith.
From Verif Require Import BigintModel.
Open Scope Z_scope.

(** the number held by the first [n] elements, the lowest element first *)
Fixpoint number (a : nat -> Z) (n : nat) : Z :=
  match n with
  | O => 0
  | S k => number a k + a k * 2 ^ (64 * Z.of_nat k)
  end.

(** The bigint of [N] elements holds the number [v], and its leading_one_pos is the position of the highest
    one bit of [v] (bit_pos counts from 1; both are 0 for the number 0). *)
Record represents (N : nat) (b : big) (v : Z) : Prop := {
  rep_words : forall i, (i < N)%nat -> 0 <= elements b i < 2 ^ 64;
  rep_value : number (elements b) N = v;
  rep_pos : (element_pos b < N)%nat;
  rep_zero : v = 0 -> element_pos b = 0%nat /\ bit_pos b = 0;
  rep_bits : 0 < v -> 1 <= bit_pos b <= 64 /\ 64 * Z.of_nat (element_pos b) + bit_pos b = Z.log2 v + 1
}.

(** the number fits in [N] elements *)
Definition fits (N : nat) (v : Z) : Prop := 0 <= v < 2 ^ (64 * Z.of_nat N).

(** the number of elements that [v] needs *)
Definition size (v : Z) : Z := Z.log2 v / 64 + 1.

(** In the schoolbook product of x by the elements of y, some row after the first needs no more elements
    than x, but the sum up to that row does. *)
Definition carry_lost (x y : Z) : Prop :=
  exists i, 1 <= i /\ x * (y / 2 ^ (64 * i) mod 2 ^ 64) < 2 ^ (64 * size x) /\
    2 ^ (64 * (size x + i)) <= x * (y mod 2 ^ (64 * (i + 1))).
