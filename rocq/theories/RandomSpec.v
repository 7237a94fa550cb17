(** * Vocabulary for random numbers with a given number of digits *)

From Coq Require Import ZArith Reals.
From Verif Require Import Machine Model Spec ProgramSpec.
Open Scope Z_scope.

(** the powers of ten that std::numeric_limits calls min_exponent10 and max_exponent10 *)
Definition lowest10 (f : fmt) : Z := match f with Binary32 => -37 | Binary64 => -307 end.
Definition highest10 (f : fmt) : Z := match f with Binary32 => 38 | Binary64 => 308 end.

(** The decimal of the j-th turn: the sign is drawn once; every turn draws the leading digits, the last digit,
    which is not 0, and the exponent anew.  There is no last digit when [n = 1]. *)
Definition drawn_significand (n : Z) (draw : nat -> Z -> Z -> Z) (j : nat) : Z :=
  (if draw 0%nat 0 1 =? 0 then 1 else -1) *
  (if 1 <? n then draw (3 * j + 1)%nat (10 ^ (n - 2)) (10 ^ (n - 1) - 1) * 10 + draw (3 * j + 2)%nat 1 9
   else draw (3 * j + 1)%nat 0 9).
Definition drawn_exponent (f : fmt) (n : Z) (draw : nat -> Z -> Z -> Z) (j : nat) : Z :=
  draw (3 * j + 3)%nat (lowest10 f - (n - 1)) (highest10 f - (n - 1)).
(** it is in range, and the number [x] that is read has what is asked for *)
Definition finds (f : fmt) (n : Z) (sto : Z -> Z -> option Z) (draw : nat -> Z -> Z -> Z) (j : nat) (x : Z) : Prop :=
  sto (drawn_significand n draw j) (drawn_exponent f n draw j) = Some x /\ (needs_digits f x n \/ n = 1 /\ value f x = 0%R).
