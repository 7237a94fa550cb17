(** * Vocabulary for the properties of the test programs *)

From Coq Require Import ZArith Reals Bool.
From Flocq Require Import Core.
From Verif Require Import Machine Model Spec.
Open Scope R_scope.

(** s * 2^e *)
Definition binary (s e : Z) : R := F2R (Float radix2 s e).

(** ** Random numbers: the number obtained by the i-th request for a number in [a, b] *)
Definition within_bounds (draw : nat -> Z -> Z -> Z) : Prop := forall i a b, (a <= b)%Z -> (a <= draw i a b <= b)%Z.

(** ** std::stof and std::stod

    The decimal s * 10^e is read to nearest, ties to even.  Nothing is returned if the result is too large for the
    format; nothing need be returned below the smallest normal number. *)
Definition emax (f : fmt) : Z := match f with Binary32 => 128 | Binary64 => 1024 end.
Definition correct_reader (f : fmt) (sto : Z -> Z -> option Z) : Prop := forall s e,
  match sto s e with
  | Some x => pattern f x /\ finite f x = true /\ value f x = read f nearest_to_even (decimal s e)
  | None => bpow radix2 (emax f) <= Rabs (read f nearest_to_even (decimal s e)) \/
            0 < Rabs (decimal s e) < bpow radix2 (emin f + prec f - 1)
  end.

(** the fewest digits a decimal that reads back to [x] can have is [n] *)
Definition needs_digits (f : fmt) (x n : Z) : Prop :=
  (exists s e, reads_back f nearest_to_even x s e /\ digits s = n) /\
  forall s e, reads_back f nearest_to_even x s e -> (n <= digits s)%Z.
