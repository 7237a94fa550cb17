(** * What minmax_euclid is for: the extreme residues of the multiples of a modulo b *)

From Coq Require Import ZArith.
Open Scope Z_scope.

Definition residue (a b n : Z) : Z := (a * n) mod b.
Definition least (a b N m : Z) : Prop := (exists n, 1 <= n <= N /\ residue a b n = m) /\ forall n, 1 <= n <= N -> m <= residue a b n.
Definition greatest (a b N m : Z) : Prop := (exists n, 1 <= n <= N /\ residue a b n = m) /\ forall n, 1 <= n <= N -> residue a b n <= m.

(** all the residues of multipliers up to [N] that are not 0, and what they lack to [b], are within 64 bits
    of [b]; and [a] is not 64 bits longer than [b] *)
Definition close (a b N : Z) : Prop := Z.log2 a - Z.log2 b < 64 /\
  forall n, 1 <= n <= N -> (residue a b n <> 0 -> Z.log2 b - Z.log2 (residue a b n) < 64) /\ Z.log2 b - Z.log2 (b - residue a b n) < 64.
