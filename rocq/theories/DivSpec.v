(** * The two situations in which long_division loses its place, in terms of the numbers only *)

From Coq Require Import ZArith.
Open Scope Z_scope.

(** Doing the division of [v] by [w] bit by bit, what is left of [v] is at some time as long as
    [w * 2 ^ (64 k)] but smaller, for a [k] that is not 0. *)
Definition crosses (v w : Z) : Prop :=
  exists k, 1 <= k /\ Z.log2 (v mod (w * 2 ^ (64 * k))) = Z.log2 w + 64 * k.
(** After the subtraction of [w * 2 ^ t], what is left of [v] is more than 64 bits shorter than
    [w * 2 ^ t], by [drop] bits, a number that is not a multiple of 64, and still as long as [w].  Moved
    down by whole elements, [w * 2 ^ t] would have its element [p + drop / 64] at [p], just above the
    leading one of what is left; its own element [p] is still there, and the two differ in the bits that
    are shifted out of it. *)
Definition leaps (v w : Z) : Prop :=
  exists t, 0 <= t /\ Z.testbit (v / w) t = true /\ 0 < v mod (w * 2 ^ t) /\
    let drop := Z.log2 w + t - Z.log2 (v mod (w * 2 ^ t)) in
    (64 < drop <= t /\ drop mod 64 <> 0) /\
    let p := Z.log2 (v mod (w * 2 ^ t)) / 64 + 1 in
    (w * 2 ^ t / 2 ^ (64 * p)) mod 2 ^ (drop mod 64) <> (w * 2 ^ t / 2 ^ (64 * (p + drop / 64))) mod 2 ^ (drop mod 64).
Definition safe (v w : Z) : Prop := (Z.even w = true \/ ~ crosses v w) /\ ~ leaps v w.

(** the first situation arises at [k = 1], and not at any other *)
Definition crosses_last (v w : Z) : Prop := Z.log2 (v mod (w * 2 ^ 64)) = Z.log2 w + 64 /\
  forall k, 2 <= k -> Z.log2 (v mod (w * 2 ^ (64 * k))) <> Z.log2 w + 64 * k.
