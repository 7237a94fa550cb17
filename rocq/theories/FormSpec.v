(** * The form of the printed texts *)

From Coq Require Import ZArith Reals List Bool.
From Flocq Require Import Core.
From Verif Require Import Machine Model Spec TextSpec.
Import ListNotations.
Open Scope Z_scope.

Definition decimal_digit (c : Z) : Prop := 48 <= c <= 57.
(** digits without superfluous zeros in front *)
Definition numeral (t : list Z) : Prop := t <> [] /\ Forall decimal_digit t /\ (hd 0 t = 48 -> t = [48]).
(** [-]d[.ddd]E[-]nnn: the first digit is not zero, the last digit after a point is not zero, the exponent is not -0 *)
Definition in_form (t : list Z) : Prop :=
  exists (neg : bool) first more (minus : bool) exponent,
    t = (if neg then [45] else []) ++ first :: (match more with [] => [] | _ => 46 :: more end) ++ 69 :: (if minus then [45] else []) ++ exponent /\
    decimal_digit first /\ first <> 48 /\ Forall decimal_digit more /\ last more 0 <> 48 /\
    numeral exponent /\ (minus = true -> exponent <> [48]).
(** the text stands for the real number *)
Definition stands_for (t : list Z) (v : R) : Prop :=
  exists neg s e, read_text t = Some (Number neg s e) /\ decimal (cond_Zopp neg s) e = v.
(** the number of digits before E *)
Fixpoint digits_shown (t : list Z) : Z :=
  match t with
  | c :: t => if c =? 69 then 0 else (if is_digit c then 1 else 0) + digits_shown t
  | [] => 0
  end.
(** the exponents for which every short text stands for a normal number *)
Definition whole_range (f : fmt) : Z := match f with Binary32 => 37 | Binary64 => 307 end.
