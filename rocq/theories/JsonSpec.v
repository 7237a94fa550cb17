(** * JSON numbers (RFC 8259, section 6), on lists of byte values *)

From Coq Require Import ZArith List.
From Verif Require Import FormSpec.
Import ListNotations.
Open Scope Z_scope.

(** int = zero / ( digit1-9 *DIGIT ) *)
Definition json_int (t : list Z) : Prop := t = [48] \/ exists c u, t = c :: u /\ 49 <= c <= 57 /\ Forall decimal_digit u.
(** frac = decimal-point 1*DIGIT *)
Definition json_frac (t : list Z) : Prop := exists u, t = 46 :: u /\ u <> [] /\ Forall decimal_digit u.
(** exp = e [ minus / plus ] 1*DIGIT *)
Definition json_exp (t : list Z) : Prop :=
  exists c sign u, t = c :: sign ++ u /\ (c = 101 \/ c = 69) /\ (sign = [] \/ sign = [45] \/ sign = [43]) /\ u <> [] /\ Forall decimal_digit u.
(** number = [ minus ] int [ frac ] [ exp ] *)
Definition json_number (t : list Z) : Prop :=
  exists minus int frac exp, t = minus ++ int ++ frac ++ exp /\
    (minus = [] \/ minus = [45]) /\ json_int int /\ (frac = [] \/ json_frac frac) /\ (exp = [] \/ json_exp exp).
