(** * What std::to_chars(first, last, value, std::chars_format::scientific) is required to write

    [charconv.to.chars]: the value is converted in the style of printf("%e"), and "the representation
    consists of the smallest number of characters such that there is at least one digit before the
    radix point (if present) and parsing the representation using the corresponding from_chars function
    recovers value exactly"; "if there are several such representations, the representation with the
    smallest difference from the floating-point argument value is chosen, resolving any remaining ties
    using rounding according to round_to_nearest". *)

From Coq Require Import ZArith Reals List Bool.
From Flocq Require Import Core.
From Verif Require Import Machine Model Spec TextSpec.
Import ListNotations.
Open Scope Z_scope.

(** printf writes the sign of the exponent always, and at least two digits of it *)
Definition e_exponent (q : Z) : list Z :=
  (if q <? 0 then 45 else 43) :: (if Z.abs q <? 10 then [48] else []) ++ integer_text (Z.abs q).
(** the decimal s * 10^e in the style of printf("%e"), with as many digits as s has *)
Definition e_text (s e : Z) : list Z :=
  (if s <? 0 then [45] else []) ++ pointed (integer_text (Z.abs s)) ++ 101 :: e_exponent (e + digits s - 1).
Definition e_length (s e : Z) : Z := text_length (e_text s e).

(** Among the decimals that read back, the text of s * 10^e has the smallest number of characters;
    among those with equally many characters it is closest; among the equally close ones the tie rule
    is obeyed. *)
Definition to_chars_choice (m : rounding_mode) (crs : crs_tag) (f : fmt) (x s e : Z) : Prop :=
  reads_back f m x s e /\
  forall s' e', reads_back f m x s' e' -> e_length s e <= e_length s' e' /\
    (e_length s' e' = e_length s e -> (error f x s e <= error f x s' e')%R /\
      (error f x s' e' = error f x s e -> decimal s' e' <> decimal s e -> wins_tie crs s e s' e')).

(** the text for a finite value; a zero has one digit and its own sign *)
Definition to_chars_text (m : rounding_mode) (crs : crs_tag) (f : fmt) (x : Z) (t : list Z) : Prop :=
  (value f x = 0%R /\ t = (if negative f x then [45] else []) ++ [48; 101; 43; 48; 48]) \/
  (value f x <> 0%R /\ exists s e, to_chars_choice m crs f x s e /\ t = e_text s e).

(** a text in the style of printf("%e") with E for e, no plus sign, and no zero before a one-digit exponent *)
Definition unpadded (t : list Z) : list Z :=
  match t with [c; d] => if c =? 48 then [d] else t | _ => t end.
Definition plain_exponent (t : list Z) : list Z :=
  match t with
  | c :: t' => if c =? 43 then unpadded t' else if c =? 45 then 45 :: unpadded t' else t
  | [] => []
  end.
Fixpoint plain (t : list Z) : list Z :=
  match t with
  | c :: t' => if c =? 101 then 69 :: plain_exponent t' else c :: plain t'
  | [] => []
  end.
