(** * Which decimals the digit writers accept *)

From Coq Require Import ZArith List Bool.
From Flocq Require Import Core.
From Verif Require Import Machine Model Spec TextSpec.
Import ListNotations.
Open Scope Z_scope.

(** the exponents of the scientific notation have at most 2 or 3 digits *)
Definition exponents_below (f : fmt) : Z := match f with Binary32 => 100 | Binary64 => 1000 end.
(** the exponent in the scientific notation of s * 10^e; 0 counts as one digit *)
Definition scientific_exponent (s e : Z) : Z := if s =? 0 then e else e + digits s - 1.
(** the text of s * 10^e, also for s = 0 *)
Definition decimal_text (s e : Z) : list Z :=
  if s =? 0 then [48; 69] ++ (if e <? 0 then 45 :: integer_text (- e) else integer_text e) else scientific false s e.
