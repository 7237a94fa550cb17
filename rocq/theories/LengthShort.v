(** * The rows of verify_cache_length that give too few bits *)

From Coq Require Import ZArith List.
From Verif Require Import Model.
Import ListNotations.
Open Scope Z_scope.

(** exponents e with k < 0 whose row gives one bit too few *)
Definition one_short (f : fmt) : list Z :=
  match f with
  | Binary32 => [-2; 4; 5; 10; 12; 16; 25; 27; 96]
  | Binary64 => [-2; 1; 5; 6; 18; 22; 23; 24; 25; 26; 27; 28; 31; 36; 41; 42; 44; 46; 54; 56; 57; 65; 67; 87; 112; 134; 143; 162; 192; 270; 311; 316;
                 317; 347; 361; 491; 495; 528; 594; 637; 658; 696; 710; 731; 733; 841; 891; 908; 913; 945]
  end.
(** how many bits the row of e lacks *)
Definition short_by (f : fmt) (e : Z) : Z :=
  if match f with Binary32 => e =? -90 | Binary64 => false end then 6 else if existsb (Z.eqb e) (one_short f) then 1 else 0.
