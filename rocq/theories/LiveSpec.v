(** * What the live test should say *)

From Coq Require Import ZArith Reals List Bool String.
From Flocq Require Import Core.
From Verif Require Import Machine Model Spec UserSpec TextSpec FileSpec ProgramSpec BenchSpec.
Import ListNotations.
Open Scope list_scope.
Open Scope Z_scope.

(** the answer to the number whose bits are [x]: four lines, with the sign, the exponent in decimal, the significand
    in hexadecimal with all its digits, and a decimal that stands for the number.  The first three make up the number
    if it is zero or a normal number. *)
Definition answers (f : fmt) (x : Z) (t : list Z) : Prop :=
  exists exponent significand decimal e s,
    lines t = [bytes "               sign: " ++ bytes (if negative f x then "-" else "+");
               bytes "           exponent: " ++ exponent;
               bytes "        significand: " ++ significand;
               bytes " Grisu-Exact output: " ++ decimal] /\
    last t 0 = 10 /\
    read_integer exponent = Some e /\ tokens None significand = [Literal s] /\ Z.of_nat (List.length significand) = 2 + width f / 4 /\
    denotes f decimal x /\
    (finite f x = true -> value f x = 0%R \/ normal f x -> binary (cond_Zopp (negative f x) s) e = value f x).

(** the reaction to a line, where [sto] tells the bits of the number that the line stands for, if any *)
Definition reaction (f : fmt) (sto : list Z -> option Z) (line t : list Z) : Prop :=
  match sto line with
  | Some x => answers f x t
  | None => t = bytes "Not a valid input; input again." ++ [10]
  end.
(** the first line of the screen *)
Definition heading (f : fmt) : list Z :=
  bytes (match f with Binary32 => "[Start live test for float's]" | Binary64 => "[Start live test for double's]" end) ++ [10].
