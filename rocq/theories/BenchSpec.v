(** * What the files of the benchmark say *)

From Coq Require Import ZArith Reals List Bool String.
From Flocq Require Import Core.
From Verif Require Import Machine Model Spec TextSpec FileSpec ProgramSpec.
Import ListNotations.
Open Scope list_scope.
Open Scope Z_scope.

(** the lines of a text that ends with a line end, and the cells of a line *)
Definition lines (t : list Z) : list (list Z) := removelast (pieces 10 t).
Definition cells (line : list Z) : list (list Z) := pieces 44 line.
(** a text between quotation marks *)
Definition quoted (s : string) : list Z := 34 :: bytes s ++ [34].

(** the text stands for the number whose bits are [x] *)
Definition denotes (f : fmt) (t : list Z) (x : Z) : Prop :=
  match read_text t with
  | Some (Number neg s e) => finite f x = true /\ neg = negative f x /\ read f nearest_to_even (decimal (cond_Zopp neg s) e) = value f x
  | Some (Infinity neg) => infinite f x = true /\ neg = negative f x
  | Some NaN => nan f x = true
  | None => False
  end.
(** the bits in hexadecimal, with leading zeros *)
Definition denotes_bits (f : fmt) (t : list Z) (x : Z) : Prop := tokens None t = [Literal x] /\ Z.of_nat (List.length t) = 2 + width f / 4.

(** name, sample, bits, time *)
Definition uniform_line (f : fmt) (line : list Z) (sample : string * Z) : Prop :=
  let (name, x) := sample in
  exists t bits time, cells line = [quoted name; t; bits; time] /\ denotes f t x /\ denotes_bits f bits x.
(** name, digits, sample, time *)
Definition digits_line (f : fmt) (line : list Z) (sample : string * (Z * Z)) : Prop :=
  let '(name, (d, x)) := sample in
  exists td t time, cells line = [quoted name; td; t; time] /\ read_integer td = Some d /\ denotes f t x.
