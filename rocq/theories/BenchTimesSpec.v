(** * Which sample and which time a row of the files of the benchmark shows *)

From Coq Require Import ZArith List Bool String.
From Verif Require Import Machine Model Spec TextSpec FileSpec ProgramSpec RandomSpec BenchModel BenchSpec.
Import ListNotations.
Open Scope list_scope.
Open Scope Z_scope.

Definition called (c : contestant) : string :=
  match c with grisu_exact_chars => "Grisu-Exact" | grisu_exact_wo_correct_rounding_chars => "Grisu-Exact (w/o correct rounding)" | ryu_chars => "Ryu" end.
Definition contestant_eq (c d : contestant) : {c = d} + {c <> d}.
Proof. decide equality. Defined.
(** the place in an order *)
Fixpoint place (c : contestant) (order : list contestant) : nat :=
  match order with [] => O | d :: order => if contestant_eq c d then O else S (place c order) end.

(** the number of the first turn that finds one *)
Definition first_drawn (f : fmt) (d : Z) (sto : Z -> Z -> option Z) (draw : nat -> Z -> Z -> Z) (turns : nat) (x : Z) : Prop :=
  exists j, (j < turns)%nat /\ finds f d sto draw j x /\ forall i y, (i < j)%nat -> ~ finds f d sto draw i y.

(** each sample with its own measurement: those of the [start]-th and the following measurements *)
Definition timed {A} (clock : nat -> Z) (start : nat) (xs : list A) : list (A * Z) := combine xs (map clock (seq start (List.length xs))).

(** name, sample, bits, time *)
Definition uniform_entry (f : fmt) (time_text : Z -> list Z) (line : list Z) (row : contestant * (Z * Z)) : Prop :=
  let '(c, (x, t)) := row in
  exists v bits, cells line = [quoted (called c); v; bits; time_text t] /\ denotes f v x /\ denotes_bits f bits x.
(** name, digits, sample, time *)
Definition digits_entry (f : fmt) (time_text : Z -> list Z) (line : list Z) (row : contestant * (Z * Z * Z)) : Prop :=
  let '(c, (d, x, t)) := row in
  exists td v, cells line = [quoted (called c); td; v; time_text t] /\ read_integer td = Some d /\ denotes f v x.
