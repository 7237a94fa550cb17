(** * Model of the benchmark (benchmark/benchmark.h, benchmark/benchmark.cpp and the registered functions) and of
    tests/uniform_random_perf_test.cpp

    The random numbers of the i-th sample are a sequence of their own, [draws i] (see RandomModel.v).  The clock is a
    function: [clock i] is what the i-th measurement finds, and [time_text] the characters printed for it; the division by
    the number of iterations and the way a double is printed are not modelled.  The iteration orders of the two
    std::unordered_map are parameters.  Opening and writing the files succeeds. *)

From Coq Require Import ZArith List Bool Ascii String.
From Verif Require Import Machine Model CharsModel RyuModel TestModel RandomModel FileModel.
Import ListNotations.
Open Scope list_scope.
Open Scope Z_scope.

(** the registered functions: benchmark/grisu_exact.cpp:21-35, benchmark/grisu_exact_wo_correct_rounding.cpp:21-35 and
    benchmark/ryu.cpp:20-23 *)
Inductive contestant := grisu_exact_chars | grisu_exact_wo_correct_rounding_chars | ryu_chars.
(** benchmark/grisu_exact.cpp:21-35, benchmark/grisu_exact_wo_correct_rounding.cpp:21-35, benchmark/ryu.cpp:20-23: the names *)
Definition name_of (c : contestant) : string :=
  match c with
  | grisu_exact_chars => "Grisu-Exact"
  | grisu_exact_wo_correct_rounding_chars => "Grisu-Exact (w/o correct rounding)"
  | ryu_chars => "Ryu"
  end.
(** benchmark/grisu_exact.cpp:22-27, benchmark/grisu_exact_wo_correct_rounding.cpp:22-27, benchmark/ryu.cpp:22: one call *)
Definition convert (rc : ryu_config) (cfg : config) (f : fmt) (c : contestant) (x : Z) (b : buffer) : outcome buffer :=
  r <- match c with
       | grisu_exact_chars => fp_to_chars cfg f nearest_to_even tie_to_even x b
       | grisu_exact_wo_correct_rounding_chars => fp_to_chars cfg f nearest_to_even do_not_care x b
       | ryu_chars => ryu_buffered rc f x b
       end ;;
  Ok (fst r).

(** benchmark/benchmark.h:34-35: std::numeric_limits<Float>::max_digits10 *)
Definition max_digits10 (f : fmt) : nat := match f with Binary32 => 9 | Binary64 => 17 end.

(** ** tests/uniform_random_perf_test.cpp:25-30: the random numbers are any list *)
Fixpoint perf_loop (cfg : config) (f : fmt) (xs : list Z) (b : buffer) : outcome unit :=
  match xs with
  | [] => Ok tt
  | x :: xs => r <- fp_to_chars cfg f nearest_to_even tie_to_even x b ;; perf_loop cfg f xs (fst r)
  end.
(** tests/uniform_random_perf_test.cpp:22-31 *)
Definition uniform_random_perf_test (cfg : config) (f : fmt) (xs : list Z) (junk : Z -> Z) : outcome unit :=
  perf_loop cfg f xs (mk_buffer 41 junk).

Section Benchmark.
Variables (rc : ryu_config) (cfg : config) (f : fmt).
Variables (draws : nat -> nat -> Z -> Z -> Z) (sto : Z -> Z -> option Z) (turns : nat).
Variables (clock : nat -> Z) (time_text : Z -> list Z).

(** ** benchmark_holder::prepare_samples, benchmark.h:43-55 *)

(** benchmark.h:52-53: [n] samples with [digits] digits, from the i-th one on *)
Fixpoint digit_samples (digits : Z) (n i : nat) : outcome (list Z) :=
  match n with
  | O => Ok []
  | S n => x <- float_with_given_digits (draws i) sto cfg f turns digits ;; xs <- digit_samples digits n (S i) ;; Ok (x :: xs)
  end.
(** benchmark.h:50-54: from [digits] on, [count] numbers of digits *)
Fixpoint all_digit_samples (digits : Z) (count n i : nat) : outcome (list (list Z)) :=
  match count with
  | O => Ok []
  | S count => xs <- digit_samples digits n i ;; rest <- all_digit_samples (digits + 1) count n (n + i) ;; Ok (xs :: rest)
  end.
(** benchmark.h:43-55: samples_ *)
Definition prepare_samples (general n : nat) : outcome (list (list Z)) :=
  rest <- all_digit_samples 1 (max_digits10 f) n general ;;
  Ok (map (fun i => general_float (draws i) f) (seq 0 general) :: rest).

(** ** benchmark_holder::run, benchmark.h:62-100 *)

(** benchmark.h:88-90 *)
Fixpoint repeated (iterations : nat) (c : contestant) (x : Z) (b : buffer) : outcome buffer :=
  match iterations with
  | O => Ok b
  | S n => b <- convert rc cfg f c x b ;; repeated n c x b
  end.
(** benchmark.h:86-97: the samples and what was measured, the number of measurements so far, and the buffer *)
Fixpoint measure (iterations : nat) (c : contestant) (xs : list Z) (i : nat) (b : buffer) : outcome (list (Z * Z) * nat * buffer) :=
  match xs with
  | [] => Ok ([], i, b)
  | x :: xs =>
      b <- repeated iterations c x b ;;
      r <- measure iterations c xs (S i) b ;;
      let '(rest, i', b) := r in Ok ((x, clock i) :: rest, i', b)
  end.
(** benchmark.h:72-98 *)
Fixpoint measure_all (iterations : nat) (c : contestant) (samples : list (list Z)) (i : nat) (b : buffer)
  : outcome (list (list (Z * Z)) * nat * buffer) :=
  match samples with
  | [] => Ok ([], i, b)
  | xs :: samples =>
      r <- measure iterations c xs i b ;; let '(m, i, b) := r in
      r <- measure_all iterations c samples i b ;; let '(rest, i, b) := r in
      Ok (m :: rest, i, b)
  end.
(** benchmark.h:67-99 *)
Fixpoint run_all (iterations : nat) (order : list contestant) (samples : list (list Z)) (i : nat) (b : buffer)
  : outcome (list (contestant * list (list (Z * Z)))) :=
  match order with
  | [] => Ok []
  | c :: order =>
      r <- measure_all iterations c samples i b ;; let '(m, i, b) := r in
      rest <- run_all iterations order samples i b ;;
      Ok ((c, m) :: rest)
  end.
(** benchmark.h:62-65 *)
Definition run (iterations : nat) (order : list contestant) (samples : list (list Z)) (junk : Z -> Z)
  : outcome (list (contestant * list (list (Z * Z)))) :=
  cassert cfg (1 <=? Z.of_nat iterations) ;;;
  run_all iterations order samples 0 (mk_buffer 40 junk).

(** ** The files, benchmark.cpp:50-93 *)

(** benchmark.cpp:62-70: one row; br has as many bits as the number *)
Definition uniform_row (c : contestant) (x t : Z) (b : buffer) : outcome (list Z * buffer) :=
  r <- fp_to_chars cfg f nearest_to_even tie_to_even x b ;;
  view <- string_view (fst r) ;;
  Ok ([34] ++ text (name_of c) ++ [34; 44] ++ view ++ [44] ++ text "0x" ++
      padded (match f with Binary32 => 8 | Binary64 => 16 end) 48 (unsigned_text 16 64 x) ++ [44] ++ time_text t ++ [10], fst r).
(** benchmark.cpp:86-88: one row *)
Definition digits_row (digits : Z) (c : contestant) (x t : Z) (b : buffer) : outcome (list Z * buffer) :=
  r <- fp_to_chars cfg f nearest_to_even tie_to_even x b ;;
  view <- string_view (fst r) ;;
  Ok ([34] ++ text (name_of c) ++ [34; 44] ++ dec_text digits ++ [44] ++ view ++ [44] ++ time_text t ++ [10], fst r).
(** benchmark.cpp:61-71 and 85-89: the rows of one list of samples *)
Fixpoint rows (row : Z -> Z -> buffer -> outcome (list Z * buffer)) (results : list (Z * Z)) (b : buffer) : outcome (list Z * buffer) :=
  match results with
  | [] => Ok ([], b)
  | (x, t) :: results => r <- row x t b ;; rest <- rows row results (snd r) ;; Ok (fst r ++ fst rest, snd rest)
  end.
(** benchmark.cpp:84-90: from [digits] on *)
Fixpoint digits_rows (digits : Z) (c : contestant) (results : list (list (Z * Z))) (b : buffer) : outcome (list Z * buffer) :=
  match results with
  | [] => Ok ([], b)
  | m :: results =>
      r <- rows (digits_row digits c) m b ;;
      rest <- digits_rows (digits + 1) c results (snd r) ;;
      Ok (fst r ++ fst rest, snd rest)
  end.
(** benchmark.cpp:60 and 83: the entry of the map for the name [c] *)
Definition results_of (c : contestant) (out : list (contestant * list (list (Z * Z)))) : list (list (Z * Z)) :=
  match find (fun p => match fst p, c with
                       | grisu_exact_chars, grisu_exact_chars | ryu_chars, ryu_chars
                       | grisu_exact_wo_correct_rounding_chars, grisu_exact_wo_correct_rounding_chars => true
                       | _, _ => false
                       end) out with
  | Some p => snd p
  | None => []
  end.
(** benchmark.cpp:60-72 *)
Fixpoint uniform_rows (order : list contestant) (out : list (contestant * list (list (Z * Z)))) (b : buffer) : outcome (list Z * buffer) :=
  match order with
  | [] => Ok ([], b)
  | c :: order =>
      r <- rows (uniform_row c) (hd [] (results_of c out)) b ;;
      rest <- uniform_rows order out (snd r) ;;
      Ok (fst r ++ fst rest, snd rest)
  end.
(** benchmark.cpp:83-92 *)
Fixpoint all_digits_rows (order : list contestant) (out : list (contestant * list (list (Z * Z)))) (b : buffer) : outcome (list Z * buffer) :=
  match order with
  | [] => Ok ([], b)
  | c :: order =>
      r <- digits_rows 1 c (tl (results_of c out)) b ;;
      rest <- all_digits_rows order out (snd r) ;;
      Ok (fst r ++ fst rest, snd rest)
  end.
(** benchmark.cpp:38-97: the two files; [order1] is the order of name_func_pairs_, [order2] that of [out]; the buffer (58)
    is used for both files *)
Definition benchmark_test (order1 order2 : list contestant) (general n iterations : nat) (junk1 junk2 : Z -> Z) : outcome (list Z * list Z) :=
  samples <- prepare_samples general n ;;
  out <- run iterations order1 samples junk1 ;;
  u <- uniform_rows order2 out (mk_buffer 64 junk2) ;;
  d <- all_digits_rows order2 out (snd u) ;;
  Ok (text "number_of_samples," ++ dec_text (Z.of_nat general) ++ [10] ++ text "name,sample,bit_representation,time" ++ [10] ++ fst u,
      text "number_of_samples_per_digits," ++ dec_text (Z.of_nat n) ++ [10] ++ text "name,digits,sample,time" ++ [10] ++ fst d).
End Benchmark.
