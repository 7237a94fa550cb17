(** * What the test programs should print *)

From Coq Require Import ZArith List Bool String Permutation.
From Verif Require Import Machine Model RandomModel BenchModel ScreenModel Spec TextSpec FileSpec ProgramSpec LiveSpec.
Import ListNotations.
Open Scope list_scope.
Open Scope Z_scope.

Definition text_lines (l : list string) : list Z := List.concat (map (fun s => bytes s ++ [10]) l).
(** the end of every report *)
Definition ended : list Z := text_lines ["Done."; ""; ""]%string.
(** the digits of a number below 20 *)
Definition below_20 (n : nat) : list Z := if (n <? 10)%nat then [48 + Z.of_nat n] else [49; 38 + Z.of_nat n].

(** how the formats and the functions are called *)
Definition in_c (f : fmt) : string := match f with Binary32 => "float" | Binary64 => "double" end.
Definition in_ieee (f : fmt) : string := match f with Binary32 => "binary32" | Binary64 => "binary64" end.
Definition listed (c : contestant) : string :=
  match c with grisu_exact_chars => "Grisu-Exact" | grisu_exact_wo_correct_rounding_chars => "Grisu-Exact (w/o correct rounding)" | ryu_chars => "Ryu" end.

(** a line with the number whose bits are [x], [hex] in hexadecimal, in two programs *)
Definition found_bound (shown : Z -> list Z) (e : string) (x : Z) (hex : string) : list Z :=
  bytes "n' = 5 (e = " ++ bytes e ++ bytes ", x = " ++ shown x ++ bytes " [0x" ++ bytes hex ++ bytes "])" ++ [10].
Definition found_coincidence (shown : Z -> list Z) (e : string) (x : Z) (hex relation : string) : list Z :=
  bytes "Coincidence of integer parts detected (x = " ++ shown x ++ bytes " [0x" ++ bytes hex ++ bytes "], e = " ++ bytes e ++ bytes "): z^(f) " ++
  bytes relation ++ bytes " delta^(f)" ++ [10].

(** ** The report of success of every program *)
Definition reports (w : world) (p : program) (t : list Z) : Prop :=
  match p with
  | verify_logs => exists a b c n1 n2 n3,
      t = text_lines ["[Verifying log computation...]"]%string ++
          a ++ bytes "floor_log10_pow2 is valid up to |e| <= " ++ n1 ++ text_lines ["."; ""]%string ++
          b ++ bytes "floor_log2_pow10 is valid up to |e| <= " ++ n2 ++ text_lines ["."; ""]%string ++
          c ++ bytes "floor_log5_pow2 is valid up to |e| <= " ++ n3 ++ text_lines ["."; ""]%string ++ ended
  | verify_length => t = text_lines ["[Verifying cache length upper bound...]";
                                     ""; "Verify for IEEE-754 binary32 (float) type for negative k..."; "Maximum required bits: 57";
                                     ""; "Verify for IEEE-754 binary32 (float) type for positive k..."; "Maximum required bits: 61";
                                     ""; "Verify for IEEE-754 binary64 (double) type for negative k..."; "Maximum required bits: 125";
                                     ""; "Verify for IEEE-754 binary64 (double) type for positive k..."; "Maximum required bits: 125"; ""]%string ++ ended
  | generate => t = text_lines ["[Generating cache...]"]%string ++ ended
  | verify_deltas => t = text_lines ["[Verifying delta computation...]"; "delta computation for binary32: verified."; "delta computation for binary64: verified."]%string ++ ended
  | verify_bounds => let shown := w_number_text w Binary64 in
      t = text_lines ["[Verifying correct rounding bound...]"; "correct rounding bound computation for binary32: verified."]%string ++
          found_bound shown "-798" 0x1200000000000000 "1200000000000000" ++ found_bound shown "-592" 0x1ee0000000000000 "1ee0000000000000" ++
          found_bound shown "-406" 0x2a80000000000000 "2a80000000000000" ++ found_bound shown "152" 0x4d60000000000000 "4d60000000000000" ++
          text_lines ["correct rounding bound computation for binary64: verified."]%string ++ ended
  | verify_removals =>
      t = text_lines ["[Verifying incorrect rounding removal...]"]%string ++
          found_coincidence (w_number_text w Binary32) "-60" 0x31000000 "31000000" "<" ++ found_coincidence (w_number_text w Binary32) "59" 0x6c800000 "6c800000" ">" ++
          text_lines ["Incorrect rounding removal for binary32: verified."]%string ++
          found_coincidence (w_number_text w Binary64) "-655" 0x1af0000000000000 "1af0000000000000" "<" ++
          found_coincidence (w_number_text w Binary64) "-203" 0x3730000000000000 "3730000000000000" ">" ++
          text_lines ["Incorrect rounding removal for binary64: verified."]%string ++ ended
  | random_test f => exists count, read_integer count = Some (Z.of_nat (w_tests w f)) /\
      t = bytes "[Testing uniformly randomly generated " ++ bytes (in_c f) ++ text_lines [" inputs...]"]%string ++
          bytes "Uniform random test for " ++ bytes (in_c f) ++ bytes " with " ++ count ++ text_lines [" examples succeeded."]%string ++ ended
  | random_perf_test f => t = bytes "[Running the algorithm with uniformly randomly generated " ++ bytes (in_c f) ++ text_lines [" inputs...]"]%string ++ ended
  | misc => t = []
  | benchmark f =>
      t = bytes "[Running benchmark for " ++ bytes (in_ieee f) ++ text_lines ["...]"; "Generating random samples..."]%string ++
          List.concat (map (fun c =>
            bytes "Benchmarking " ++ bytes (listed c) ++ bytes " with uniformly random " ++ bytes (in_ieee f) ++ text_lines ["'s..."]%string ++
            List.concat (map (fun d => bytes "Benchmarking " ++ bytes (listed c) ++ bytes " with (approximately) uniformly random " ++ bytes (in_ieee f) ++
              bytes "'s of " ++ below_20 d ++ text_lines [" digits..."]%string) (seq 1 (Z.to_nat (max_digits f))))) (w_order1 w f)) ++
          text_lines ["Benchmarking done."; "Now writing to files..."]%string ++ ended
  | live f => exists ts, t = heading f ++ List.concat ts /\
      Forall2 (reaction f (w_line_sto w f)) (firstn (w_calls w) (pieces 10 (w_input w) ++ repeat [] (w_calls w))) ts
  end.
(** the order of the programs *)
Definition in_order : list program :=
  [verify_logs; verify_length; generate; verify_deltas; verify_bounds; verify_removals; random_test Binary32; random_test Binary64;
   random_perf_test Binary32; random_perf_test Binary64; misc; benchmark Binary32; benchmark Binary64; live Binary32; live Binary64].
(** the programs up to the first live test *)
Fixpoint up_to_live (ps : list program) : list program :=
  match ps with
  | [] => []
  | live f :: _ => [live f]
  | p :: ps => p :: up_to_live ps
  end.

(** ** What the programs may rely on *)
Record sensible (w : world) : Prop := {
  draws_within : forall p i, within_bounds (w_draws w p i);
  reads_right : forall f, correct_reader f (w_sto w f);
  times_plain : forall t, ~ In 10 (w_time_text w t) /\ ~ In 44 (w_time_text w t);
  all_once : forall f, Permutation (w_order1 w f) [grisu_exact_chars; grisu_exact_wo_correct_rounding_chars; ryu_chars];
  all_once' : forall f, Permutation (w_order2 w f) [grisu_exact_chars; grisu_exact_wo_correct_rounding_chars; ryu_chars];
  repeated_once : forall f, (1 <= w_iterations w f)%nat;
  tests_fit : forall f, Z.of_nat (w_tests w f) < 2 ^ 64;
  general_fit : forall f, Z.of_nat (w_general w f) < 2 ^ 64;
  per_digits_fit : forall f, Z.of_nat (w_per_digits w f) < 2 ^ 64;
  lines_read : forall f l x, w_line_sto w f l = Some x -> pattern f x;
  empty_line : forall f, w_line_sto w f [] = None }.
