(** * Model of what the test programs print on the screen, and of tests/main.cpp

    The numbers come from the models of the programs.  How std::ostream prints a floating-point number with
    std::setprecision(9) or std::setprecision(17) is a parameter, [number_text]. *)

From Coq Require Import ZArith List Bool Ascii String.
From Verif Require Import Machine Model CharsModel RyuModel TestModel RandomModel BigintModel GenModel LengthModel CheckModel FileModel BenchModel LiveModel.
Import ListNotations.
Open Scope list_scope.
Open Scope Z_scope.

(** a line, as at generate_cache.cpp:194 *)
Definition line (s : string) : list Z := text s ++ [10].
(** "Done.\n\n\n", as at generate_cache.cpp:270 *)
Definition done_text : list Z := text "Done." ++ [10; 10; 10].
(** the second argument at verify_delta_computation.cpp:60 and 67, uniform_random_test.cpp:61 and 66 *)
Definition c_name (f : fmt) : string := match f with Binary32 => "float" | Binary64 => "double" end.
(** as at benchmark.cpp:104 and 113, and at generate_cache.cpp:242 and 258 *)
Definition ieee_name (f : fmt) : string := match f with Binary32 => "binary32" | Binary64 => "binary64" end.
(** std::hex << std::setfill('0') << std::setw(8 or 16) << bit_rep, as at verify_correct_rounding_bound.cpp:96-110 *)
Definition bits_hex (f : fmt) (v : Z) : list Z := padded (match f with Binary32 => 8 | Binary64 => 16 end) 48 (unsigned_text 16 64 v).

(** ** tests/verify_delta_computation.cpp:28-58: the value returned and the text printed *)
Definition delta_part (cfg : config) (f : fmt) : outcome (bool * list Z) :=
  r <- int_loop (fun k (_ : unit) =>
         d <- two_deltas cfg f k ;;
         Ok (if negb (fst d =? snd d) then
               inr (text "compute_delta for " ++ text (c_name f) ++ text ": mismatch! [k = " ++ dec_text k ++ text ", correct deltai = " ++
                    dec_text (fst d) ++ text ", computed deltai = (" ++ dec_text (snd d) ++ text "]" ++ [10])
             else inl tt))
       (min_k f) (Z.to_nat (max_k f + 1 - min_k f)) tt ;;
  Ok (match r with inl _ => (true, []) | inr t => (false, t) end).
(** the lines after the two calls of verify_single_type: verify_delta_computation.cpp:60-74, verify_correct_rounding_bound.cpp:117-131
    and verify_incorrect_rounding_removal.cpp:205-219 *)
Definition verdict_text (what : string) (f : fmt) (ok : bool) : list Z :=
  text what ++ text " for " ++ text (ieee_name f) ++ text (if ok then ": verified." else ": failed.") ++ [10].
(** verify_delta_computation.cpp:22-75 *)
Definition two_parts (title what : string) (part : fmt -> outcome (bool * list Z)) : outcome (list Z) :=
  r32 <- part Binary32 ;; r64 <- part Binary64 ;;
  Ok (line title ++ snd r32 ++ verdict_text what Binary32 (fst r32) ++ snd r64 ++ verdict_text what Binary64 (fst r64) ++ done_text).
(** verify_delta_computation.cpp:22-75 *)
Definition delta_screen (cfg : config) : outcome (list Z) := two_parts "[Verifying delta computation...]" "delta computation" (delta_part cfg).

Section Numbers.
Variable number_text : fmt -> Z -> list Z.

(** verify_correct_rounding_bound.cpp:93-110 *)
Definition bound_line (f : fmt) (np e bit_rep : Z) : list Z :=
  text "n' = " ++ dec_text np ++ text " (e = " ++ dec_text e ++ text ", x = " ++ number_text f bit_rep ++ text " [0x" ++ bits_hex f bit_rep ++ text "])" ++ [10].
(** verify_correct_rounding_bound.cpp:64 and verify_incorrect_rounding_removal.cpp:64 *)
Definition mismatch_line : list Z := line "Detected mismatch between kappa's for different rounding modes!".
(** verify_correct_rounding_bound.cpp:27-115 *)
Definition bound_part (cfg : config) (f : fmt) : outcome (bool * list Z) :=
  r <- int_loop (fun e_shifted (st : bool * list Z) =>
         x <- examine cfg f e_shifted ;;
         match x with
         | None => Ok (inr (false, snd st ++ mismatch_line))
         | Some (e, _, beta, kappa, divisor, cache) =>
             np <- n_prime cfg f beta divisor cache ;;
             let bit_rep := wrap (extended_precision f) (Z.shiftl e_shifted (precision f)) in
             Ok (inl (if (5 <=? np) && negb (kappa =? 0) then
                        (match f with Binary32 => false | Binary64 => if 6 <=? np then false else fst st end, snd st ++ bound_line f np e bit_rep)
                      else st))
         end)
       1 (Z.to_nat (Z.shiftl 1 (exponent_bits f) - 2)) (true, []) ;;
  Ok (match r with inl r => r | inr r => r end).
(** verify_correct_rounding_bound.cpp:22-132 *)
Definition bound_screen (cfg : config) : outcome (list Z) :=
  two_parts "[Verifying correct rounding bound...]" "correct rounding bound computation" (bound_part cfg).

(** verify_incorrect_rounding_removal.cpp:135-146, 154, 170 and 185 *)
Definition coincidence_line (f : fmt) (e bit_rep : Z) (c : comparison_of_fractions) : list Z :=
  text "Coincidence of integer parts detected (x = " ++ number_text f bit_rep ++ text " [0x" ++ bits_hex f bit_rep ++ text "], e = " ++ dec_text e ++ text "): " ++
  line (match c with fraction_smaller => "z^(f) < delta^(f)" | fraction_equal => "z^(f) == delta^(f)" | fraction_larger => "z^(f) > delta^(f)" end).
(** verify_incorrect_rounding_removal.cpp:28-203 *)
Definition removal_part (cfg : config) (f : fmt) : outcome (bool * list Z) :=
  let special := match f with Binary32 => 59 | Binary64 => -203 end in
  r <- int_loop (fun e_shifted (st : bool * list Z) =>
         x <- examine cfg f e_shifted ;;
         match x with
         | None => Ok (inr (false, snd st ++ mismatch_line))
         | Some (e, k, beta, _, divisor, cache) =>
             c <- coincidence cfg f e k beta divisor cache ;;
             let bit_rep := wrap (extended_precision f) (Z.shiftl e_shifted (precision f)) in
             Ok (inl (match c with
                      | None => st
                      | Some c =>
                          let ok := match c with fraction_larger => e =? special | _ => negb (e =? special) end in
                          (if ok then fst st else false, snd st ++ coincidence_line f e bit_rep c)
                      end))
         end)
       1 (Z.to_nat (Z.shiftl 1 (exponent_bits f) - 2)) (true, []) ;;
  Ok (match r with inl r => r | inr r => r end).
(** verify_incorrect_rounding_removal.cpp:23-220 *)
Definition removal_screen (cfg : config) : outcome (list Z) :=
  two_parts "[Verifying incorrect rounding removal...]" "Incorrect rounding removal" (removal_part cfg).
End Numbers.

(** ** tests/verify_log_computation.cpp *)

(** verify_log_computation.cpp:50-54 and 58-62 *)
Definition log_mismatch (name : string) (e true_value computed : Z) : list Z :=
  text name ++ text ": mismatch! [e = " ++ dec_text e ++ text ", true_value = " ++ dec_text true_value ++ text ", computed = " ++ dec_text computed ++ text "]" ++ [10].
(** verify_log_computation.cpp:30-70, 73-113 and 116-156, as [log_section] of CheckModel.v *)
Definition log_part (name : string) (low : Z -> outcome Z) (large : Z -> bool) (exact : Z -> outcome Z) (computed : Z -> outcome Z) (limit : Z) : outcome (list Z) :=
  r <- int_loop (R := unit) (fun e (st : bool * Z * list Z) =>
         let '(succeeded, maximum_valid_exp, t) := st in
         lower <- low e ;;
         r <- (if large lower then
                 let t := t ++ text name ++ text ": overflow detected [e = " ++ dec_text e ++ text "]" ++ [10] in
                 true_value <- exact e ;;
                 c <- computed e ;;
                 let '(succeeded, t) := if negb (c =? true_value) then (false, t ++ log_mismatch name e true_value c) else (succeeded, t) in
                 c <- computed (- e) ;;
                 Ok (if negb (c =? - true_value - 1) then (false, t ++ log_mismatch name (- e) (- true_value - 1) c) else (succeeded, t))
               else Ok (succeeded, t)) ;;
         let '(succeeded, t) := r in
         Ok (inl (succeeded, if succeeded : bool then e else maximum_valid_exp, t)))
       1 (Z.to_nat limit) (true, 0, []) ;;
  match r with
  | inl (_, maximum_valid_exp, t) => Ok (t ++ text name ++ text " is valid up to |e| <= " ++ dec_text maximum_valid_exp ++ text "." ++ [10; 10])
  | inr _ => Ok []
  end.
(** verify_log_computation.cpp:26-159 *)
Definition log_screen (cfg : config) (junk : Z -> nat -> nat -> nat -> Z) : outcome (list Z) :=
  a <- log_part "floor_log10_pow2" (fun e => m <- i32 (e * 0x4d104) ;; Ok (Z.land m 0xfffff)) (fun lower => 0x100000 <=? lower + 0xd28)
         (fun e => let N := array_size_of 4097 in
                   number <- power_of_2 cfg N (junk e 0%nat 3%nat) e ;; count_divisions cfg junk N 10 (S (Z.to_nat e)) number e 0)
         unchecked_log10_pow2 4096 ;;
  b <- log_part "floor_log2_pow10" (fun e => m <- i32 (e * 0x35269e) ;; Ok (Z.land m 0xfffff)) (fun lower => 0x100000 <=? lower + 0x130)
         (fun e => let N := array_size_of (4 * 4096) in
                   number <- power_of_2 cfg N (junk e 0%nat 3%nat) e ;;
                   number <- up_loop (fun i number => multiply_5 cfg N (junk e i 4%nat) number) 0 (Z.to_nat e) number ;;
                   Ok (to_int (wrap 64 (Z.of_nat (element_pos number) * element_number_of_bits + bit_pos number - 1))))
         unchecked_log2_pow10 1024 ;;
  c <- log_part "floor_log5_pow2" (fun e => m <- i64 (e * 0x6e40d1a4) ;; Ok (Z.land m 0xffffffff)) (fun lower => 0x100000000 <=? lower + 0x143e)
         (fun e => let N := array_size_of 65537 in
                   number <- power_of_2 cfg N (junk e 0%nat 3%nat) e ;; count_divisions cfg junk N 5 (S (Z.to_nat e)) number e 0)
         unchecked_log5_pow2 65536 ;;
  Ok (line "[Verifying log computation...]" ++ a ++ b ++ c ++ done_text).

(** ** tests/verify_cache_length.cpp:347-385 *)
Definition length_screen (cfg : config) (junk : nat -> Z -> nat -> nat -> nat -> nat -> Z) : outcome (list Z) :=
  rs <- verify_cache_length cfg junk ;;
  let m i := text "Maximum required bits: " ++ dec_text (snd (nth i rs ([], 0))) ++ [10] in
  Ok (line "[Verifying cache length upper bound...]" ++
      [10] ++ line "Verify for IEEE-754 binary32 (float) type for negative k..." ++ m 0%nat ++
      [10] ++ line "Verify for IEEE-754 binary32 (float) type for positive k..." ++ m 1%nat ++
      [10] ++ line "Verify for IEEE-754 binary64 (double) type for negative k..." ++ m 2%nat ++
      [10] ++ line "Verify for IEEE-754 binary64 (double) type for positive k..." ++ m 3%nat ++
      [10] ++ done_text).

(** ** tests/generate_cache.cpp:192-271 *)

(** generate_cache.cpp:209-218: as many messages as overflows *)
Definition overflow_lines (f : fmt) (c : Z -> Z) : list Z :=
  List.concat (map (fun i => if snd (increment_entry (to_entry f (c (min_k f + Z.of_nat i)))) then
                               line ("Overflow detected while generating caches for " ++ ieee_name f ++ "!") else [])
                   (seq 0 (Z.to_nat (- min_k f)))).
(** generate_cache.cpp:192-271 *)
Definition generate_screen (over : option Z) (cfg : config) (junk : fmt -> nat -> nat -> Z) : outcome (list Z) :=
  let bitset f := generate_cache_bitset over cfg (junk f) (cache_precision f) (min_k f) (max_k f) (generator_array_size f) in
  c32 <- bitset Binary32 ;; c64 <- bitset Binary64 ;;
  Ok (line "[Generating cache...]" ++ overflow_lines Binary32 c32 ++ overflow_lines Binary64 c64 ++ done_text).

(** ** tests/uniform_random_test.cpp:24-68 *)

(** uniform_random_test.cpp:31-51: what is printed in the loop, and [succeeded] *)
Fixpoint test_loop (rc : ryu_config) (cfg : config) (f : fmt) (xs : list Z) (b1 b2 : buffer) (succeeded : bool) : outcome (list Z * bool) :=
  match xs with
  | [] => Ok ([], succeeded)
  | x :: xs =>
      r1 <- fp_to_chars cfg f nearest_to_even tie_to_even x b1 ;;
      r2 <- ryu_buffered rc f x b2 ;;
      view1 <- string_view (fst r1) ;;
      view2 <- string_view (fst r2) ;;
      if list_eq_dec Z.eq_dec view1 view2 then test_loop rc cfg f xs (fst r1) (fst r2) succeeded
      else rest <- test_loop rc cfg f xs (fst r1) (fst r2) false ;;
           Ok (text "Error detected! [Ryu = " ++ view2 ++ text ", Grisu-Exact = " ++ view1 ++ text "]" ++ [10] ++ fst rest, snd rest)
  end.
(** uniform_random_test.cpp:24-68 *)
Definition test_screen (rc : ryu_config) (cfg : config) (f : fmt) (xs : list Z) (junk1 junk2 : Z -> Z) : outcome (list Z) :=
  r <- test_loop rc cfg f xs (mk_buffer 41 junk1) (mk_buffer 41 junk2) true ;;
  Ok (text "[Testing uniformly randomly generated " ++ text (c_name f) ++ line " inputs...]" ++ fst r ++
      (if snd r then text "Uniform random test for " ++ text (c_name f) ++ text " with " ++ dec_text (Z.of_nat (List.length xs)) ++ line " examples succeeded." else []) ++
      done_text).
(** uniform_random_perf_test.cpp:33-42 *)
Definition perf_screen (cfg : config) (f : fmt) (xs : list Z) (junk : Z -> Z) : outcome (list Z) :=
  uniform_random_perf_test cfg f xs junk ;;;
  Ok (text "[Running the algorithm with uniformly randomly generated " ++ text (c_name f) ++ line " inputs...]" ++ done_text).

(** ** The benchmark *)

(** benchmark.h:76-84 *)
Definition benchmarking_line (f : fmt) (c : contestant) (digits : nat) : list Z :=
  match digits with
  | O => text "Benchmarking " ++ text (name_of c) ++ text " with uniformly random " ++ text (ieee_name f) ++ line "'s..."
  | S _ => text "Benchmarking " ++ text (name_of c) ++ text " with (approximately) uniformly random " ++ text (ieee_name f) ++ text "'s of " ++
           dec_text (Z.of_nat digits) ++ line " digits..."
  end.
(** benchmark.cpp:43-48 and 100-116; the text does not depend on what is measured *)
Definition benchmark_screen (f : fmt) (order : list contestant) (files : outcome (list Z * list Z)) : outcome (list Z) :=
  files <- files ;;
  Ok (text "[Running benchmark for " ++ text (ieee_name f) ++ line "...]" ++ line "Generating random samples..." ++
      List.concat (map (fun c => List.concat (map (benchmarking_line f c) (seq 0 (S (max_digits10 f))))) order) ++
      line "Benchmarking done." ++ line "Now writing to files..." ++ done_text).

(** ** tests/main.cpp *)

(** the functions that main can call, main.cpp:20-157 *)
Inductive program :=
| verify_logs | verify_length | generate | verify_deltas | verify_bounds | verify_removals
| random_test (f : fmt) | random_perf_test (f : fmt) | misc | benchmark (f : fmt) | live (f : fmt).
(** main.cpp:92-157: the order of the calls *)
Definition programs : list program :=
  [verify_logs; verify_length; generate; verify_deltas; verify_bounds; verify_removals;
   random_test Binary32; random_test Binary64; random_perf_test Binary32; random_perf_test Binary64;
   misc; benchmark Binary32; benchmark Binary64; live Binary32; live Binary64].

(** what the programs depend on *)
Record world := mk_world {
  w_rc : ryu_config; w_cfg : config; w_over : option Z;
  w_number_text : fmt -> Z -> list Z;
  w_log_junk : Z -> nat -> nat -> nat -> Z; w_length_junk : nat -> Z -> nat -> nat -> nat -> nat -> Z; w_generate_junk : fmt -> nat -> nat -> Z;
  w_junk : program -> nat -> Z -> Z;
  w_draws : program -> nat -> nat -> Z -> Z -> Z; w_sto : fmt -> Z -> Z -> option Z; w_turns : nat;
  w_clock : fmt -> nat -> Z; w_time_text : Z -> list Z; w_order1 : fmt -> list contestant; w_order2 : fmt -> list contestant;
  w_tests : fmt -> nat; w_perf_tests : fmt -> nat; w_general : fmt -> nat; w_per_digits : fmt -> nat; w_iterations : fmt -> nat;
  w_line_sto : fmt -> list Z -> option Z; w_input : list Z; w_calls : nat }.

(** uniform_random_test.cpp:33 and uniform_random_perf_test.cpp:27: the numbers generated *)
Definition random_inputs (w : world) (p : program) (f : fmt) (n : nat) : list Z := map (fun i => general_float (w_draws w p i) f) (seq 0 n).
(** misc_test.cpp:20-22 prints nothing; the live test does not return *)
Definition screen_of (w : world) (p : program) : outcome (list Z) :=
  match p with
  | verify_logs => log_screen (w_cfg w) (w_log_junk w)
  | verify_length => length_screen (w_cfg w) (w_length_junk w)
  | generate => generate_screen (w_over w) (w_cfg w) (w_generate_junk w)
  | verify_deltas => delta_screen (w_cfg w)
  | verify_bounds => bound_screen (w_number_text w) (w_cfg w)
  | verify_removals => removal_screen (w_number_text w) (w_cfg w)
  | random_test f => test_screen (w_rc w) (w_cfg w) f (random_inputs w p f (w_tests w f)) (w_junk w p 0) (w_junk w p 1)
  | random_perf_test f => perf_screen (w_cfg w) f (random_inputs w p f (w_perf_tests w f)) (w_junk w p 0)
  | misc => Ok []
  | benchmark f =>
      benchmark_screen f (w_order1 w f)
        (benchmark_test (w_rc w) (w_cfg w) f (w_draws w p) (w_sto w f) (w_turns w) (w_clock w f) (w_time_text w) (w_order1 w f) (w_order2 w f)
           (w_general w f) (w_per_digits w f) (w_iterations w f) (w_junk w p 0) (w_junk w p 1))
  | live f => live_test (w_cfg w) f (w_line_sto w f) (w_calls w) (w_input w) (w_junk w p 0)
  end.
(** main.cpp:92-157 *)
Fixpoint run_programs (w : world) (ps : list program) : outcome (list Z) :=
  match ps with
  | [] => Ok []
  | live f :: _ => screen_of w (live f)
  | p :: ps => t <- screen_of w p ;; u <- run_programs w ps ;; Ok (t ++ u)
  end.
(** main.cpp:92-157: [selected] tells which macros are defined *)
Definition main (w : world) (selected : program -> bool) : outcome (list Z) := run_programs w (filter selected programs).
