(** * Theorems: what the test executable prints *)

From Coq Require Import ZArith List Bool Lia String Permutation.
From Verif Require Import Machine Model RyuModel RandomModel BenchModel ScreenModel Spec TextSpec FileSpec ProgramSpec ScreenSpec Claims Reader ScreenFacts.
Import ListNotations.
Open Scope list_scope.
Open Scope Z_scope.

(** ** C68: the test executable, with any selection of its programs, prints the reports of success of the programs
    selected, in order, up to the first live test.  The full statement is the first theorem without the hypotheses on
    [w_over], the value of a shift of a 64-bit integer by 64, and on [verify_logs]; it is false.  The
    only other outcome under these is that the search for a sample of the benchmark goes on for more than [w_turns w] turns. *)
Theorem C68_screen_partial : forall w over selected, sensible w -> w_over w = Some over -> selected verify_logs = false ->
  main w selected = Diverged \/
  exists ts, main w selected = Ok (List.concat ts) /\ Forall2 (reports w) (up_to_live (filter selected in_order)) ts.
Proof. exact main_reports. Qed.
Print Assumptions C68_screen_partial.
(** and without the benchmark there is no other outcome *)
Theorem C68_sure_partial : forall w over selected, sensible w -> w_over w = Some over -> selected verify_logs = false ->
  selected (benchmark Binary32) = false -> selected (benchmark Binary64) = false ->
  exists ts, main w selected = Ok (List.concat ts) /\ Forall2 (reports w) (up_to_live (filter selected in_order)) ts.
Proof. exact main_sure. Qed.
Print Assumptions C68_sure_partial.
(** with verify_log_computation selected, the executable always runs into undefined behaviour *)
Theorem C68_logs_refuted : forall w selected, selected verify_logs = true -> main w selected = Undefined.
Proof. exact main_logs. Qed.
Print Assumptions C68_logs_refuted.
(** with generate_cache selected too, where shifts by 64 are undefined *)
Theorem C68_generate_refuted : forall w selected, w_over w = None -> selected generate = true -> main w selected = Undefined.
Proof. exact main_generate. Qed.
Print Assumptions C68_generate_refuted.

Definition some_draws (i j : nat) (a b : Z) : Z := a + (Z.of_nat (31 * i + j + 2) ^ 9 * 2654435763 / 1000) mod (b - a + 1).
Definition some_world : world := {|
  w_rc := mk_ryu debug_build false false; w_cfg := debug_build; w_over := Some 0;
  w_number_text := fun f x => bytes (match f with Binary32 => "1.5" | Binary64 => "2.5" end)%string;
  w_log_junk := fun _ _ _ _ => 7; w_length_junk := fun _ _ _ _ _ _ => 7; w_generate_junk := fun _ _ _ => 7; w_junk := fun _ _ _ => 7;
  w_draws := fun _ => some_draws;
  w_sto := reader; w_turns := 9; w_clock := fun _ _ => 0; w_time_text := fun _ => [49];
  w_order1 := fun _ => [ryu_chars; grisu_exact_chars; grisu_exact_wo_correct_rounding_chars];
  w_order2 := fun _ => [grisu_exact_chars; grisu_exact_wo_correct_rounding_chars; ryu_chars];
  w_tests := fun _ => 12%nat; w_perf_tests := fun _ => 2%nat; w_general := fun _ => 1%nat; w_per_digits := fun _ => 1%nat; w_iterations := fun _ => 1%nat;
  w_line_sto := fun f line => match read_text line with Some (Number neg s e) => reader f (if neg then - s else s) e | _ => None end;
  w_input := bytes "5E-1" ++ [10] ++ bytes "x"; w_calls := 2%nat |}.
Example C68_example : sensible some_world /\ w_over some_world = Some 0 /\
  main some_world (fun p => match p with verify_deltas | random_test Binary64 | misc | live _ => true | _ => false end) =
  Ok (text_lines
    ["[Verifying delta computation...]";
     "delta computation for binary32: verified.";
     "delta computation for binary64: verified.";
     "Done."; ""; "";
     "[Testing uniformly randomly generated double inputs...]";
     "Uniform random test for double with 12 examples succeeded.";
     "Done."; ""; "";
     "[Start live test for float's]";
     "               sign: +";
     "           exponent: -32";
     "        significand: 0x80000000";
     " Grisu-Exact output: 5E-1";
     "Not a valid input; input again."]%string).
Proof.
  split; [|split; [reflexivity|]].
  - constructor; intros.
    + intros j a b H. change (w_draws some_world p i j a b) with (some_draws i j a b). unfold some_draws.
      pose proof (Z.mod_pos_bound (Z.of_nat (31 * i + j + 2) ^ 9 * 2654435763 / 1000) (b - a + 1)). lia.
    + apply reader_correct.
    + split; intros [H|[]]; discriminate.
    + apply (Permutation_cons_append [grisu_exact_chars; grisu_exact_wo_correct_rounding_chars] ryu_chars).
    + apply Permutation_refl.
    + apply le_n.
    + reflexivity.
    + reflexivity.
    + reflexivity.
    + revert H. cbn [w_line_sto some_world]. destruct (read_text l) as [[neg s e|neg|]|]; try discriminate. intros H.
      pose proof (reader_correct f (if neg then - s else s) e) as R. rewrite H in R. apply R.
    + reflexivity.
  - vm_compute. reflexivity.
Qed.
