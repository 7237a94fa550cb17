(** * The benchmark *)

From Coq Require Import ZArith Reals List Bool Lia String Permutation.
From Flocq Require Import Core.
From Verif Require Import Machine Model RyuModel CharsModel TestModel RandomModel Spec TextSpec FileSpec ProgramSpec RandomSpec Claims Reader BenchModel BenchSpec BenchTimesSpec BenchClaims BenchTimes.
Import ListNotations.
Open Scope list_scope.
Open Scope Z_scope.

(** ** C62: the files of the benchmark list every sample under every name, with a text that stands for it and with its
    bits, and the samples said to have [d] digits need [d] digits.  The only other outcome is that the search for a
    sample goes on for more than [turns] turns. *)
Definition names : list contestant := [grisu_exact_chars; grisu_exact_wo_correct_rounding_chars; ryu_chars].
Theorem C62_benchmark : forall rc cfg f draws sto turns clock time_text order1 order2 general n iterations junk1 junk2,
  (forall i, within_bounds (draws i)) -> correct_reader f sto -> (forall t, ~ In 10 (time_text t) /\ ~ In 44 (time_text t)) ->
  Permutation order1 names -> Permutation order2 names -> (1 <= iterations)%nat -> Z.of_nat general < 2 ^ 64 -> Z.of_nat n < 2 ^ 64 ->
  benchmark_test rc cfg f draws sto turns clock time_text order1 order2 general n iterations junk1 junk2 = Diverged \/
  exists u d xs ds, benchmark_test rc cfg f draws sto turns clock time_text order1 order2 general n iterations junk1 junk2 = Ok (u, d) /\
    List.length xs = general /\ Forall (pattern f) xs /\
    map fst ds = List.concat (map (fun i => repeat (1 + Z.of_nat i) n) (seq 0 (Z.to_nat (max_digits f)))) /\
    Forall (fun p => pattern f (snd p) /\ finite f (snd p) = true /\ (needs_digits f (snd p) (fst p) \/ fst p = 1 /\ value f (snd p) = 0%R)) ds /\
    (exists count L, lines u = (bytes "number_of_samples," ++ count) :: bytes "name,sample,bit_representation,time" :: L /\
      read_integer count = Some (Z.of_nat general) /\ Forall2 (uniform_line f) L (list_prod (map name_of order2) xs)) /\
    (exists count L, lines d = (bytes "number_of_samples_per_digits," ++ count) :: bytes "name,digits,sample,time" :: L /\
      read_integer count = Some (Z.of_nat n) /\ Forall2 (digits_line f) L (list_prod (map name_of order2) ds)).
Proof. exact benchmark_files. Qed.
Print Assumptions C62_benchmark.
(** what is measured: whatever the number of repetitions, every registered function leaves a string that stands for the sample *)
Theorem C62_measured : forall rc cfg f iterations c x b, pattern f x -> max_text f + 1 <= capacity b -> (1 <= iterations)%nat ->
  exists b' t, repeated rc cfg f iterations c x b = Ok b' /\ string_view b' = Ok t /\ denotes f t x.
Proof. exact measured. Qed.
Print Assumptions C62_measured.
Example C62_measured_example : pattern Binary64 0x3fd3333333333333 /\ max_text Binary64 + 1 <= 40 /\
  match repeated (mk_ryu debug_build false false) debug_build Binary64 2 ryu_chars 0x3fd3333333333333 (mk_buffer 40 (fun _ => 7)) with
  | Ok b => string_view b = Ok (bytes "3E-1")
  | _ => False
  end.
Proof. split; [split; [discriminate | reflexivity]|]. split; [discriminate|]. vm_compute. reflexivity. Qed.
(** what is measured under a name: the default fp_to_chars, fp_to_chars without correct rounding, and Ryu, which writes
    what the default fp_to_chars does *)
Theorem C62_names : map name_of names = ["Grisu-Exact"; "Grisu-Exact (w/o correct rounding)"; "Ryu"]%string.
Proof. exact names_listed. Qed.
Print Assumptions C62_names.
Theorem C62_called : forall rc cfg f c x, pattern f x -> exists policy t,
  In (name_of c, policy) [("Grisu-Exact", tie_to_even); ("Grisu-Exact (w/o correct rounding)", do_not_care); ("Ryu", tie_to_even)]%string /\
  (forall iterations b, max_text f + 1 <= capacity b -> (1 <= iterations)%nat ->
     exists b', repeated rc cfg f iterations c x b = Ok b' /\ string_view b' = Ok t) /\
  (forall b, max_text f + 1 <= capacity b ->
     exists b', fp_to_chars cfg f nearest_to_even policy x b = Ok (b', text_length t) /\ string_view b' = Ok t).
Proof. exact measured_text. Qed.
Print Assumptions C62_called.
(** the float nearest to pi *)
Example C62_called_example : pattern Binary32 0x40490fdb /\
  map (fun c => b <- repeated (mk_ryu debug_build false false) debug_build Binary32 2 c 0x40490fdb (mk_buffer 40 (fun _ => 7)) ;; string_view b) names =
  map (fun s => Ok (bytes s)) ["3.1415927E0"; "3.1415928E0"; "3.1415927E0"]%string.
Proof. split; [split; [discriminate | reflexivity] | vm_compute; reflexivity]. Qed.
(** which samples and which times: the general samples are single draws, the [j]-th sample with a number of digits is the
    first its own draws yield, every sample has draws of its own, and the time in a row is that of the measurement made for its
    name and its sample: the names in the first order, and for each the general samples and then those with 1, 2, ... digits *)
Theorem C62_rows : forall rc cfg f draws sto turns clock time_text order1 order2 general n iterations junk1 junk2 u d,
  (forall i, within_bounds (draws i)) -> correct_reader f sto -> (forall t, ~ In 10 (time_text t) /\ ~ In 44 (time_text t)) ->
  Permutation order1 order2 -> (1 <= iterations)%nat ->
  benchmark_test rc cfg f draws sto turns clock time_text order1 order2 general n iterations junk1 junk2 = Ok (u, d) ->
  let xs := map (fun i => draws i 0%nat 0 (2 ^ width f - 1)) (seq 0 general) in
  let total := (general + n * Z.to_nat (max_digits f))%nat in
  exists ds, List.length ds = (n * Z.to_nat (max_digits f))%nat /\
    (forall j, (j < n * Z.to_nat (max_digits f))%nat -> exists x, nth_error ds j = Some (1 + Z.of_nat (j / n), x) /\
       first_drawn f (1 + Z.of_nat (j / n)) sto (draws (general + j)%nat) turns x) /\
    Forall2 (uniform_entry f time_text) (skipn 2 (lines u)) (flat_map (fun c => map (pair c) (timed clock (place c order1 * total) xs)) order2) /\
    Forall2 (digits_entry f time_text) (skipn 2 (lines d)) (flat_map (fun c => map (pair c) (timed clock (place c order1 * total + general) ds)) order2).
Proof. exact rows_listed. Qed.
Print Assumptions C62_rows.
(** the perf test ends *)
Theorem C62_perf_test : forall cfg f xs junk, Forall (pattern f) xs -> uniform_random_perf_test cfg f xs junk = Ok tt.
Proof. exact perf_test. Qed.
Print Assumptions C62_perf_test.
Definition some_draws (i j : nat) (a b : Z) : Z := a + (Z.of_nat (31 * i + j + 2) ^ 9 * 2654435763 / 1000) mod (b - a + 1).
Example C62_example : (forall i, within_bounds (some_draws i)) /\ correct_reader Binary32 (reader Binary32) /\
  match benchmark_test (mk_ryu debug_build false false) debug_build Binary32 some_draws (reader Binary32) 9 (fun _ => 0) (fun _ => [49])
          names names 1 1 1 (fun _ => 7) (fun _ => 7) with
  | Ok (u, d) => nth 4 (lines u) [] = bytes (String (Ascii.ascii_of_nat 34) ("Ryu" ++ String (Ascii.ascii_of_nat 34) ",3.483739E10,0x5101c786,1")) /\
      nth 10 (lines d) [] = bytes (String (Ascii.ascii_of_nat 34) ("Grisu-Exact" ++ String (Ascii.ascii_of_nat 34) ",9,-1.00000005E31,1")) /\
      List.length (lines u) = 5%nat /\ List.length (lines d) = 29%nat
  | _ => False
  end.
Proof.
  split; [intros i j a b H; unfold some_draws; pose proof (Z.mod_pos_bound (Z.of_nat (31 * i + j + 2) ^ 9 * 2654435763 / 1000) (b - a + 1)); lia|].
  split; [apply reader_correct|]. vm_compute. repeat split.
Qed.
(** two general samples and one for each number of digits; the i-th measurement yields the i-th letter *)
Definition other_order : list contestant := [ryu_chars; grisu_exact_chars; grisu_exact_wo_correct_rounding_chars].
Example C62_rows_example : Permutation other_order names /\
  match benchmark_test (mk_ryu debug_build false false) debug_build Binary32 (fun i => some_draws (i + 4)) (reader Binary32) 30 (fun i => 65 + Z.of_nat i) (fun t => [t])
          other_order names 2 1 1 (fun _ => 7) (fun _ => 7) with
  | Ok (u, d) => map (fun line => (nth 0 (cells line) [], nth 3 (cells line) [])) (skipn 2 (lines u)) =
        [(quoted "Grisu-Exact", [76]); (quoted "Grisu-Exact", [77]);
         (quoted "Grisu-Exact (w/o correct rounding)", [87]); (quoted "Grisu-Exact (w/o correct rounding)", [88]);
         (quoted "Ryu", [65]); (quoted "Ryu", [66])]%string /\
      map (fun line => nth 3 (cells line) []) (skipn 20 (lines d)) = map (fun i => [67 + Z.of_nat i]) (seq 0 9)
  | _ => False
  end.
Proof.
  split; [apply (Permutation_cons_append [grisu_exact_chars; grisu_exact_wo_correct_rounding_chars] ryu_chars)|]. vm_compute. split; reflexivity.
Qed.
