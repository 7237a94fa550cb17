(** * The test programs *)

From Coq Require Import ZArith Reals List Bool Lia.
From Flocq Require Import Core.
From Verif Require Users.
From Verif Require Import Machine Model CheckModel RandomModel Spec UserSpec ProgramSpec RandomSpec Claims LiveClaims RandomClaims RandomFirst Reader CheckClaims LogClaims LogRanges.
Import ListNotations.
Open Scope R_scope.

(** ** C55: the decomposition shown by the live test.  The full statement has [finite f x = true] only, and the
    assertion "x should be a finite number" stops the others; it is false. *)
Theorem C55_decompose_partial : forall cfg f x, pattern f x -> finite f x = true -> value f x = 0 \/ normal f x ->
  exists r, decompose_float cfg f x = Ok r /\ fp_is_negative r = Some (negative f x) /\ binary (signed f x r) (fp_exponent r) = value f x.
Proof. exact decomposed. Qed.
Print Assumptions C55_decompose_partial.
Theorem C55_subnormal_refuted : forall cfg f x, pattern f x -> finite f x = true -> ~ normal f x ->
  exists r, decompose_float cfg f x = Ok r /\ 2 * binary (signed f x r) (fp_exponent r) = value f x.
Proof. exact decomposed_subnormal. Qed.
Print Assumptions C55_subnormal_refuted.
Theorem C55_assertion_refuted : forall cfg f x, pattern f x -> exists r, decompose_float cfg f x = Ok r.
Proof. exact decomposed_special. Qed.
Print Assumptions C55_assertion_refuted.
(** -1.5f, the smallest double, and the float infinity *)
Example C55_example : normal Binary32 0xbfc00000 /\
  decompose_float debug_build Binary32 0xbfc00000 = Ok (mk_fp 0xc0000000 (-31) (Some true)) /\
  ~ normal Binary64 1 /\ value Binary64 1 = bpow radix2 (-1074) /\
  decompose_float debug_build Binary64 1 = Ok (mk_fp 2048 (-1086) (Some false)) /\
  finite Binary32 0x7f800000 = false /\ decompose_float debug_build Binary32 0x7f800000 = Ok (mk_fp 0x80000000 97 (Some false)).
Proof.
  assert (V : value Binary64 1 = bpow radix2 (-1074)).
  { unfold value. unfold Binary.B2R. cbn. unfold F2R. cbn. Lra.lra. }
  split; [apply Users.normal_check; [apply input_check; reflexivity | vm_compute; discriminate]|].
  split; [vm_compute; reflexivity|]. split.
  - unfold normal. rewrite V, Rabs_pos_eq by apply bpow_ge_0. apply Rlt_not_le, bpow_lt. reflexivity.
  - split; [exact V|]. repeat split; vm_compute; reflexivity.
Qed.

(** ** C56: random finite numbers: each arises from exactly one choice among equally many *)
Theorem C56_finite : forall draw f, within_bounds draw -> pattern f (finite_float draw f) /\ finite f (finite_float draw f) = true.
Proof. exact finite_float_finite. Qed.
Print Assumptions C56_finite.
Theorem C56_uniform : forall f x, pattern f x -> finite f x = true ->
  exists s e m, (0 <= s <= 1)%Z /\ (0 <= e <= 2 ^ (width f - prec f) - 2)%Z /\ (0 <= m <= 2 ^ (prec f - 1) - 1)%Z /\
  forall draw, within_bounds draw ->
  (finite_float draw f = x <->
   draw 0%nat 0%Z 1%Z = s /\ draw 1%nat 0%Z (2 ^ (width f - prec f) - 2)%Z = e /\ draw 2%nat 0%Z (2 ^ (prec f - 1) - 1)%Z = m).
Proof. exact finite_float_uniform. Qed.
Print Assumptions C56_uniform.
(** and any bit pattern at all is a single draw *)
Theorem C56_general : forall f, (forall draw, within_bounds draw -> pattern f (general_float draw f)) /\
  forall x draw, general_float draw f = x <-> draw 0%nat 0%Z (2 ^ width f - 1)%Z = x.
Proof. exact general_float_uniform. Qed.
Print Assumptions C56_general.
Example C56_example : within_bounds (fun _ a b => b) /\ finite_float (fun _ a b => b) Binary32 = 0xff7fffff%Z /\
  within_bounds (fun i a b => (a + (b - a) / 2)%Z) /\ finite_float (fun i a b => (a + (b - a) / 2)%Z) Binary64 = 0x3ff7ffffffffffff%Z.
Proof.
  split; [intros i a b H; lia|]. split; [reflexivity|]. split; [|vm_compute; reflexivity].
  intros i a b H. pose proof (Z.div_pos (b - a) 2). pose proof (Z.div_le_upper_bound (b - a) 2 (b - a)). lia.
Qed.

(** ** C57: random numbers with a given number of digits *)
Theorem C57_digits : forall draw sto cfg f turns n, (1 <= n <= max_digits f)%Z -> within_bounds draw -> correct_reader f sto ->
  float_with_given_digits draw sto cfg f turns n = Diverged \/
  exists x, float_with_given_digits draw sto cfg f turns n = Ok x /\ pattern f x /\ finite f x = true /\
  (needs_digits f x n \/ n = 1%Z /\ value f x = 0).
Proof. exact given_digits. Qed.
Print Assumptions C57_digits.
Theorem C57_reachable : forall sto cfg f n x s e turns, (1 <= n <= max_digits f)%Z -> correct_reader f sto -> input f x ->
  needs_digits f x n -> reads_back f nearest_to_even x s e -> digits s = n ->
  (lowest10 f <= e + n - 1 <= highest10 f)%Z -> (0 < turns)%nat ->
  exists draw, within_bounds draw /\ float_with_given_digits draw sto cfg f turns n = Ok x.
Proof. exact reachable. Qed.
Print Assumptions C57_reachable.
(** what is returned is what the first turn finds that finds anything; every turn is made with new draws *)
Theorem C57_first : forall draw sto cfg f turns n, (1 <= n <= max_digits f)%Z -> within_bounds draw -> correct_reader f sto ->
  (forall x, float_with_given_digits draw sto cfg f turns n = Ok x <->
    exists j, (j < turns)%nat /\ finds f n sto draw j x /\ forall i y, (i < j)%nat -> ~ finds f n sto draw i y) /\
  ((forall j y, (j < turns)%nat -> ~ finds f n sto draw j y) -> float_with_given_digits draw sto cfg f turns n = Diverged).
Proof. exact first_found. Qed.
Print Assumptions C57_first.
(** the first turn draws -9.99E38, which is not a float, the second -1.01E-37 *)
Definition second_draw (i : nat) (a b : Z) : Z := if (i <=? 3)%nat then b else a.
Example C57_first_example : within_bounds second_draw /\
  drawn_significand 3 second_draw 0 = (-999)%Z /\ drawn_exponent Binary32 3 second_draw 0 = 36%Z /\
  reader Binary32 (-999) 36 = None /\
  drawn_significand 3 second_draw 1 = (-101)%Z /\ drawn_exponent Binary32 3 second_draw 1 = (-39)%Z /\
  float_with_given_digits second_draw (reader Binary32) debug_build Binary32 2 3 = Ok 0x8209795d%Z /\
  float_with_given_digits second_draw (reader Binary32) debug_build Binary32 1 3 = Diverged.
Proof.
  split; [intros i a b H; unfold second_draw; destruct (i <=? 3)%nat; lia|]. repeat apply conj; vm_compute; reflexivity.
Qed.
(** the lowest choices, and a minus sign: -1.01e-37f; with nine digits, -1.00000001e-37f does not need them *)
Definition low_draw (i : nat) (a b : Z) : Z := if (i =? 0)%nat then b else a.
Example C57_example : within_bounds low_draw /\ correct_reader Binary32 (reader Binary32) /\
  float_with_given_digits low_draw (reader Binary32) debug_build Binary32 1 3 = Ok 0x8209795d%Z /\
  grisu_exact debug_build Binary32 true nearest_to_even tie_to_even assert_finite 0x8209795d = Ok (mk_fp 101 (-39) (Some true)) /\
  float_with_given_digits low_draw (reader Binary32) debug_build Binary32 5 9 = Diverged.
Proof.
  split; [intros i a b H; unfold low_draw; destruct (i =? 0)%nat; lia|]. split; [apply reader_correct|]. repeat split; vm_compute; reflexivity.
Qed.

(** ** C58: the seed sequence repeats the stored values *)
Theorem C58_seeds : forall stored count out, stored <> [] ->
  exists out', generate stored count out = Ok out' /\
  (forall j, (j < count)%nat -> out' j = nth (j mod length stored) stored 0%Z) /\ (forall j, (count <= j)%nat -> out' j = out j).
Proof. exact generate_ok. Qed.
Print Assumptions C58_seeds.
Example C58_example : match generate [11; 22; 33]%Z 8 (fun _ => 0%Z) with
  | Ok out => map out (seq 0 10) = [11; 22; 33; 11; 22; 33; 11; 22; 0; 0]%Z
  | _ => False
  end.
Proof. reflexivity. Qed.

(** ** C59: the three table-driven checks of the conversion succeed, in every build *)
Theorem C59_deltas : forall cfg f k, (k_min f <= k <= k_max f)%Z -> exists d, two_deltas cfg f k = Ok (d, d).
Proof. exact all_deltas_agree. Qed.
Print Assumptions C59_deltas.
Theorem C59_delta_program : forall cfg f, verify_delta cfg f = Ok true.
Proof. exact delta_verified. Qed.
Print Assumptions C59_delta_program.
Theorem C59_bound_program : forall cfg f, verify_bound cfg f
  = Ok (true, match f with Binary32 => [] | Binary64 => [(5, 152); (5, -406); (5, -592); (5, -798)]%Z end).
Proof. exact bound_verified. Qed.
Print Assumptions C59_bound_program.
Theorem C59_removal_program : forall cfg f, verify_removal cfg f
  = Ok (true, match f with
              | Binary32 => [(59%Z, fraction_larger); ((-60)%Z, fraction_smaller)]
              | Binary64 => [((-203)%Z, fraction_larger); ((-655)%Z, fraction_smaller)]
              end).
Proof. exact removal_verified. Qed.
Print Assumptions C59_removal_program.
Example C59_example : two_deltas debug_build Binary32 7 = Ok (28, 28)%Z.
Proof. vm_compute. reflexivity. Qed.

(** ** C60: the check of the logarithms.  The full statement is that it runs to its end; it is false: 617 * 0x35269e
    does not fit in a std::int32_t.  Its first and third parts report the range in which the function is right, the
    third as far as it looks. *)
Theorem C60_log10_partial : forall cfg junk, exists bound, log10_pow2_section cfg junk = Ok bound /\
  (forall e, (- bound <= e <= bound)%Z -> unchecked_log10_pow2 e = Ok (Zfloor (ln (bpow radix2 e) / ln 10))) /\
  unchecked_log10_pow2 (bound + 1) <> Ok (Zfloor (ln (bpow radix2 (bound + 1)) / ln 10)).
Proof. intros cfg junk. exists 1650%Z. exact (conj (log10_section cfg junk) (conj unchecked_log10 unchecked_log10_1651)). Qed.
Print Assumptions C60_log10_partial.
Theorem C60_log5_partial : forall cfg junk, log5_pow2_section cfg junk = Ok 65536%Z /\
  forall e, (-65536 <= e <= 65536)%Z -> unchecked_log5_pow2 e = Ok (Zfloor (ln (bpow radix2 e) / ln 5)).
Proof. intros cfg junk. exact (conj (log5_section cfg junk) unchecked_log5). Qed.
Print Assumptions C60_log5_partial.
Theorem C60_log2_refuted : forall cfg junk, log2_pow10_section cfg junk = Undefined.
Proof. exact log2_section. Qed.
Print Assumptions C60_log2_refuted.
Theorem C60_program_refuted : forall cfg junk, verify_log_computation cfg junk = Undefined.
Proof. exact log_program_undefined. Qed.
Print Assumptions C60_program_refuted.
