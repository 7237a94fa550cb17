(** * A reader as [correct_reader] describes it exists *)

From Coq Require Import ZArith Reals Lra Lia Bool.
From Flocq Require Import Core Calc.Div IEEE754.BinarySingleNaN IEEE754.Binary IEEE754.Bits.
From Verif Require Import Machine Model Spec ProgramSpec ReadsBack.
Open Scope Z_scope.

Definition num (s e : Z) : Z := Z.abs s * 10 ^ Z.max 0 e.
Definition den (e : Z) : Z := 10 ^ Z.max 0 (- e).
Definition rounded (f : fmt) (s e : Z) : full_float :=
  let '(m, ex, l) := Fdiv (FLT_exp (emin f) (prec f)) (Float radix2 (num s e) 0) (Float radix2 (den e) 0) in
  Binary.binary_round_aux (prec f) (emax f) mode_NE (s <? 0) m ex l.
Definition to_bits (f : fmt) (z : full_float) : Z :=
  match f with
  | Binary32 => match bool_dec (Binary.valid_binary 24 128 z) true with left H => bits_of_b32 (FF2B 24 128 z H) | right _ => 0 end
  | Binary64 => match bool_dec (Binary.valid_binary 53 1024 z) true with left H => bits_of_b64 (FF2B 53 1024 z H) | right _ => 0 end
  end.
Definition reader (f : fmt) (s e : Z) : option Z :=
  if s =? 0 then Some 0
  else let z := rounded f s e in if is_finite_FF z then Some (to_bits f z) else None.

Open Scope R_scope.
Lemma den_pos e : (0 < den e)%Z.
Proof. unfold den. apply Z.pow_pos_nonneg; lia. Qed.
Lemma num_pos s e : (s <> 0)%Z -> (0 < num s e)%Z.
Proof. intros H. unfold num. apply Z.mul_pos_pos; [lia | apply Z.pow_pos_nonneg; lia]. Qed.
Lemma fraction_value s e : Rabs (decimal s e) = F2R (Float radix2 (num s e) 0) / F2R (Float radix2 (den e) 0).
Proof.
  unfold decimal. rewrite <- F2R_Zabs. unfold F2R. cbn [Fnum Fexp]. rewrite !Rmult_1_r. unfold num, den. rewrite mult_IZR.
  destruct (Z.le_gt_cases 0 e) as [H|H].
  - rewrite (Z.max_r 0 e), (Z.max_l 0 (- e)) by lia. change (10 ^ 0)%Z with 1%Z. unfold Rdiv. rewrite Rinv_1, Rmult_1_r.
    change 10%Z with (radix_val radix10). rewrite IZR_Zpower by exact H. reflexivity.
  - rewrite (Z.max_l 0 e), (Z.max_r 0 (- e)) by lia. change (10 ^ 0)%Z with 1%Z. rewrite Rmult_1_r.
    change 10%Z with (radix_val radix10). rewrite IZR_Zpower by lia. rewrite bpow_opp. unfold Rdiv. rewrite Rinv_inv. reflexivity.
Qed.
Lemma decimal_sign s e : Rlt_bool (decimal s e) 0 = (s <? 0)%Z.
Proof.
  unfold decimal. destruct (Z.ltb_spec s 0).
  - apply Rlt_bool_true. apply F2R_lt_0. exact H.
  - apply Rlt_bool_false. apply F2R_ge_0. exact H.
Qed.
Lemma rounded_ok f s e : (s <> 0)%Z -> Binary.valid_binary (prec f) (emax f) (rounded f s e) = true /\
  if Rlt_bool (Rabs (read f nearest_to_even (decimal s e))) (bpow radix2 (emax f)) then
    FF2R radix2 (rounded f s e) = read f nearest_to_even (decimal s e) /\ is_finite_FF (rounded f s e) = true
  else is_finite_FF (rounded f s e) = false.
Proof.
  intros Hs. unfold rounded.
  assert (Hp : Prec_gt_0 (prec f)) by (destruct f; reflexivity).
  assert (Hpe : Prec_lt_emax (prec f) (emax f)) by (destruct f; reflexivity).
  pose proof (Fdiv_correct (FLT_exp (emin f) (prec f)) (Float radix2 (num s e) 0) (Float radix2 (den e) 0)) as D.
  destruct (Fdiv _ _ _) as [[m ex] l].
  destruct D as [D1 D2]; [apply F2R_gt_0; apply num_pos; exact Hs | apply F2R_gt_0; apply den_pos |].
  rewrite <- fraction_value in D1, D2. rewrite cexp_abs in D1.
  assert (N : decimal s e <> 0).
  { unfold decimal. intros Q. apply eq_0_F2R in Q. contradiction. }
  assert (EM : SpecFloat.emin (prec f) (emax f) = emin f) by (destruct f; reflexivity).
  pose proof (Binary.binary_round_aux_correct' (prec f) (emax f) Hp Hpe mode_NE (decimal s e) m ex l N D2) as B.
  unfold SpecFloat.fexp in B. rewrite EM in B. specialize (B D1). cbn zeta in B. rewrite decimal_sign in B.
  destruct B as [V B]. split; [exact V|].
  change (round radix2 (FLT_exp (emin f) (prec f)) (round_mode mode_NE) (decimal s e)) with (read f nearest_to_even (decimal s e)) in B.
  destruct (Rlt_bool _ _); [split; apply B|]. rewrite B. destruct (s <? 0)%Z; reflexivity.
Qed.
Lemma to_bits_ok f z : Binary.valid_binary (prec f) (emax f) z = true -> is_finite_FF z = true ->
  pattern f (to_bits f z) /\ finite f (to_bits f z) = true /\ value f (to_bits f z) = FF2R radix2 z.
Proof.
  intros V F. destruct f; cbn [prec emax to_bits width] in *; unfold pattern, finite, value; cbn [width].
  - destruct (bool_dec _ _) as [H|H]; [|contradiction]. split; [|split].
    + apply (bits_of_binary_float_range 23 8); reflexivity.
    + unfold b32_of_bits, bits_of_b32. rewrite binary_float_of_bits_of_binary_float. rewrite is_finite_FF2B. exact F.
    + unfold b32_of_bits, bits_of_b32. rewrite binary_float_of_bits_of_binary_float. apply B2R_FF2B.
  - destruct (bool_dec _ _) as [H|H]; [|contradiction]. split; [|split].
    + apply (bits_of_binary_float_range 52 11); reflexivity.
    + unfold b64_of_bits, bits_of_b64. rewrite binary_float_of_bits_of_binary_float. rewrite is_finite_FF2B. exact F.
    + unfold b64_of_bits, bits_of_b64. rewrite binary_float_of_bits_of_binary_float. apply B2R_FF2B.
Qed.
Lemma reader_correct f : correct_reader f (reader f).
Proof.
  intros s e. unfold reader. destruct (Z.eqb_spec s 0) as [->|N].
  - split; [destruct f; unfold pattern; cbn; lia|]. split; [destruct f; reflexivity|].
    assert (Z0 : decimal 0 e = 0) by apply F2R_0. rewrite Z0. unfold read. rewrite round_0 by apply ReadsBack.valid_reading.
    destruct f; reflexivity.
  - destruct (rounded_ok f s e N) as [V B]. destruct (Rlt_bool_spec (Rabs (read f nearest_to_even (decimal s e))) (bpow radix2 (emax f))) as [H|H].
    + destruct B as [B1 B2]. rewrite B2. destruct (to_bits_ok f _ V B2) as (P & F & E). split; [exact P|]. split; [exact F|]. congruence.
    + rewrite B. left. exact H.
Qed.
