(** * The properties with respect to the reader that overflows *)

From Coq Require Import ZArith Reals List Lra Lia Bool.
From Flocq Require Import Core IEEE754.Binary IEEE754.Bits.
From Verif Require Import Machine Model Spec UserSpec IeeeSpec Link Reading Bridge ReadsBack Shortest Main Results Inward Claims Signs Outputs Unique Users.
Open Scope R_scope.

Lemma value_below f x : finite f x = true -> Rabs (value f x) < bpow radix2 (top_exp f).
Proof. intros _. destruct f; [apply (abs_B2R_lt_emax 24 128) | apply (abs_B2R_lt_emax 53 1024)]. Qed.
Lemma largest_pos f : 0 < largest_number f.
Proof. apply Rmult_lt_0_compat; [apply IZR_lt; destruct f; reflexivity | apply bpow_gt_0]. Qed.
Lemma value_sign f x : input f x -> Rlt_bool (value f x) 0 = negative f x.
Proof.
  intros Hin. rewrite (input_value f x Hin). pose proof (V_pos f x Hin) as P.
  destruct (negative f x); cbn [cond_Ropp]; [apply Rlt_bool_true; lra | apply Rlt_bool_false; lra].
Qed.

Lemma Number_inj a b : Number a = Number b -> a = b.
Proof. intros H. exact (f_equal (fun n => match n with Number v => v | Infinity _ => 0 end) H). Qed.

Lemma ieee_iff f m x v : input f x ->
  (ieee_read f m v = Number (value f x) <->
   read f m v = value f x \/
   (rounds_inward m (negative f x) = true /\ Rabs (value f x) = largest_number f /\ Rlt_bool v 0 = negative f x /\
    bpow radix2 (top_exp f) <= Rabs (read f m v))).
Proof.
  intros Hin. pose proof (value_below f x (proj1 (proj2 Hin))) as B. unfold ieee_read. cbv zeta.
  destruct (Rlt_bool_spec (Rabs (read f m v)) (bpow radix2 (top_exp f))) as [L|L].
  - split; [intros H; left; apply Number_inj, H|]. intros [->|(_ & _ & _ & C)]; [reflexivity | lra].
  - pose proof (value_sign f x Hin) as S. pose proof (largest_pos f) as P. split.
    + intros H. right. destruct (rounds_inward m (Rlt_bool v 0)) eqn:M; [|discriminate]. apply Number_inj in H.
      assert (N : Rlt_bool v 0 = negative f x).
      { rewrite <- S, <- H. destruct (Rlt_bool v 0); cbn [cond_Ropp]; symmetry; [apply Rlt_bool_true; lra | apply Rlt_bool_false; lra]. }
      rewrite <- N. repeat split; try assumption. rewrite <- H.
      destruct (Rlt_bool v 0); cbn [cond_Ropp]; [rewrite Rabs_Ropp|]; apply Rabs_pos_eq; lra.
    + intros [H|(M & V & N & _)]; [rewrite H in L; lra|]. rewrite N, M. f_equal.
      rewrite <- V. rewrite <- S. unfold Rabs. destruct (Rlt_bool_spec (value f x) 0); cbn [cond_Ropp]; destruct Rcase_abs; lra.
Qed.

Lemma reads_ieee f m x s e : input f x -> reads_back f m x s e -> ieee_read f m (decimal s e) = Number (value f x).
Proof. intros Hin H. apply ieee_iff; [exact Hin|]. left. exact H. Qed.
Lemma ieee_reads f m x s e : input f x -> rounds_inward m (negative f x) = false \/ Rabs (value f x) <> largest_number f ->
  ieee_read f m (decimal s e) = Number (value f x) -> reads_back f m x s e.
Proof. intros Hin Hx H. apply ieee_iff in H; [|exact Hin]. destruct H as [H|(A & B & _)]; [exact H|]. destruct Hx; congruence. Qed.

Section Ieee.
Variables (cfg : config) (f : fmt) (rs : bool) (m : rounding_mode) (crs : crs_tag) (h : case_handler) (x : Z).
Hypothesis Hin : input f x.

Lemma ieee_round_trip r : grisu_exact cfg f rs m crs h x = Ok r ->
  ieee_read f m (decimal (signed f x r) (fp_exponent r)) = Number (value f x).
Proof using Hin. intros H. apply reads_ieee; [exact Hin|]. apply (reads_back_ok cfg f rs m crs h x r Hin H). Qed.

Lemma ieee_shortest : minimal m f x = true -> rounds_inward m (negative f x) = false \/ Rabs (value f x) <> largest_number f ->
  exists r, grisu_exact cfg f rs m crs h x = Ok r /\
  forall s e, ieee_read f m (decimal s e) = Number (value f x) -> (digits (fp_significand r) <= digits s)%Z.
Proof using Hin.
  intros Hm Hx. destruct (minimal_result cfg f rs m crs h x Hin Hm) as (r & Hr & _ & S). exists r. split; [exact Hr|].
  intros s e H. apply (ieee_reads f m x s e Hin Hx) in H. destruct S as [_ S]. specialize (S _ _ H).
  unfold signed in S. destruct (negative f x); cbn [cond_Zopp] in S; [|exact S].
  unfold digits in *. rewrite <- (Zdigits_abs radix10 (- fp_significand r)), Z.abs_opp, Zdigits_abs in S. exact S.
Qed.

Lemma ieee_closest : nearest_or_outward m (negative f x) = true -> crs <> do_not_care ->
  exists r, grisu_exact cfg f rs m crs h x = Ok r /\
  forall s e, ieee_read f m (decimal s e) = Number (value f x) -> (digits s <= digits (fp_significand r))%Z ->
    error f x (signed f x r) (fp_exponent r) <= error f x s e.
Proof using Hin.
  intros Hm Hc. destruct (total cfg f rs m crs h x Hin Hm) as [r Hr]. exists r. split; [exact Hr|].
  intros s e H Hd. apply (ieee_reads f m x s e Hin) in H.
  - apply (g_close _ _ _ _ _ _ (either_result cfg f rs m crs h x Hin r Hm Hr) (cares_true Hc) s e H).
    rewrite digits_signed. exact Hd.
  - left. destruct m, (negative f x); try reflexivity; discriminate.
Qed.
End Ieee.

(** ** The largest finite number under a mode rounding toward zero *)
Lemma overflow_reads f m x v : input f x -> rounds_inward m (negative f x) = true -> Rabs (value f x) = largest_number f ->
  Rlt_bool v 0 = negative f x -> bpow radix2 (top_exp f) <= Rabs v -> ieee_read f m v = Number (value f x).
Proof.
  intros Hin Hm V N L. apply ieee_iff; [exact Hin|]. right. repeat split; try assumption.
  assert (G : generic_format radix2 (FLT_exp (emin f) (prec f)) (bpow radix2 (top_exp f))).
  { apply generic_format_bpow. unfold FLT_exp. destruct f; cbn; lia. }
  pose proof (valid_reading m) as VR. unfold read. rewrite <- N in Hm.
  apply abs_round_ge_generic; [apply valid_fexp | exact VR | exact G | exact L].
Qed.

Lemma input_max32 : input Binary32 0x7f7fffff. Proof. apply input_check. reflexivity. Qed.
Lemma input_max64 : input Binary64 0x7fefffffffffffff. Proof. apply input_check. reflexivity. Qed.
Definition max_pattern (f : fmt) : Z := match f with Binary32 => 0x7f7fffff | Binary64 => 0x7fefffffffffffff end.
Lemma input_max f : input f (max_pattern f).
Proof. destruct f; [exact input_max32 | exact input_max64]. Qed.
Lemma max_value f : Rabs (value f (max_pattern f)) = largest_number f.
Proof.
  rewrite (V_abs f _ (input_max f)). unfold largest_number.
  destruct f; reflexivity.
Qed.
Lemma max_long f : exists cfg m crs h x r s e, input f x /\ rounds_inward m (negative f x) = true /\
  grisu_exact cfg f true m crs h x = Ok r /\ ieee_read f m (decimal s e) = Number (value f x) /\
  digits s = 1%Z /\ (6 < digits (fp_significand r))%Z.
Proof.
  exists debug_build, toward_zero, tie_to_even, assert_finite, (max_pattern f),
    (match f with Binary32 => mk_fp 34028235 31 (Some false) | Binary64 => mk_fp 17976931348623158 292 (Some false) end),
    (match f with Binary32 => 4 | Binary64 => 2 end)%Z, (match f with Binary32 => 38 | Binary64 => 308 end)%Z.
  split; [apply input_max|]. split; [destruct f; reflexivity|]. split; [destruct f; vm_compute; reflexivity|].
  split; [|destruct f; split; vm_compute; reflexivity].
  assert (P : bpow radix2 (top_exp f) <= decimal (match f with Binary32 => 4 | Binary64 => 2 end) (match f with Binary32 => 38 | Binary64 => 308 end)).
  { rewrite decimal_eq. destruct f; cbn [top_exp]; rewrite <- (IZR_Zpower radix10) by discriminate;
      rewrite <- (IZR_Zpower radix2) by discriminate; rewrite <- mult_IZR; apply IZR_le; vm_compute; discriminate. }
  pose proof (bpow_gt_0 radix2 (top_exp f)).
  apply overflow_reads; [apply input_max | destruct f; reflexivity | apply max_value | |].
  - rewrite Rlt_bool_false by lra. destruct f; reflexivity.
  - rewrite Rabs_pos_eq by lra. exact P.
Qed.
