(** * The ranges of the results cannot be made smaller *)

From Coq Require Import ZArith Reals List Bool Lia Lra.
From Flocq Require Import Core.
From Verif Require Import Machine Model Link Spec Bridge ReadsBack Claims UserSpec Shortest Outputs Users RandomClaims Formats.
Import ListNotations.
Open Scope R_scope.

Lemma least_float : value Binary32 1 = bpow radix2 (-149) /\ value Binary32 0x80000001 = - bpow radix2 (-149).
Proof.
  rewrite !value_fields by (vm_compute; reflexivity). change (n_of Binary32 1) with 1%Z. change (n_of Binary32 0x80000001) with 1%Z.
  change (e0_of Binary32 1) with (-149)%Z. change (e0_of Binary32 0x80000001) with (-149)%Z.
  change (sgn Binary32 1) with false. change (sgn Binary32 0x80000001) with true. cbn [cond_Ropp]. split; ring.
Qed.
Lemma only_least x : input Binary32 x -> Rabs (value Binary32 x) <= bpow radix2 (-149) -> x = 1%Z \/ x = 0x80000001%Z.
Proof.
  intros Hin L. assert (G := value_format Binary32 x Hin). destruct Hin as (P & F & N). destruct least_float as [V1 V2].
  assert (A : Rabs (value Binary32 x) = bpow radix2 (-149)).
  { apply Rle_antisym; [exact L|]. apply (generic_format_ge_bpow radix2 (FLT_exp (emin Binary32) (prec Binary32))).
    - intros e. unfold FLT_exp. cbn [emin]. lia.
    - apply Rabs_pos_lt, N.
    - apply generic_format_abs, G. }
  destruct (Rcase_abs (value Binary32 x)) as [S|S].
  - right. apply (value_inj Binary32); [exact P | split; [discriminate | reflexivity] | exact F | reflexivity | | exact N].
    rewrite V2, <- A, Rabs_left by exact S. ring.
  - left. apply (value_inj Binary32); [exact P | split; [discriminate | reflexivity] | exact F | reflexivity | | exact N].
    rewrite V1, <- A, Rabs_right by exact S. reflexivity.
Qed.
Definition low_enough (r : outcome fp_t) : bool :=
  match r with Ok r => (-45 <=? fp_exponent r + digits (fp_significand r) - 1)%Z | _ => true end.
Lemma least_low rs m crs h x : x = 1%Z \/ x = 0x80000001%Z -> low_enough (grisu_exact debug_build Binary32 rs m crs h x) = true.
Proof. intros [-> | ->]; destruct rs, m, crs, h; vm_compute; reflexivity. Qed.

Lemma sci_of_float cfg rs m crs h x r : input Binary32 x -> returns m Binary32 x = true -> grisu_exact cfg Binary32 rs m crs h x = Ok r ->
  (-45 <= fp_exponent r + digits (fp_significand r) - 1)%Z.
Proof.
  intros Hin Hr E. destruct (Z_le_gt_dec (-45) (fp_exponent r + digits (fp_significand r) - 1)) as [L|L]; [exact L|exfalso].
  destruct (returned cfg Binary32 rs m crs h x Hin Hr) as (r' & E' & [Ps _ _ _] & RB). assert (r' = r) by congruence. subst r'.
  assert (U : Rabs (decimal (signed Binary32 x r) (fp_exponent r)) <= bpow radix2 (-149)).
  { assert (A : Rabs (decimal (signed Binary32 x r) (fp_exponent r)) = decimal (fp_significand r) (fp_exponent r)).
    { unfold signed. rewrite decimal_abs. f_equal. destruct (negative Binary32 x); cbn [cond_Zopp]; lia. }
    rewrite A. destruct (Shortest.digits_bounds (fp_significand r) (fp_exponent r) Ps) as [_ B]. apply Rlt_le. eapply Rlt_le_trans; [exact B|].
    apply Rle_trans with (bpow radix10 (-45)); [apply bpow_le; lia|]. 
    change (bpow radix10 (-45)) with (/ IZR (10 ^ 45)). change (bpow radix2 (-149)) with (/ IZR (2 ^ 149)).
    apply Rinv_le; [apply IZR_lt; reflexivity | apply IZR_le; vm_compute; discriminate]. }
  pose proof (valid_reading m) as W. assert (Hp : (0 < prec Binary32)%Z) by reflexivity.
  pose proof (FLT_exp_valid (emin Binary32) (prec Binary32) (prec_gt_0_ := Hp)) as V.
  assert (X : Rabs (value Binary32 x) <= bpow radix2 (-149)).
  { rewrite <- RB. apply (abs_round_le_generic radix2 (FLT_exp (emin Binary32) (prec Binary32)) (reading m)); [|exact U].
    apply generic_format_bpow. unfold FLT_exp. cbn [emin prec]. lia. }
  pose proof (least_low rs m crs h x (only_least x Hin X)) as Q.
  destruct (returned debug_build Binary32 rs m crs h x Hin Hr) as (r2 & E2 & _). rewrite E2 in Q. cbn [low_enough] in Q. apply Z.leb_le in Q.
  pose proof (debug_decides debug_build cfg Binary32 rs m crs h x r2 eq_refl E2) as E3. assert (r2 = r) by congruence. subst r2. lia.
Qed.
Lemma tight_ranges cfg f rs m crs h x : input f x -> returns m f x = true -> exists r, grisu_exact cfg f rs m crs h x = Ok r /\
  (0 < fp_significand r)%Z /\ (digits (fp_significand r) <= max_digits f)%Z /\
  (match f with Binary32 => -45 | Binary64 => -324 end <= fp_exponent r + digits (fp_significand r) - 1 <= sci_max f)%Z.
Proof.
  intros Hin Hr. destruct (all_ranges cfg f rs m crs h x Hin Hr) as (r & E & A & B & C). exists r. split; [exact E|]. split; [exact A|]. split; [exact B|].
  split; [|apply C]. destruct f; [exact (sci_of_float cfg rs m crs h x r Hin Hr E) | apply C].
Qed.
