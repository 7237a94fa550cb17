(** * verify_cache_length: what it writes, and how far that is right *)

From Coq Require Import ZArith Reals List Bool Lia.
From Flocq Require Import Core.
From Verif Require Import Machine Model Arith BigintModel BigFacts Bigint BigClaims Logs LengthModel LengthTables LengthCerts LengthNum LengthCheck LengthSpec Lengths.
Import ListNotations.
Open Scope Z_scope.

(** ** The four runs *)
Lemma run1 : negative_rows Binary32 (negative_size Binary32) (-2) 0 1 0 binary32_negative_certs = Some (binary32_negative_k, 57).
Proof. vm_cast_no_check (eq_refl (Some (binary32_negative_k, 57))). Qed.
Lemma run2 : positive_rows Binary32 (-90) (positive_size Binary32) (-3) 0 1 0 binary32_positive_certs = Some (binary32_positive_k, 61).
Proof. vm_cast_no_check (eq_refl (Some (binary32_positive_k, 61))). Qed.
Lemma run3 : negative_rows Binary64 (negative_size Binary64) (-2) 0 1 0 binary64_negative_certs = Some (binary64_negative_k, 125).
Proof. vm_cast_no_check (eq_refl (Some (binary64_negative_k, 125))). Qed.
Lemma run4 : positive_rows Binary64 1 (positive_size Binary64) (-3) 0 1 0 binary64_positive_certs = Some (binary64_positive_k, 125).
Proof. vm_cast_no_check (eq_refl (Some (binary64_positive_k, 125))). Qed.

(** the numbers of bits given for the exponents of the two signs of k *)
Definition recorded_negative (f : fmt) : list (Z * Z) := match f with Binary32 => binary32_negative_k | Binary64 => binary64_negative_k end.
Definition recorded_positive (f : fmt) : list (Z * Z) := match f with Binary32 => binary32_positive_k | Binary64 => binary64_positive_k end.
Definition most_negative (f : fmt) : Z := match f with Binary32 => 57 | Binary64 => 125 end.
Definition most_positive (f : fmt) : Z := match f with Binary32 => 61 | Binary64 => 125 end.
Definition unproved (f : fmt) : Z := match f with Binary32 => -90 | Binary64 => 1 end.

Lemma small_array bits : 0 < bits -> (1 <= array_size_of bits)%nat.
Proof.
  intros B. unfold array_size_of, element_number_of_bits. enough (1 <= (bits + 64 - 1) / 64) by lia. apply Z.div_le_lower_bound; lia.
Qed.
Lemma negative_all cfg f junk : negative_k cfg f junk = Ok (recorded_negative f, most_negative f) /\
  (forall e bits, In (e, bits) (recorded_negative f) -> -2 <= e <= max_exponent f /\ chosen e <= 0 /\ forall bits', bits + 1 <= bits' -> enough_down f e (chosen e) bits') /\
  (forall e, -2 <= e <= max_exponent f -> exists bits, In (e, bits) (recorded_negative f) /\ bits <= most_negative f).
Proof.
  unfold negative_k. replace (alpha f + 3) with (-2) by (destruct f; reflexivity).
  destruct (big_of_valid (array_size_of (negative_k_max_bits f)) (junk (-2) 10%nat 0%nat 0%nat) 1) as (p5 & -> & V & E); [apply small_array; destruct f; vm_compute; reflexivity | lia|]. cbn [bind].
  destruct f.
  - destruct (negative_rows_ok cfg Binary32 junk binary32_negative_certs 2000 (-2) 0 p5 0 (binary32_negative_k, 57)) as (R1 & R2 & R3 & _); [apply Nat.ltb_lt; vm_compute; reflexivity | exact V | lia | exact E | rewrite E; exact run1|].
    split; [exact R1|]. split; [exact R2 | exact R3].
  - destruct (negative_rows_ok cfg Binary64 junk binary64_negative_certs 2000 (-2) 0 p5 0 (binary64_negative_k, 125)) as (R1 & R2 & R3 & _); [apply Nat.ltb_lt; vm_compute; reflexivity | exact V | lia | exact E | rewrite E; exact run3|].
    split; [exact R1|]. split; [exact R2 | exact R3].
Qed.
Lemma positive_all cfg f junk : positive_k cfg f junk = Ok (recorded_positive f, most_positive f) /\
  (forall e bits, In (e, bits) (recorded_positive f) -> min_exponent f <= e <= -3 /\ 0 <= chosen e /\ (e <> unproved f -> enough_up f e (chosen e) bits)) /\
  (forall e, min_exponent f <= e <= -3 -> exists bits, In (e, bits) (recorded_positive f) /\ bits <= most_positive f).
Proof.
  unfold positive_k. replace (alpha f + 2) with (-3) by (destruct f; reflexivity).
  destruct (big_of_valid (array_size_of (positive_k_max_bits f)) (junk (-3) 7%nat 0%nat 0%nat) 1) as (p5 & -> & V & E); [apply small_array; destruct f; vm_compute; reflexivity | lia|]. cbn [bind].
  destruct f.
  - destruct (positive_rows_ok cfg Binary32 (-90) junk binary32_positive_certs 2000 (-3) 0 p5 0 (binary32_positive_k, 61)) as (R1 & R2 & R3 & _); [apply Nat.ltb_lt; vm_compute; reflexivity | exact V | lia | exact E | rewrite E; exact run2|].
    split; [exact R1|]. split; [exact R2 | exact R3].
  - destruct (positive_rows_ok cfg Binary64 1 junk binary64_positive_certs 2000 (-3) 0 p5 0 (binary64_positive_k, 125)) as (R1 & R2 & R3 & _); [apply Nat.ltb_lt; vm_compute; reflexivity | exact V | lia | exact E | rewrite E; exact run4|].
    split; [exact R1|]. split; [exact R2 | exact R3].
Qed.

Lemma written cfg junk : verify_cache_length cfg junk =
  Ok [(binary32_negative_k, 57); (binary32_positive_k, 61); (binary64_negative_k, 125); (binary64_positive_k, 125)].
Proof.
  unfold verify_cache_length. rewrite (proj1 (negative_all cfg Binary32 _)), (proj1 (positive_all cfg Binary32 _)), (proj1 (negative_all cfg Binary64 _)), (proj1 (positive_all cfg Binary64 _)). reflexivity.
Qed.

(** ** Sufficiency *)
Lemma chosen_eq e : -1600 <= e <= 1600 -> chosen_k e = chosen e.
Proof.
  intros H. unfold chosen_k, chosen. f_equal. pose proof (log10_pow2 debug_cfg (e + 6) ltac:(lia)) as A. rewrite (log10_pow2_ok debug_cfg (e + 6)) in A by lia. injection A as <-. reflexivity.
Qed.
Lemma chosen_negative e : -2 <= e <= 1000 -> chosen e < 0.
Proof.
  intros H. unfold chosen, c_floor_log10_pow2. rewrite Z.shiftr_div_pow2 by lia. enough (1 <= (e + 6) * 315652 / 2 ^ 20) by lia. apply Z.div_le_lower_bound; lia.
Qed.
Lemma exponents f : -1600 <= min_exponent f /\ max_exponent f <= 1000.
Proof. destruct f; cbn; lia. Qed.
Lemma negative_enough f e bits bits' : In (e, bits) (recorded_negative f) -> bits + 1 <= bits' -> enough f e bits'.
Proof.
  intros I L. destruct (proj1 (proj2 (negative_all debug_cfg f (fun _ _ _ _ _ => 0))) e bits I) as (H1 & H2 & H3). pose proof (exponents f).
  unfold enough. rewrite chosen_eq by lia. cbv zeta. rewrite (proj2 (Z.ltb_lt _ _) (chosen_negative e ltac:(lia))). apply H3. exact L.
Qed.
Lemma positive_enough f e bits bits' : In (e, bits) (recorded_positive f) -> f = Binary64 \/ e <> -90 -> bits <= bits' -> enough f e bits'.
Proof.
  intros I N L. destruct (proj1 (proj2 (positive_all debug_cfg f (fun _ _ _ _ _ => 0))) e bits I) as (H1 & H2 & H3). pose proof (exponents f).
  unfold enough. rewrite chosen_eq by lia. cbv zeta. destruct (Z.ltb_spec (chosen e) 0); [lia|]. apply (enough_up_mono _ _ _ bits); [exact H2 | exact L|]. apply H3.
  destruct f; cbn [unproved]; [destruct N; [discriminate | assumption] | lia].
Qed.

(** ** The cache *)
Lemma untouched f e k bits : Z.log2 (5 ^ k) < bits -> enough_up f e k bits.
Proof. intros H. unfold enough_up. cbv zeta. destruct (Z.leb_spec bits (Z.log2 (5 ^ k))); [lia|]. repeat split. Qed.
Lemma cache_enough f e : min_exponent f <= e <= max_exponent f -> enough f e (cache_precision f).
Proof.
  intros H. destruct (Z_le_gt_dec (-2) e) as [L|L].
  - destruct (proj2 (proj2 (negative_all debug_cfg f (fun _ _ _ _ _ => 0))) e ltac:(lia)) as (bits & I & B). apply (negative_enough f e bits); [exact I|]. destruct f; cbn in *; lia.
  - destruct (proj2 (proj2 (positive_all debug_cfg f (fun _ _ _ _ _ => 0))) e ltac:(lia)) as (bits & I & B).
    destruct (Z.eq_dec e (-90)) as [->|Ne].
    + destruct f; [|apply (positive_enough Binary64 (-90) bits); [exact I | left; reflexivity | cbn in *; lia]].
      unfold enough. rewrite chosen_eq by lia. replace (chosen (-90)) with 26 by reflexivity. apply untouched. vm_compute. reflexivity.
    + apply (positive_enough f e bits); [exact I | right; exact Ne | destruct f; cbn in *; lia].
Qed.

(** ** Rows with too few bits *)
Lemma too_few_32_negative : In (96, 55) binary32_negative_k /\ ~ enough Binary32 96 55.
Proof.
  split; [apply (nth_error_In _ 98); vm_compute; reflexivity|]. unfold enough. rewrite chosen_eq by lia. replace (chosen 96) with (-30) by reflexivity. cbn [Z.ltb Z.compare].
  intros (_ & A & _). specialize (A 14077062 ltac:(split; vm_compute; discriminate)). revert A. vm_compute. discriminate.
Qed.
Lemma too_few_32_positive : In (-90, 55) binary32_positive_k /\ ~ enough Binary32 (-90) 55.
Proof.
  split; [apply (nth_error_In _ 87); vm_compute; reflexivity|]. unfold enough. rewrite chosen_eq by lia. replace (chosen (-90)) with 26 by reflexivity. cbn [Z.ltb Z.compare].
  intros (_ & A & _). specialize (A 14855922 ltac:(split; vm_compute; discriminate)). revert A. vm_compute. discriminate.
Qed.
Lemma too_few_64_negative : In (710, 123) binary64_negative_k /\ ~ enough Binary64 710 123.
Proof.
  split; [apply (nth_error_In _ 712); vm_compute; reflexivity|]. unfold enough. rewrite chosen_eq by lia. replace (chosen 710) with (-215) by reflexivity. cbn [Z.ltb Z.compare].
  intros (_ & A & _). specialize (A 8385515147034757 ltac:(split; vm_compute; discriminate)). revert A. vm_compute. discriminate.
Qed.
Lemma all_cache_enough f e : lowest_exponent f <= e <= highest_exponent f -> enough f e (2 * width f).
Proof.
  intros H. replace (2 * width f) with (cache_precision f) by (destruct f; reflexivity). apply cache_enough.
  replace (min_exponent f) with (lowest_exponent f) by (destruct f; reflexivity). replace (max_exponent f) with (highest_exponent f) by (destruct f; reflexivity). exact H.
Qed.
