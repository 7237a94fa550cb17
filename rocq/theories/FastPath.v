(** * Results put together again by one multiplication or division *)

From Coq Require Import ZArith Reals Lra Lia Bool.
From Flocq Require Import Core IEEE754.BinarySingleNaN IEEE754.Binary IEEE754.Bits.
From Verif Require Import Machine Model Spec IeeeSpec MachineArith Chars ReadsBack Reader Users Claims Outputs Ieee.
Open Scope R_scope.

Notation format_exp f := (FLT_exp (emin f) (prec f)).

(** ** Numbers of the format *)
Lemma scaled_format f n k : (Z.abs n < 2 ^ prec f)%Z -> (emin f <= k)%Z ->
  generic_format radix2 (format_exp f) (F2R (Float radix2 n k)).
Proof. intros H K. apply generic_format_FLT. eapply FLT_spec; [reflexivity | exact H | exact K]. Qed.
Lemma small_format f n : (Z.abs n <= 2 ^ prec f)%Z -> generic_format radix2 (format_exp f) (IZR n).
Proof.
  intros H. assert (Z0 : IZR n = F2R (Float radix2 n 0)) by (unfold F2R; cbn [Fnum Fexp bpow]; ring).
  destruct (Z.eq_dec (Z.abs n) (2 ^ prec f)) as [E|NE].
  - assert (G : generic_format radix2 (format_exp f) (F2R (Float radix2 (Z.sgn n) (prec f)))).
    { apply scaled_format; [|destruct f; cbn; lia]. assert (1 < 2 ^ prec f)%Z by (destruct f; reflexivity). lia. }
    replace (IZR n) with (F2R (Float radix2 (Z.sgn n) (prec f))); [exact G|].
    unfold F2R. cbn [Fnum Fexp]. rewrite <- IZR_Zpower by (destruct f; cbn; lia). rewrite <- mult_IZR. f_equal.
    change (radix_val radix2) with 2%Z. rewrite <- E. rewrite Z.mul_comm. apply Z.abs_sgn.
  - rewrite Z0. apply scaled_format; [lia | destruct f; cbn; lia].
Qed.
Lemma power_format f k : (0 <= k <= exact_powers f)%Z -> generic_format radix2 (format_exp f) (IZR (10 ^ k)).
Proof.
  intros K. replace (IZR (10 ^ k)) with (F2R (Float radix2 (5 ^ k) k)).
  - apply scaled_format; [|destruct f; cbn; lia]. rewrite Z.abs_eq by (apply Z.pow_nonneg; lia).
    apply Z.le_lt_trans with (5 ^ exact_powers f)%Z; [apply Z.pow_le_mono_r; lia | destruct f; reflexivity].
  - unfold F2R. cbn [Fnum Fexp]. rewrite <- IZR_Zpower by lia. rewrite <- mult_IZR. f_equal.
    change (radix_val radix2) with 2%Z. change 10%Z with (5 * 2)%Z. symmetry. apply Z.pow_mul_l.
Qed.

(** ** The operations *)
Lemma mode_even f v : round radix2 (format_exp f) (round_mode mode_NE) v = read f nearest_to_even v.
Proof. reflexivity. Qed.
Lemma convert_ok f n : generic_format radix2 (format_exp f) (IZR n) -> Rabs (IZR n) < bpow radix2 (top_exp f) ->
  pattern f (of_integer f n) /\ finite f (of_integer f n) = true /\ value f (of_integer f n) = IZR n.
Proof.
  intros G B. assert (Z0 : F2R (Float radix2 n 0) = IZR n) by (unfold F2R; cbn [Fnum Fexp bpow]; ring).
  destruct f; cbn [of_integer top_exp] in *; unfold pattern, finite, value; cbn [width].
  - pose proof (Binary.binary_normalize_correct 24 128 eq_refl eq_refl mode_NE n 0 false) as C. rewrite Z0 in C.
    change (SpecFloat.fexp 24 128) with (format_exp Binary32) in C. rewrite round_generic in C by (auto with typeclass_instances; exact G).
    rewrite Rlt_bool_true in C by exact B. destruct C as (V & F & _).
    unfold b32_of_bits, bits_of_b32. rewrite binary_float_of_bits_of_binary_float.
    split; [apply (bits_of_binary_float_range 23 8); reflexivity|]. split; [exact F | exact V].
  - pose proof (Binary.binary_normalize_correct 53 1024 eq_refl eq_refl mode_NE n 0 false) as C. rewrite Z0 in C.
    change (SpecFloat.fexp 53 1024) with (format_exp Binary64) in C. rewrite round_generic in C by (auto with typeclass_instances; exact G).
    rewrite Rlt_bool_true in C by exact B. destruct C as (V & F & _).
    unfold b64_of_bits, bits_of_b64. rewrite binary_float_of_bits_of_binary_float.
    split; [apply (bits_of_binary_float_range 52 11); reflexivity|]. split; [exact F | exact V].
Qed.
Lemma times_ok f a b : finite f a = true -> finite f b = true ->
  Rabs (read f nearest_to_even (value f a * value f b)) < bpow radix2 (top_exp f) ->
  pattern f (times f a b) /\ finite f (times f a b) = true /\ value f (times f a b) = read f nearest_to_even (value f a * value f b).
Proof.
  intros Fa Fb B. destruct f; cbn [times top_exp] in *; unfold pattern, finite, value in *; cbn [width].
  - unfold b32_mult.
    match goal with |- context [Bmult 24 128 ?p ?q ?n _ ?u ?v] => pose proof (Binary.Bmult_correct 24 128 p q n mode_NE u v) as C end.
    change (SpecFloat.fexp 24 128) with (format_exp Binary32) in C. rewrite mode_even in C.
    rewrite Rlt_bool_true in C by exact B. destruct C as (V & F & _). rewrite Fa, Fb in F.
    unfold b32_of_bits, bits_of_b32 in *. rewrite binary_float_of_bits_of_binary_float.
    split; [apply (bits_of_binary_float_range 23 8); reflexivity|]. split; [exact F | exact V].
  - unfold b64_mult.
    match goal with |- context [Bmult 53 1024 ?p ?q ?n _ ?u ?v] => pose proof (Binary.Bmult_correct 53 1024 p q n mode_NE u v) as C end.
    change (SpecFloat.fexp 53 1024) with (format_exp Binary64) in C. rewrite mode_even in C.
    rewrite Rlt_bool_true in C by exact B. destruct C as (V & F & _). rewrite Fa, Fb in F.
    unfold b64_of_bits, bits_of_b64 in *. rewrite binary_float_of_bits_of_binary_float.
    split; [apply (bits_of_binary_float_range 52 11); reflexivity|]. split; [exact F | exact V].
Qed.
Lemma divided_by_ok f a b : finite f a = true -> value f b <> 0 ->
  Rabs (read f nearest_to_even (value f a / value f b)) < bpow radix2 (top_exp f) ->
  pattern f (divided_by f a b) /\ finite f (divided_by f a b) = true /\ value f (divided_by f a b) = read f nearest_to_even (value f a / value f b).
Proof.
  intros Fa Nb B. destruct f; cbn [divided_by top_exp] in *; unfold pattern, finite, value in *; cbn [width].
  - unfold b32_div.
    match goal with |- context [Bdiv 24 128 ?p ?q ?n _ ?u ?v] => pose proof (Binary.Bdiv_correct 24 128 p q n mode_NE u v Nb) as C end.
    change (SpecFloat.fexp 24 128) with (format_exp Binary32) in C. rewrite mode_even in C.
    rewrite Rlt_bool_true in C by exact B. destruct C as (V & F & _). rewrite Fa in F.
    unfold b32_of_bits, bits_of_b32 in *. rewrite binary_float_of_bits_of_binary_float.
    split; [apply (bits_of_binary_float_range 23 8); reflexivity|]. split; [exact F | exact V].
  - unfold b64_div.
    match goal with |- context [Bdiv 53 1024 ?p ?q ?n _ ?u ?v] => pose proof (Binary.Bdiv_correct 53 1024 p q n mode_NE u v Nb) as C end.
    change (SpecFloat.fexp 53 1024) with (format_exp Binary64) in C. rewrite mode_even in C.
    rewrite Rlt_bool_true in C by exact B. destruct C as (V & F & _). rewrite Fa in F.
    unfold b64_of_bits, bits_of_b64 in *. rewrite binary_float_of_bits_of_binary_float.
    split; [apply (bits_of_binary_float_range 52 11); reflexivity|]. split; [exact F | exact V].
Qed.

(** ** Results *)
Lemma below_top f n : (Z.abs n <= 2 ^ 100)%Z -> Rabs (IZR n) < bpow radix2 (top_exp f).
Proof.
  intros H. rewrite <- abs_IZR. apply Rle_lt_trans with (IZR (2 ^ 100)); [apply IZR_le; exact H|].
  change 2%Z with (radix_val radix2) at 1. rewrite IZR_Zpower by lia. apply bpow_lt. destruct f; reflexivity.
Qed.
Lemma power_below f k : (0 <= k <= exact_powers f)%Z -> (Z.abs (10 ^ k) <= 2 ^ 100)%Z.
Proof.
  intros K. rewrite Z.abs_eq by (apply Z.pow_nonneg; lia).
  apply Z.le_trans with (10 ^ 22)%Z; [|apply Z.leb_le; reflexivity]. apply Z.pow_le_mono_r; [lia|]. destruct f; cbn in K; lia.
Qed.
Lemma reading_plain f m v : plain m = nearest_to_even -> read f m v = read f nearest_to_even v.
Proof. destruct m; try discriminate; reflexivity. Qed.
Lemma put_together_nonneg cfg f rs m crs h x r : input f x -> plain m = nearest_to_even -> grisu_exact cfg f rs m crs h x = Ok r ->
  (0 <= fp_significand r <= 2 ^ prec f)%Z -> (Z.abs (fp_exponent r) <= exact_powers f)%Z ->
  put_back f (signed f x r) (fp_exponent r) = x.
Proof.
  intros Hin Hm E Hs He. unfold put_back. pose proof (value_below f x (proj1 (proj2 Hin))) as Bx.
  assert (RB : read f nearest_to_even (decimal (signed f x r) (fp_exponent r)) = value f x).
  { rewrite <- (reading_plain f m _ Hm). symmetry. apply (same_bits cfg f rs m crs h x r x Hin E); [apply Hin | apply Hin | reflexivity]. }
  assert (As : (Z.abs (signed f x r) <= 2 ^ prec f)%Z).
  { unfold signed. rewrite abs_cond_Zopp. lia. }
  destruct (convert_ok f (signed f x r)) as (_ & Fs & Vs).
  { apply small_format. exact As. }
  { apply below_top. eapply Z.le_trans; [exact As|]. destruct f; apply Z.leb_le; reflexivity. }
  destruct (Z.leb_spec 0 (fp_exponent r)) as [P|N].
  - assert (K : (0 <= fp_exponent r <= exact_powers f)%Z) by lia.
    destruct (convert_ok f (10 ^ fp_exponent r) (power_format f _ K) (below_top f _ (power_below f _ K))) as (_ & Fk & Vk).
    assert (D : (value f (of_integer f (signed f x r)) * value f (of_integer f (10 ^ fp_exponent r)) = decimal (signed f x r) (fp_exponent r))).
    { rewrite Vs, Vk. unfold decimal, F2R. cbn [Fnum Fexp]. rewrite <- IZR_Zpower by lia. reflexivity. }
    destruct (times_ok f _ _ Fs Fk) as (Pt & Ft & Vt); [rewrite D, RB; exact Bx|].
    apply (same_bits cfg f rs m crs h x r _ Hin E Pt Ft). rewrite Vt, D. symmetry. apply reading_plain. exact Hm.
  - assert (K : (0 <= - fp_exponent r <= exact_powers f)%Z) by lia.
    destruct (convert_ok f (10 ^ (- fp_exponent r)) (power_format f _ K) (below_top f _ (power_below f _ K))) as (_ & Fk & Vk).
    assert (D : (value f (of_integer f (signed f x r)) / value f (of_integer f (10 ^ (- fp_exponent r))) = decimal (signed f x r) (fp_exponent r))).
    { rewrite Vs, Vk. unfold decimal, F2R, Rdiv. cbn [Fnum Fexp]. f_equal. change 10%Z with (radix_val radix10).
      rewrite IZR_Zpower by lia. rewrite bpow_opp. apply Rinv_inv. }
    destruct (divided_by_ok f (of_integer f (signed f x r)) (of_integer f (10 ^ (- fp_exponent r))) Fs) as (Pt & Ft & Vt).
    { rewrite Vk. apply IZR_neq. assert (0 < 10 ^ (- fp_exponent r))%Z by (apply Z.pow_pos_nonneg; lia). lia. }
    { rewrite D, RB. exact Bx. }
    apply (same_bits cfg f rs m crs h x r _ Hin E Pt Ft). rewrite Vt, D. symmetry. apply reading_plain. exact Hm.
Qed.
Lemma positive_result cfg f rs m crs h x r : input f x -> plain m = nearest_to_even -> grisu_exact cfg f rs m crs h x = Ok r -> (0 < fp_significand r)%Z.
Proof.
  intros Hin Hm E. destruct (all_ranges cfg f rs m crs h x Hin) as (r' & E' & P & _).
  - unfold returns, nearest_or_outward. destruct m; try discriminate; reflexivity.
  - rewrite E in E'. injection E' as <-. exact P.
Qed.
Lemma put_together cfg f rs m crs h x r : input f x -> plain m = nearest_to_even -> grisu_exact cfg f rs m crs h x = Ok r ->
  (fp_significand r <= 2 ^ prec f)%Z -> (Z.abs (fp_exponent r) <= exact_powers f)%Z ->
  put_back f (signed f x r) (fp_exponent r) = x.
Proof.
  intros Hin Hm E Hs He. pose proof (positive_result cfg f rs m crs h x r Hin Hm E) as P.
  apply (put_together_nonneg cfg f rs m crs h x r Hin Hm E); [lia | exact He].
Qed.
Lemma short_together cfg f rs m crs h x r : input f x -> plain m = nearest_to_even -> grisu_exact cfg f rs m crs h x = Ok r ->
  (digits (fp_significand r) <= match f with Binary32 => 7 | Binary64 => 15 end)%Z -> (Z.abs (fp_exponent r) <= exact_powers f)%Z ->
  put_back f (signed f x r) (fp_exponent r) = x.
Proof.
  intros Hin Hm E Hd He. pose proof (positive_result cfg f rs m crs h x r Hin Hm E) as P.
  apply (put_together cfg f rs m crs h x r Hin Hm E); [|exact He]. apply Chars.digits_le in Hd; [|exact P|destruct f; discriminate].
  apply Z.lt_le_incl. eapply Z.lt_le_trans; [exact Hd|]. destruct f; apply Z.leb_le; reflexivity.
Qed.
