(** * The random generators of the tests *)

From Coq Require Import ZArith Reals Lra Lia Bool List.
From Flocq Require Import Core.
From Verif Require Import Machine Model BigintModel RandomModel Spec UserSpec ProgramSpec ExpFacts Core Link Bridge BigFacts.
From Verif Require Import Shortest Chars Claims Users.
Import ListNotations.
Open Scope Z_scope.

(** ** repeating_seed_seq *)
Lemma read_array_nth (l : list Z) i : (i < length l)%nat -> read_array l (Z.of_nat i) = Ok (nth i l 0).
Proof.
  intros H. unfold read_array. destruct (Z.ltb_spec (Z.of_nat i) 0); [lia|]. rewrite Nat2Z.id.
  rewrite (nth_error_nth' l 0 H). reflexivity.
Qed.
Lemma copy_ok stored count offset n out : (n <= length stored)%nat -> (offset + n <= count)%nat ->
  exists out', copy_stored stored count offset n out = Ok out' /\
  forall j, out' j = if ((offset <=? j) && (j <? offset + n))%nat then nth (j - offset) stored 0 else out j.
Proof.
  intros Hn Hc. unfold copy_stored.
  destruct (up_loop_inv (fun k (o : nat -> Z) => forall j, o j = if ((offset <=? j) && (j <? offset + k))%nat then nth (j - offset) stored 0 else out j)
    (fun i out => v <- read_array stored (Z.of_nat i) ;; upd count out (offset + i) v) 0 n out) as (o & E & P).
  - intros j. destruct (Nat.leb_spec offset j), (Nat.ltb_spec j (offset + 0)); cbn [andb]; try reflexivity; lia.
  - intros k o Hk P. rewrite read_array_nth by lia. cbn [bind]. rewrite upd_ok by lia. eexists. split; [reflexivity|].
    intros j. unfold put. destruct (Nat.eqb_spec j (offset + k)) as [->|Q].
    + destruct (Nat.leb_spec offset (offset + k)), (Nat.ltb_spec (offset + k) (offset + S k)); cbn [andb]; try lia. f_equal. lia.
    + rewrite P. destruct (Nat.leb_spec offset j), (Nat.ltb_spec j (offset + k)), (Nat.ltb_spec j (offset + S k)); cbn [andb]; try reflexivity; lia.
  - exists o. split; [exact E | exact P].
Qed.
Lemma generate_ok stored count out : stored <> [] ->
  exists out', generate stored count out = Ok out' /\
  (forall j, (j < count)%nat -> out' j = nth (j mod length stored) stored 0) /\
  (forall j, (count <= j)%nat -> out' j = out j).
Proof.
  intros Hs. unfold generate. destruct (length stored) as [|n'] eqn:L; [destruct stored; [contradiction | discriminate]|].
  set (n := S n') in *. assert (Hn : (0 < n)%nat) by (unfold n; lia). clearbody n.
  set (q := (count / n)%nat). pose proof (Nat.div_mod count n ltac:(lia)) as D. pose proof (Nat.mod_upper_bound count n ltac:(lia)) as M. fold q in D.
  destruct (up_loop_inv (fun k (o : nat -> Z) => forall j, o j = if (j <? k * n)%nat then nth (j mod n) stored 0 else out j)
    (fun i out => copy_stored stored count (i * n) n out) 0 q out) as (o & E & P).
  - intros j. reflexivity.
  - intros k o Hk P. destruct (copy_ok stored count (k * n) n o) as (o' & E & Q); [lia | nia|].
    exists o'. split; [exact E|]. intros j. rewrite Q. rewrite P.
    destruct (Nat.leb_spec (k * n) j), (Nat.ltb_spec j (k * n + n)), (Nat.ltb_spec j (k * n)), (Nat.ltb_spec j (S k * n)); cbn [andb]; try reflexivity; try nia.
    f_equal. replace j with (j - k * n + k * n)%nat at 2 by lia. rewrite Nat.mod_add by lia. rewrite Nat.mod_small by lia. reflexivity.
  - rewrite E. cbn [bind]. destruct (copy_ok stored count (q * n) (count - q * n) o) as (o' & E' & Q); [nia | nia|].
    exists o'. split; [exact E'|]. cbn [Nat.add] in P. split; intros j Hj; rewrite Q, P.
    + destruct (Nat.leb_spec (q * n) j), (Nat.ltb_spec j (q * n + (count - q * n))), (Nat.ltb_spec j (q * n)); cbn [andb]; try reflexivity; try nia.
      f_equal. replace j with (j - q * n + q * n)%nat at 2 by lia. rewrite Nat.mod_add by lia. rewrite Nat.mod_small by nia. reflexivity.
    + destruct (Nat.leb_spec (q * n) j), (Nat.ltb_spec j (q * n + (count - q * n))), (Nat.ltb_spec j (q * n)); cbn [andb]; try reflexivity; nia.
Qed.

(** ** A uniform finite number *)
Lemma lor_low a b k : 0 <= k -> 0 <= b < 2 ^ k -> Z.lor (a * 2 ^ k) b = a * 2 ^ k + b.
Proof.
  intros Hk Hb. rewrite Z.add_nocarry_lxor.
  - apply Z.bits_inj'. intros n Hn. rewrite Z.lor_spec, Z.lxor_spec. destruct (Z.ltb_spec n k).
    + rewrite Z.mul_pow2_bits_low by lia. destruct (Z.testbit b n); reflexivity.
    + rewrite <- (Z.mod_small b (2 ^ k) Hb), Z.mod_pow2_bits_high by lia. destruct (Z.testbit (a * 2 ^ k) n); reflexivity.
  - apply Z.bits_inj'. intros n Hn. rewrite Z.land_spec, Z.bits_0. destruct (Z.ltb_spec n k).
    + rewrite Z.mul_pow2_bits_low by lia. reflexivity.
    + rewrite <- (Z.mod_small b (2 ^ k) Hb), Z.mod_pow2_bits_high by lia. apply andb_false_r.
Qed.
Lemma finite_float_bits draw f : within_bounds draw ->
  finite_float draw f = (draw 0%nat 0 1 * 2 ^ exponent_bits f + draw 1%nat 0 (2 ^ exponent_bits f - 2)) * 2 ^ precision f + draw 2%nat 0 (2 ^ precision f - 1).
Proof.
  intros W. unfold finite_float. pose proof (W 0%nat 0 1 ltac:(lia)) as W0.
  pose proof (W 1%nat 0 (2 ^ exponent_bits f - 2) ltac:(destruct f; cbn; lia)) as W1.
  pose proof (W 2%nat 0 (2 ^ precision f - 1) ltac:(destruct f; cbn; lia)) as W2.
  replace (Z.shiftl 1 (exponent_bits f) - 2) with (2 ^ exponent_bits f - 2) by (destruct f; reflexivity).
  replace (Z.shiftl 1 (precision f) - 1) with (2 ^ precision f - 1) by (destruct f; reflexivity).
  set (s := draw 0%nat 0 1) in *. set (e := draw 1%nat 0 (2 ^ exponent_bits f - 2)) in *. set (m := draw 2%nat 0 (2 ^ precision f - 1)) in *.
  clearbody s e m. rewrite !Z.shiftl_mul_pow2 by (destruct f; cbn; lia).
  replace (2 ^ (extended_precision f - 1)) with (2 ^ exponent_bits f * 2 ^ precision f) by (destruct f; reflexivity).
  assert (EW : 2 ^ extended_precision f = 2 * (2 ^ exponent_bits f * 2 ^ precision f)) by (destruct f; reflexivity).
  pose proof (pp f) as P1. pose proof (pe f) as P2. unfold wrap. rewrite !Z.mod_small by (rewrite EW; nia).
  rewrite Z.mul_assoc. rewrite <- Z.lor_assoc.
  replace (Z.lor (s * 2 ^ exponent_bits f * 2 ^ precision f) (Z.lor (e * 2 ^ precision f) m))
    with (Z.lor (Z.shiftl (Z.lor (s * 2 ^ exponent_bits f) e) (precision f)) m).
  - rewrite Z.shiftl_mul_pow2 by (destruct f; discriminate). rewrite lor_low by (try (destruct f; discriminate); lia).
    rewrite lor_low by (try (destruct f; discriminate); lia). reflexivity.
  - rewrite Z.shiftl_lor, !Z.shiftl_mul_pow2, Z.lor_assoc by (destruct f; discriminate). reflexivity.
Qed.
Lemma split_fields f s e m : 0 <= s <= 1 -> 0 <= e <= 2 ^ exponent_bits f - 2 -> 0 <= m <= 2 ^ precision f - 1 ->
  let x := (s * 2 ^ exponent_bits f + e) * 2 ^ precision f + m in
  pattern f x /\ finite f x = true /\ x / 2 ^ (precision f + exponent_bits f) = s /\ expo f x = e /\ frac f x = m.
Proof.
  intros Hs He Hm x. pose proof (pp f) as P1. pose proof (pe f) as P2.
  assert (EW : 2 ^ width f = 2 * (2 ^ exponent_bits f * 2 ^ precision f)) by (destruct f; reflexivity).
  assert (ES : 2 ^ (precision f + exponent_bits f) = 2 ^ exponent_bits f * 2 ^ precision f) by (destruct f; reflexivity).
  assert (Px : pattern f x) by (unfold pattern, x; rewrite EW; nia).
  assert (Q : x / 2 ^ precision f = s * 2 ^ exponent_bits f + e).
  { unfold x. rewrite Z.add_comm, Z.div_add, Z.div_small by lia. lia. }
  assert (Ee : expo f x = e).
  { unfold expo. rewrite Q, Z.add_comm, Z.mod_add, Z.mod_small by lia. reflexivity. }
  split; [exact Px|]. split; [|split; [|split; [exact Ee|]]].
  - rewrite finite_model, is_finite_expo, Ee. apply negb_true_iff, Z.eqb_neq. lia.
  - rewrite ES, Z.mul_comm, <- Z.div_div, Q by lia. rewrite Z.add_comm, Z.div_add, Z.div_small by lia. lia.
  - unfold frac, x. rewrite Z.add_comm, Z.mod_add, Z.mod_small by lia. reflexivity.
Qed.
Lemma finite_float_finite draw f : within_bounds draw -> pattern f (finite_float draw f) /\ finite f (finite_float draw f) = true.
Proof.
  intros W. rewrite finite_float_bits by exact W.
  destruct (split_fields f (draw 0%nat 0 1) (draw 1%nat 0 (2 ^ exponent_bits f - 2)) (draw 2%nat 0 (2 ^ precision f - 1))) as (A & B & _);
    [apply W; lia | apply W; destruct f; cbn; lia | apply W; destruct f; cbn; lia | split; assumption].
Qed.
Lemma finite_float_uniform f x : pattern f x -> finite f x = true ->
  exists s e m, 0 <= s <= 1 /\ 0 <= e <= 2 ^ (width f - prec f) - 2 /\ 0 <= m <= 2 ^ (prec f - 1) - 1 /\
  forall draw, within_bounds draw ->
  (finite_float draw f = x <-> draw 0%nat 0 1 = s /\ draw 1%nat 0 (2 ^ (width f - prec f) - 2) = e /\ draw 2%nat 0 (2 ^ (prec f - 1) - 1) = m).
Proof.
  intros Px Fx. pose proof (pp f) as P1. pose proof (pe f) as P2.
  replace (width f - prec f) with (exponent_bits f) by (destruct f; reflexivity).
  replace (prec f - 1) with (precision f) by (destruct f; reflexivity).
  assert (EW : 2 ^ width f = 2 * (2 ^ exponent_bits f * 2 ^ precision f)) by (destruct f; reflexivity).
  assert (ES : 2 ^ (precision f + exponent_bits f) = 2 ^ precision f * 2 ^ exponent_bits f) by (destruct f; reflexivity).
  unfold pattern in Px. rewrite EW in Px. rewrite finite_model, is_finite_expo in Fx. apply negb_true_iff, Z.eqb_neq in Fx.
  pose proof (expo_range f x) as Re. pose proof (frac_range f x) as Rf.
  assert (Rs : 0 <= x / 2 ^ (precision f + exponent_bits f) <= 1).
  { rewrite ES. split; [apply Z.div_pos; nia|]. apply Z.lt_succ_r. apply Z.div_lt_upper_bound; nia. }
  exists (x / 2 ^ (precision f + exponent_bits f)), (expo f x), (frac f x).
  split; [exact Rs|]. split; [lia|]. split; [lia|]. intros draw W. rewrite finite_float_bits by exact W. split.
  - intros E.
    destruct (split_fields f (draw 0%nat 0 1) (draw 1%nat 0 (2 ^ exponent_bits f - 2)) (draw 2%nat 0 (2 ^ precision f - 1))) as (_ & _ & A & B & C);
      [apply W; lia | apply W; lia | apply W; lia |].
    rewrite E in A, B, C. repeat split; symmetry; assumption.
  - intros (-> & -> & ->). unfold expo, frac. rewrite ES, <- Z.div_div by lia.
    pose proof (Z.div_mod x (2 ^ precision f) ltac:(lia)) as D1. pose proof (Z.div_mod (x / 2 ^ precision f) (2 ^ exponent_bits f) ltac:(lia)) as D2.
    rewrite (Z.mul_comm (x / 2 ^ precision f / _)), <- D2, Z.mul_comm. lia.
Qed.

(** ** A number with a given number of digits *)
Definition from_of (n : Z) : Z := if 1 <? n then 10 ^ (n - 2) else 0.
Definition to_of (n : Z) : Z := if 1 <? n then 10 ^ (n - 1) - 1 else 9.

Lemma upto a n (P : Z -> bool) : forallb (fun i => P (a + Z.of_nat i)) (seq 0 n) = true -> forall x, a <= x < a + Z.of_nat n -> P x = true.
Proof.
  intros H x Hx. rewrite forallb_forall in H. replace x with (a + Z.of_nat (Z.to_nat (x - a))) by lia.
  apply H. apply in_seq. lia.
Qed.
Lemma bounds_ok f n : 1 <= n <= max_digits f -> bounds f n = Ok (from_of n, to_of n).
Proof.
  intros Hn.
  assert (H : (match bounds f n with Ok (a, b) => (a =? from_of n) && (b =? to_of n) | _ => false end) = true).
  { apply (upto 1 (Z.to_nat (max_digits f)) (fun n => match bounds f n with Ok (a, b) => (a =? from_of n) && (b =? to_of n) | _ => false end));
      [destruct f; vm_compute; reflexivity | destruct f; cbn [max_digits Z.to_nat Pos.to_nat] in *; lia]. }
  destruct (bounds f n) as [[a b]| | |]; try discriminate. apply andb_true_iff in H. destruct H as [H1 H2].
  apply Z.eqb_eq in H1, H2. subst. reflexivity.
Qed.
Lemma fits f n : 1 <= n <= max_digits f -> 10 ^ n <= 2 ^ (extended_precision f - 1).
Proof.
  intros Hn. apply Z.le_trans with (10 ^ max_digits f); [apply Z.pow_le_mono_r; lia | destruct f; vm_compute; discriminate].
Qed.
Lemma signed_ok f v : - 2 ^ (extended_precision f - 1) <= v < 2 ^ (extended_precision f - 1) -> signed_int f v = Ok v.
Proof.
  intros Hv. destruct f; cbn [signed_int]; unfold i32, i64.
  - change (extended_precision Binary32 - 1) with 31 in Hv. destruct (Z.leb_spec (- 2 ^ 31) v); [|lia]. destruct (Z.ltb_spec v (2 ^ 31)); [reflexivity | lia].
  - change (extended_precision Binary64 - 1) with 63 in Hv. destruct (Z.leb_spec (- 2 ^ 63) v); [|lia]. destruct (Z.ltb_spec v (2 ^ 63)); [reflexivity | lia].
Qed.

Open Scope R_scope.
Lemma lowest f : bpow radix2 (emin f + prec f - 1) <= bpow radix10 (min_exponent10 f).
Proof.
  destruct f; cbn [emin prec min_exponent10].
  - change (-149 + 24 - 1)%Z with (-(126))%Z. change (-37)%Z with (-(37))%Z. rewrite !bpow_opp. apply Rinv_le; [apply bpow_gt_0|].
    rewrite <- !IZR_Zpower by discriminate. apply IZR_le. vm_compute. discriminate.
  - change (-1074 + 53 - 1)%Z with (-(1022))%Z. change (-307)%Z with (-(307))%Z. rewrite !bpow_opp. apply Rinv_le; [apply bpow_gt_0|].
    rewrite <- !IZR_Zpower by discriminate. apply IZR_le. vm_compute. discriminate.
Qed.
Lemma decimal_above f n s e : (0 < s)%Z -> digits s = n -> (min_exponent10 f - (n - 1) <= e)%Z -> bpow radix2 (emin f + prec f - 1) <= decimal s e.
Proof.
  intros Hs Hd He. pose proof (Shortest.digits_bounds s e Hs) as [B _]. eapply Rle_trans; [apply lowest|].
  eapply Rle_trans; [|exact B]. apply bpow_le. lia.
Qed.
Lemma decimal_neg s e : decimal (- s) e = - decimal s e.
Proof. unfold decimal. apply F2R_Zopp. Qed.
Lemma decimal_abs s e : Rabs (decimal s e) = decimal (Z.abs s) e.
Proof. unfold decimal. symmetry. apply F2R_Zabs. Qed.
Lemma decimal_zero e : decimal 0 e = 0.
Proof. apply F2R_0. Qed.
Lemma read_zero f m : read f m 0 = 0.
Proof. unfold read. apply round_0. apply ReadsBack.valid_reading. Qed.
Lemma normal_format f : generic_format radix2 (FLT_exp (emin f) (prec f)) (bpow radix2 (emin f + prec f - 1)).
Proof. apply generic_format_bpow. unfold FLT_exp. destruct f; cbn; lia. Qed.
Lemma read_nonzero f m v : bpow radix2 (emin f + prec f - 1) <= Rabs v -> read f m v <> 0.
Proof.
  intros H E. unfold read in E. pose proof (ReadsBack.valid_reading m) as W.
  assert (Hp : (0 < prec f)%Z) by (destruct f; reflexivity).
  pose proof (FLT_exp_valid (emin f) (prec f) (prec_gt_0_ := Hp)) as V.
  pose proof (abs_round_ge_generic radix2 (FLT_exp (emin f) (prec f)) (reading m) _ _ (normal_format f) H) as A.
  rewrite E, Rabs_R0 in A. pose proof (bpow_gt_0 radix2 (emin f + prec f - 1)). lra.
Qed.
Close Scope R_scope.

Lemma sig_digits n s d : 2 <= n -> 10 ^ (n - 2) <= s <= 10 ^ (n - 1) - 1 -> 1 <= d <= 9 -> 10 ^ (n - 1) < s * 10 + d < 10 ^ n /\ digits (s * 10 + d) = n.
Proof.
  intros Hn Hs Hd. assert (E1 : 10 ^ (n - 1) = 10 * 10 ^ (n - 2)) by (rewrite <- Z.pow_succ_r by lia; f_equal; lia).
  assert (E2 : 10 ^ n = 10 * 10 ^ (n - 1)) by (rewrite <- Z.pow_succ_r by lia; f_equal; lia).
  split; [lia|]. apply Chars.digits_unique; lia.
Qed.
Lemma one_digit s : 1 <= s <= 9 -> digits s = 1.
Proof. intros H. apply Chars.digits_unique; cbn; lia. Qed.
Lemma small_digits s : 0 < s -> digits s = 1 -> s <= 9.
Proof. intros Hs Hd. pose proof (Chars.digits_bounds s Hs) as [_ B]. rewrite Hd in B. cbn in B. lia. Qed.

(** the check that rejects numbers with a shorter decimal *)
Definition accepted (cfg : config) (f : fmt) (n x : Z) : outcome (option Z) :=
  roundtrip <- grisu_exact cfg f false nearest_to_even do_not_care assert_finite x ;;
  t <- signed_int f (from_of n * 10) ;;
  Ok (if negb (from_of n =? 0) && (fp_significand roundtrip <=? wrap (extended_precision f) t) then None else Some x).

Lemma threshold f n : 2 <= n <= max_digits f ->
  (from_of n =? 0) = false /\ signed_int f (from_of n * 10) = Ok (10 ^ (n - 1)) /\ wrap (extended_precision f) (10 ^ (n - 1)) = 10 ^ (n - 1).
Proof.
  intros Hn. unfold from_of. destruct (Z.ltb_spec 1 n); [|lia].
  pose proof (fits f (n - 1) ltac:(lia)) as F. assert (P : 0 < 10 ^ (n - 2)) by (apply Z.pow_pos_nonneg; lia).
  assert (E1 : 10 ^ (n - 2) * 10 = 10 ^ (n - 1)) by (rewrite Z.mul_comm, <- Z.pow_succ_r by lia; f_equal; lia).
  assert (G : 2 ^ (extended_precision f - 1) < 2 ^ extended_precision f) by (destruct f; vm_compute; reflexivity).
  split; [apply Z.eqb_neq; lia|]. rewrite E1. 
  assert (L : 10 ^ (n - 1) < 2 ^ (extended_precision f - 1)).
  { pose proof (fits f n ltac:(lia)) as F2. assert (E2 : 10 ^ n = 10 * 10 ^ (n - 1)) by (rewrite <- Z.pow_succ_r by lia; f_equal; lia). lia. }
  split; [apply signed_ok; lia | unfold wrap; apply Z.mod_small; lia].
Qed.

Lemma signed_pos f x r : signed f x r = cond_Zopp (negative f x) (fp_significand r).
Proof. reflexivity. Qed.

Lemma reads_nonzero f m x s e : input f x -> reads_back f m x s e -> s <> 0.
Proof. intros (_ & _ & N) H E. subst s. unfold reads_back in H. rewrite decimal_zero, read_zero in H. congruence. Qed.

Lemma digits_abs s : digits (Z.abs s) = digits s.
Proof. unfold digits. apply Zdigits_abs. Qed.

Lemma accepted_nonzero cfg f n x : 1 <= n <= max_digits f -> input f x ->
  (exists s e, reads_back f nearest_to_even x s e /\ digits s = n) ->
  (accepted cfg f n x = Ok None /\ ~ needs_digits f x n) \/ (accepted cfg f n x = Ok (Some x) /\ needs_digits f x n).
Proof.
  intros Hn Hin (s & e & Hs & Hd). unfold accepted.
  destruct (nearest_shortest cfg f false nearest_to_even do_not_care assert_finite x Hin eq_refl) as (r & E & RB & Sh).
  destruct (ranges cfg f false nearest_to_even do_not_care assert_finite x Hin eq_refl) as (r' & E' & Hr & _).
  destruct (no_trailing_zero cfg f false nearest_to_even do_not_care assert_finite x Hin eq_refl) as (r'' & E'' & Ht).
  rewrite E in E', E''. assert (r' = r) by congruence. assert (r'' = r) by congruence. subst r' r''. clear E' E''.
  rewrite E. cbn [bind]. pose proof (Sh s e Hs) as Hle. rewrite Hd in Hle. pose proof (Chars.digits_bounds _ Hr) as [D1 D2].
  assert (DS : digits (signed f x r) = digits (fp_significand r)) by apply Main.digits_signed.
  assert (Y : digits (fp_significand r) = n -> needs_digits f x n).
  { intros Q. split; [exists (signed f x r), (fp_exponent r); split; [exact RB | congruence]|].
    intros s' e' H. rewrite <- Q. apply (Sh s' e' H). }
  assert (N : digits (fp_significand r) < n -> ~ needs_digits f x n).
  { intros Q [_ H]. specialize (H _ _ RB). lia. }
  destruct (Z.eq_dec n 1) as [N1|N1].
  - rewrite N1 in *. change (from_of 1) with 0. change (0 * 10) with 0.
    rewrite signed_ok by (destruct f; (split; [discriminate | reflexivity])). cbn [bind Z.eqb negb andb].
    right. split; [reflexivity | apply Y; lia].
  - destruct (threshold f n ltac:(lia)) as (T1 & T2 & T3). rewrite T1, T2. cbn [bind negb andb]. rewrite T3.
    destruct (Z.leb_spec (fp_significand r) (10 ^ (n - 1))) as [L|L]; [left | right].
    + split; [reflexivity|]. apply N. destruct (Z.eq_dec (digits (fp_significand r)) n) as [Q|Q]; [exfalso | lia].
      rewrite Q in D2. assert (Q' : fp_significand r = 10 ^ (n - 1)) by lia. apply Ht. rewrite Q'.
      replace (n - 1) with (Z.succ (n - 2)) by lia. rewrite Z.pow_succ_r, Z.mul_comm by lia. apply Z.mod_mul. discriminate.
    + split; [reflexivity|]. apply Y. destruct (Z.lt_ge_cases (digits (fp_significand r)) n) as [Q|Q]; [exfalso | lia].
      assert (10 ^ digits (fp_significand r) <= 10 ^ (n - 1)) by (apply Z.pow_le_mono_r; lia). lia.
Qed.

Lemma zero_bits f x : pattern f x -> finite f x = true -> value f x = 0%R -> x = 0 \/ x = 2 ^ (width f - 1).
Proof.
  intros Px Fx V. assert (Hx : 0 <= x < 2 ^ extended_precision f) by (destruct f; exact Px).
  assert (Z0 : is_nonzero f x = false).
  { destruct (is_nonzero f x) eqn:Q; [|reflexivity]. apply (nonzero_model f x Px Fx) in Q. contradiction. }
  rewrite is_nonzero_fields in Z0 by exact Hx. apply negb_false_iff, andb_true_iff in Z0. destruct Z0 as [Z1 Z2].
  apply Z.eqb_eq in Z1, Z2. unfold expo in Z1. unfold frac in Z2. pose proof (pp f) as P1. pose proof (pe f) as P2.
  assert (EW : 2 ^ extended_precision f = 2 * (2 ^ exponent_bits f * 2 ^ precision f)) by (destruct f; reflexivity).
  assert (ES : 2 ^ (width f - 1) = 2 ^ precision f * 2 ^ exponent_bits f) by (destruct f; reflexivity). rewrite EW in Hx. rewrite ES.
  pose proof (Z.div_mod x (2 ^ precision f) ltac:(lia)) as D1. pose proof (Z.div_mod (x / 2 ^ precision f) (2 ^ exponent_bits f) ltac:(lia)) as D2.
  rewrite Z1 in D2. rewrite Z2 in D1. set (q := x / 2 ^ precision f / 2 ^ exponent_bits f) in *.
  assert (Q : 0 <= q < 2) by (unfold q; rewrite Z.div_div by lia; split; [apply Z.div_pos; nia | apply Z.div_lt_upper_bound; nia]).
  rewrite D2 in D1. assert (K : q = 0 \/ q = 1) by lia. destruct K as [-> | ->]; [left | right]; lia.
Qed.
Lemma accepted_zero cfg f x : pattern f x -> finite f x = true -> value f x = 0%R -> accepted cfg f 1 x = Ok (Some x).
Proof.
  intros Px Fx V. destruct (zero_bits f x Px Fx V) as [-> | ->]; destruct f, cfg as [[] [] [] []]; vm_compute; reflexivity.
Qed.

Lemma attempt_split draw sto cfg f n sign i : 1 <= n <= max_digits f -> within_bounds draw -> sign = 1 \/ sign = -1 ->
  exists s e, attempt draw sto cfg f n sign (from_of n) (to_of n) i = match sto (sign * s) e with None => Ok None | Some x => accepted cfg f n x end /\
  min_exponent10 f - (n - 1) <= e <= max_exponent10 f - (n - 1) /\ (0 < s /\ digits s = n \/ s = 0 /\ n = 1) /\
  e = draw (S (S i)) (min_exponent10 f - (n - 1)) (max_exponent10 f - (n - 1)) /\
  s = if 1 <? n then draw i (10 ^ (n - 2)) (10 ^ (n - 1) - 1) * 10 + draw (S i) 1 9 else draw i 0 9.
Proof.
  intros Hn W Hsign. set (s := if 1 <? n then draw i (10 ^ (n - 2)) (10 ^ (n - 1) - 1) * 10 + draw (S i) 1 9 else draw i 0 9).
  set (e := draw (S (S i)) (min_exponent10 f - (n - 1)) (max_exponent10 f - (n - 1))). exists s, e.
  pose proof (fits f n Hn) as F. pose proof (W (S i) 1 9 ltac:(lia)) as W1.
  assert (We : min_exponent10 f - (n - 1) <= e <= max_exponent10 f - (n - 1)) by (apply W; destruct f; cbn [min_exponent10 max_exponent10]; lia).
  assert (S1 : (0 < s /\ digits s = n \/ s = 0 /\ n = 1) /\ s < 10 ^ n /\
    (if 1 <? n then s0 <- signed_int f (draw i (from_of n) (to_of n) * 10) ;; signed_int f (s0 + draw (S i) 1 9) else Ok (draw i (from_of n) (to_of n))) = Ok s).
  { unfold s, from_of, to_of. destruct (Z.ltb_spec 1 n) as [L|L].
    - assert (E1 : 10 ^ (n - 1) = 10 * 10 ^ (n - 2)) by (rewrite <- Z.pow_succ_r by lia; f_equal; lia).
      assert (P : 0 < 10 ^ (n - 2)) by (apply Z.pow_pos_nonneg; lia).
      pose proof (W i (10 ^ (n - 2)) (10 ^ (n - 1) - 1) ltac:(lia)) as W0. destruct (sig_digits n _ _ ltac:(lia) W0 W1) as [B D].
      split; [left; split; [lia | exact D]|]. split; [lia|].
      rewrite signed_ok by lia. cbn [bind]. rewrite signed_ok by lia. reflexivity.
    - assert (n = 1) by lia. subst n. pose proof (W i 0 9 ltac:(lia)) as W0. split; [|split; [change (10 ^ 1) with 10; lia | reflexivity]].
      destruct (Z.eq_dec (draw i 0 9) 0) as [Q|Q]; [right; split; [exact Q | reflexivity] | left]. split; [lia | apply one_digit; lia]. }
  destruct S1 as (S1 & S2 & S3). assert (S0 : 0 <= s) by lia.
  split; [|split; [exact We | split; [exact S1 | split; reflexivity]]].
  unfold attempt. rewrite S3. cbn [bind]. rewrite signed_ok by lia. cbn [bind]. fold e. destruct (sto (sign * s) e) as [x|]; reflexivity.
Qed.

Lemma attempt_ok draw sto cfg f n sign i : 1 <= n <= max_digits f -> within_bounds draw -> correct_reader f sto -> sign = 1 \/ sign = -1 ->
  attempt draw sto cfg f n sign (from_of n) (to_of n) i = Ok None \/
  exists x, attempt draw sto cfg f n sign (from_of n) (to_of n) i = Ok (Some x) /\ pattern f x /\ finite f x = true /\
  (needs_digits f x n \/ n = 1 /\ value f x = 0%R).
Proof.
  intros Hn W C Hsign. destruct (attempt_split draw sto cfg f n sign i Hn W Hsign) as (s & e & E & He & Hs & _). rewrite E.
  specialize (C (sign * s) e). destruct (sto (sign * s) e) as [x|]; [|left; reflexivity]. destruct C as (Px & Fx & V).
  destruct Hs as [[Hs Hd]|[-> ->]].
  - assert (A : Z.abs (sign * s) = s) by lia.
    assert (N : value f x <> 0%R).
    { rewrite V. apply read_nonzero. rewrite decimal_abs, A. apply (decimal_above f n); [exact Hs | exact Hd | lia]. }
    destruct (accepted_nonzero cfg f n x Hn) as [[Q _]|[Q K]].
    + split; [exact Px | split; [exact Fx | exact N]].
    + exists (sign * s), e. split; [unfold reads_back; symmetry; exact V|]. rewrite <- digits_abs, A. exact Hd.
    + left. exact Q.
    + right. exists x. split; [exact Q|]. split; [exact Px|]. split; [exact Fx|]. left. exact K.
  - rewrite Z.mul_0_r, decimal_zero, read_zero in V. right. exists x. split; [apply accepted_zero; assumption|].
    split; [exact Px|]. split; [exact Fx|]. right. split; [reflexivity | exact V].
Qed.
Lemma attempts_ok draw sto cfg f n sign turns i : 1 <= n <= max_digits f -> within_bounds draw -> correct_reader f sto -> sign = 1 \/ sign = -1 ->
  attempts draw sto cfg f n sign (from_of n) (to_of n) turns i = Diverged \/
  exists x, attempts draw sto cfg f n sign (from_of n) (to_of n) turns i = Ok x /\ pattern f x /\ finite f x = true /\
  (needs_digits f x n \/ n = 1 /\ value f x = 0%R).
Proof.
  intros Hn W C Hsign. revert i. induction turns as [|t IH]; intros i; [left; reflexivity|]. cbn [attempts].
  destruct (attempt_ok draw sto cfg f n sign i Hn W C Hsign) as [->|(x & -> & H)]; cbn [bind]; [apply IH|].
  right. exists x. split; [reflexivity | exact H].
Qed.
Lemma start draw sto cfg f turns n : 1 <= n <= max_digits f ->
  float_with_given_digits draw sto cfg f turns n = attempts draw sto cfg f n (if draw 0%nat 0 1 =? 0 then 1 else -1) (from_of n) (to_of n) turns 1.
Proof.
  intros Hn. unfold float_with_given_digits. rewrite !cassert_ok by (apply Z.leb_le; destruct f; cbn [max_digits] in Hn; lia).
  cbn [bind]. rewrite bounds_ok by exact Hn. reflexivity.
Qed.
Lemma given_digits draw sto cfg f turns n : 1 <= n <= max_digits f -> within_bounds draw -> correct_reader f sto ->
  float_with_given_digits draw sto cfg f turns n = Diverged \/
  exists x, float_with_given_digits draw sto cfg f turns n = Ok x /\ pattern f x /\ finite f x = true /\
  (needs_digits f x n \/ n = 1 /\ value f x = 0%R).
Proof.
  intros Hn W C. rewrite start by exact Hn. apply attempts_ok; try assumption. destruct (_ =? 0); [left | right]; reflexivity.
Qed.

(** every number whose shortest decimal is in reach comes out for some draws *)
Lemma value_small f x : finite f x = true -> (Rabs (value f x) < bpow radix2 (emax f))%R.
Proof.
  unfold finite, value. destruct f; cbn [emax]; intros _; apply Binary.abs_B2R_lt_emax.
Qed.
Lemma reachable sto cfg f n x s e turns : 1 <= n <= max_digits f -> correct_reader f sto -> input f x ->
  needs_digits f x n -> reads_back f nearest_to_even x s e -> digits s = n ->
  min_exponent10 f <= e + n - 1 <= max_exponent10 f -> (0 < turns)%nat ->
  exists draw, within_bounds draw /\ float_with_given_digits draw sto cfg f turns n = Ok x.
Proof.
  intros Hn C Hin ND RB Hd He Ht. pose proof (reads_nonzero _ _ _ _ _ Hin RB) as S0.
  set (v := Z.abs s). assert (Hv : 0 < v) by (unfold v; lia). assert (Dv : digits v = n) by (unfold v; rewrite digits_abs; exact Hd).
  set (pick := fun i : nat => match i with O => if s <? 0 then 1 else 0 | 1%nat => if 1 <? n then v / 10 else v | 2%nat => v mod 10 | _ => e end).
  set (draw := fun i a b => if (a <=? pick i) && (pick i <=? b) then pick i else a).
  assert (W : within_bounds draw).
  { intros i a b Hab. unfold draw. destruct (Z.leb_spec a (pick i)), (Z.leb_spec (pick i) b); cbn [andb]; lia. }
  assert (Pk : forall i a b, a <= pick i <= b -> draw i a b = pick i).
  { intros i a b H. unfold draw. destruct (Z.leb_spec a (pick i)), (Z.leb_spec (pick i) b); cbn [andb]; lia. }
  exists draw. split; [exact W|]. rewrite start by exact Hn. destruct turns as [|t]; [lia|]. cbn [attempts].
  set (sign := if draw 0%nat 0 1 =? 0 then 1 else -1).
  assert (Es : sign = if s <? 0 then -1 else 1).
  { unfold sign. rewrite Pk by (cbn [pick]; destruct (s <? 0); lia). cbn [pick]. destruct (s <? 0); reflexivity. }
  assert (Hsign : sign = 1 \/ sign = -1) by (rewrite Es; destruct (s <? 0); [right | left]; reflexivity).
  destruct (attempt_split draw sto cfg f n sign 1 Hn W Hsign) as (s1 & e1 & E & He1 & _ & Ee & Ed). rewrite E.
  rewrite Pk in Ee by (cbn [pick]; lia). cbn [pick] in Ee. subst e1.
  pose proof (Chars.digits_bounds v Hv) as [_ Bv]. rewrite Dv in Bv.
  assert (Hlast : 1 < n -> v mod 10 <> 0).
  { intros L Q. pose proof (Z.div_mod v 10 ltac:(lia)) as D. rewrite Q in D.
    assert (E2 : 10 ^ (n - 1) = 10 * 10 ^ (n - 2)) by (rewrite <- Z.pow_succ_r by lia; f_equal; lia).
    assert (E3 : 10 ^ n = 10 * 10 ^ (n - 1)) by (rewrite <- Z.pow_succ_r by lia; f_equal; lia).
    destruct ND as [_ Min]. set (s' := if s <? 0 then - (v / 10) else v / 10).
    assert (S' : s = s' * 10) by (unfold s', v in *; destruct (Z.ltb_spec s 0); lia).
    assert (H : n <= digits s').
    { apply (Min s' (e + 1)). unfold reads_back in RB |- *. rewrite <- RB. f_equal. rewrite S'. unfold decimal.
      rewrite (F2R_change_exp radix10 e s' (e + 1)) by lia. do 2 f_equal. change (Z.pos (10)) with 10. replace (e + 1 - e) with 1 by lia. reflexivity. }
    assert (D' : digits s' = n - 1).
    { rewrite <- digits_abs. apply Chars.digits_unique; [lia|]. replace (n - 1 - 1) with (n - 2) by lia. unfold s'. destruct (s <? 0); lia. }
    lia. }
  assert (E1 : s1 = v).
  { rewrite Ed. destruct (Z.ltb_spec 1 n) as [L|L].
    - assert (E2 : 10 ^ (n - 1) = 10 * 10 ^ (n - 2)) by (rewrite <- Z.pow_succ_r by lia; f_equal; lia).
      assert (E3 : 10 ^ n = 10 * 10 ^ (n - 1)) by (rewrite <- Z.pow_succ_r by lia; f_equal; lia).
      pose proof (Z.div_mod v 10 ltac:(lia)) as D. pose proof (Z.mod_pos_bound v 10 ltac:(lia)) as M. specialize (Hlast L).
      assert (K : (1 <? n) = true) by (apply Z.ltb_lt; exact L).
      rewrite !Pk; cbn [pick]; rewrite ?K; lia.
    - assert (N1 : n = 1) by lia. assert (K : (1 <? n) = false) by (apply Z.ltb_ge; exact L). rewrite N1 in Bv. change (10 ^ 1) with 10 in Bv.
      rewrite Pk; unfold pick; rewrite ?K; lia. }
  clear Ed. subst s1. assert (E2 : sign * v = s) by (rewrite Es; unfold v; destruct (Z.ltb_spec s 0); lia). rewrite E2.
  specialize (C s e). unfold reads_back in RB. destruct (sto s e) as [y|].
  - destruct C as (Py & Fy & V). destruct Hin as (Px & Fx & N). assert (x = y) by (apply (value_inj f); congruence). subst y.
    destruct (accepted_nonzero cfg f n x Hn) as [[_ Q]|[Q K]]; [split; [exact Px | split; assumption] | exists s, e; split; [exact RB | exact Hd] | contradiction |].
    rewrite Q. reflexivity.
  - exfalso. rewrite RB in C. destruct C as [C|C].
    + pose proof (value_small f x (proj1 (proj2 Hin))). lra.
    + rewrite decimal_abs in C. fold v in C. pose proof (decimal_above f n v e Hv Dv ltac:(lia)). lra.
Qed.
