(** * The integer logarithm floors against real logarithms *)

From Coq Require Import ZArith Reals Lra Lia Bool.
From Flocq Require Import Core.
From Verif Require Import Machine Model Arith.
Open Scope R_scope.

(** Two neighbouring fractions around both a real and its approximation c / D. *)
Section Gap.
Variables (p q p' q' N c D : Z) (theta : R).
Hypothesis (Hq : (0 < q)%Z) (Hq' : (0 < q')%Z) (Hdet : (p' * q - p * q' = 1)%Z) (HN : (N < q + q')%Z) (HD : (0 < D)%Z).
Hypothesis (L1 : IZR p < theta * IZR q) (L2 : theta * IZR q' < IZR p').
Hypothesis (C1 : (p * D < c * q)%Z) (C2 : (c * q' < p' * D)%Z).

Lemma no_between n j : (0 < n <= N)%Z -> (n * p < j * q)%Z -> (j * q' < n * p')%Z -> False.
Proof using Hq Hq' Hdet HN. intros Hn A B. assert (q * (n * p' - j * q') + q' * (j * q - n * p) = n)%Z by nia. nia. Qed.

Lemma above n j : (0 < n)%Z -> IZR n * theta < IZR j -> (n * p < j * q)%Z.
Proof using Hq L1.
  intros Hn H. apply lt_IZR. rewrite !mult_IZR. assert (0 < IZR n) by (apply IZR_lt; lia). assert (0 < IZR q) by (apply IZR_lt; lia). nra.
Qed.
Lemma below n j : (0 < n)%Z -> IZR j < IZR n * theta -> (j * q' < n * p')%Z.
Proof using Hq' L2.
  intros Hn H. apply lt_IZR. rewrite !mult_IZR. assert (0 < IZR n) by (apply IZR_lt; lia). assert (0 < IZR q') by (apply IZR_lt; lia). nra.
Qed.
Lemma above' n j : (0 < n)%Z -> IZR n * theta <= IZR j -> (n * p < j * q)%Z.
Proof using Hq L1.
  intros Hn H. apply lt_IZR. rewrite !mult_IZR. assert (0 < IZR n) by (apply IZR_lt; lia). assert (0 < IZR q) by (apply IZR_lt; lia). nra.
Qed.
Lemma below' n j : (0 < n)%Z -> IZR j <= IZR n * theta -> (j * q' < n * p')%Z.
Proof using Hq' L2.
  intros Hn H. apply lt_IZR. rewrite !mult_IZR. assert (0 < IZR n) by (apply IZR_lt; lia). assert (0 < IZR q') by (apply IZR_lt; lia). nra.
Qed.

Lemma gap_floor e : (- N <= e <= N)%Z -> Zfloor (IZR e * theta) = (e * c / D)%Z.
Proof using All.
  intros He. apply Zfloor_imp.
  pose proof (Z.div_mod (e * c) D ltac:(lia)) as DM. pose proof (Z.mod_pos_bound (e * c) D HD) as MB.
  set (j := (e * c / D)%Z) in *. set (r := (e * c mod D)%Z) in *.
  destruct (Z.lt_trichotomy e 0) as [Neg|[Zero|Pos]].
  - assert (En : IZR e = - IZR (- e)) by (rewrite opp_IZR; ring). rewrite En. split.
    + apply Rnot_lt_le. intros H. assert (G : IZR (- j) < IZR (- e) * theta) by (rewrite (opp_IZR j); lra).
      apply (no_between (- e) (- j)); [lia | nia | apply below; [lia | exact G]].
    + apply Rnot_le_lt. intros H. assert (G : IZR (- e) * theta <= IZR (- (j + 1))) by (rewrite (opp_IZR (j + 1)); lra).
      apply (no_between (- e) (- (j + 1))); [lia | apply above'; [lia | exact G] | nia].
  - subst e. assert (Ej : j = 0%Z) by nia. rewrite Ej. simpl. lra.
  - split.
    + apply Rnot_lt_le. intros H. apply (no_between e j); [lia | apply above; [lia | exact H] | nia].
    + apply Rnot_le_lt. intros H. apply (no_between e (j + 1)); [lia | nia | apply below'; [lia | exact H]].
Qed.
End Gap.

(** ** Bounds of logarithms from integer powers *)
Lemma ln_pow_lt a b p q : (0 < a)%Z -> (0 < b)%Z -> (0 <= p)%Z -> (0 <= q)%Z -> (a ^ p < b ^ q)%Z ->
  IZR p * ln (IZR a) < IZR q * ln (IZR b).
Proof.
  intros Ha Hb Hp Hq H. rewrite <- (Z2Nat.id p), <- (Z2Nat.id q), <- !INR_IZR_INZ by assumption.
  assert (0 < IZR a) by (apply IZR_lt; lia). assert (0 < IZR b) by (apply IZR_lt; lia).
  rewrite <- !ln_pow by assumption. apply ln_increasing; [apply pow_lt; assumption|].
  rewrite !pow_IZR, !Z2Nat.id by assumption. apply IZR_lt. exact H.
Qed.
Lemma ln_pos a : (1 < a)%Z -> 0 < ln (IZR a).
Proof. intros H. rewrite <- ln_1. apply ln_increasing; [lra | apply IZR_lt; lia]. Qed.

Lemma quot_lt a b p q : (1 < a)%Z -> (1 < b)%Z -> (0 <= p)%Z -> (0 <= q)%Z -> (a ^ p < b ^ q)%Z ->
  IZR p < ln (IZR b) / ln (IZR a) * IZR q.
Proof.
  intros Ha Hb Hp Hq H. pose proof (ln_pow_lt a b p q ltac:(lia) ltac:(lia) Hp Hq H) as L. pose proof (ln_pos a Ha) as P.
  apply Rmult_lt_reg_r with (1 := P). replace (ln (IZR b) / ln (IZR a) * IZR q * ln (IZR a)) with (IZR q * ln (IZR b)); [exact L | field; lra].
Qed.
Lemma quot_gt a b p q : (1 < a)%Z -> (1 < b)%Z -> (0 <= p)%Z -> (0 <= q)%Z -> (b ^ q < a ^ p)%Z ->
  ln (IZR b) / ln (IZR a) * IZR q < IZR p.
Proof.
  intros Ha Hb Hp Hq H. pose proof (ln_pow_lt b a q p ltac:(lia) ltac:(lia) Hq Hp H) as L. pose proof (ln_pos a Ha) as P.
  apply Rmult_lt_reg_r with (1 := P). replace (ln (IZR b) / ln (IZR a) * IZR q * ln (IZR a)) with (IZR q * ln (IZR b)); [exact L | field; lra].
Qed.

(** ** Powers of five in scaled form, rounded up or down to 64 bits *)
Definition trim (up : bool) (ms : Z * Z) : Z * Z :=
  let '(m, s) := ms in let t := Z.max 0 (Z.log2 m - 64) in
  (Z.shiftr m t + (if up then if 0 <? t then 1 else 0 else 0), s + t)%Z.
Fixpoint scaled5 (up : bool) (p : positive) : Z * Z :=
  match p with
  | xH => (5, 0)%Z
  | xO p => let '(m, s) := scaled5 up p in trim up (m * m, 2 * s)%Z
  | xI p => let '(m, s) := scaled5 up p in trim up (5 * (m * m), 2 * s)%Z
  end.

Lemma trim_spec up m s : (0 <= m)%Z -> (0 <= s)%Z -> let '(m', s') := trim up (m, s) in
  (0 <= m' /\ 0 <= s' /\ if up then m * 2 ^ s <= m' * 2 ^ s' else m' * 2 ^ s' <= m * 2 ^ s)%Z.
Proof.
  intros Hm Hs. unfold trim. set (t := Z.max 0 (Z.log2 m - 64)). assert (T : (0 <= t)%Z) by lia.
  rewrite shiftr_div by exact T. assert (P : (0 < 2 ^ t)%Z) by (apply Z.pow_pos_nonneg; lia).
  assert (P2 : (0 < 2 ^ s)%Z) by (apply Z.pow_pos_nonneg; lia).
  pose proof (Z.div_mod m (2 ^ t) ltac:(lia)) as DM. pose proof (Z.mod_pos_bound m (2 ^ t) P) as MB.
  assert (0 <= m / 2 ^ t)%Z by (apply Z.div_pos; lia).
  rewrite Z.pow_add_r by lia. destruct up; [destruct (Z.ltb_spec 0 t)|]; (split; [lia|]; split; [lia|]); try nia.
  assert (E : t = 0%Z) by lia. rewrite E, Z.div_1_r. lia.
Qed.
Lemma scaled5_spec up p : let '(m, s) := scaled5 up p in
  (0 <= m /\ 0 <= s /\ if up then 5 ^ Zpos p <= m * 2 ^ s else m * 2 ^ s <= 5 ^ Zpos p)%Z.
Proof.
  induction p as [p IH|p IH|]; cbn [scaled5].
  - destruct (scaled5 up p) as [m s]. destruct IH as (A & B & C).
    pose proof (trim_spec up (5 * (m * m)) (2 * s) ltac:(nia) ltac:(lia)) as T.
    destruct (trim up (5 * (m * m), 2 * s)%Z) as [m' s']. destruct T as (A' & B' & C').
    split; [exact A'|]. split; [exact B'|].
    assert (E : (5 ^ Z.pos p~1 = 5 * (5 ^ Z.pos p * 5 ^ Z.pos p))%Z).
    { replace (Z.pos p~1) with (1 + (Z.pos p + Z.pos p))%Z by lia. rewrite !Z.pow_add_r by lia. reflexivity. }
    assert (E2 : (2 ^ (2 * s) = 2 ^ s * 2 ^ s)%Z) by (rewrite <- Z.pow_add_r by lia; f_equal; ring).
    assert (0 < 5 ^ Z.pos p)%Z by (apply Z.pow_pos_nonneg; lia). assert (0 < 2 ^ s)%Z by (apply Z.pow_pos_nonneg; lia).
    rewrite E2 in C'. rewrite E. set (x := (5 ^ Z.pos p)%Z) in *. set (y := (2 ^ s)%Z) in *.
    destruct up.
    + apply Z.le_trans with (2 := C'). assert (x * x <= (m * y) * (m * y))%Z by (apply Z.mul_le_mono_nonneg; lia). lia.
    + apply Z.le_trans with (1 := C'). assert ((m * y) * (m * y) <= x * x)%Z by (apply Z.mul_le_mono_nonneg; nia). lia.
  - destruct (scaled5 up p) as [m s]. destruct IH as (A & B & C).
    pose proof (trim_spec up (m * m) (2 * s) ltac:(nia) ltac:(lia)) as T.
    destruct (trim up (m * m, 2 * s)%Z) as [m' s']. destruct T as (A' & B' & C').
    split; [exact A'|]. split; [exact B'|].
    assert (E : (5 ^ Z.pos p~0 = 5 ^ Z.pos p * 5 ^ Z.pos p)%Z).
    { replace (Z.pos p~0) with (Z.pos p + Z.pos p)%Z by lia. rewrite !Z.pow_add_r by lia. reflexivity. }
    assert (E2 : (2 ^ (2 * s) = 2 ^ s * 2 ^ s)%Z) by (rewrite <- Z.pow_add_r by lia; f_equal; ring).
    assert (0 < 5 ^ Z.pos p)%Z by (apply Z.pow_pos_nonneg; lia). assert (0 < 2 ^ s)%Z by (apply Z.pow_pos_nonneg; lia).
    rewrite E2 in C'. rewrite E. set (x := (5 ^ Z.pos p)%Z) in *. set (y := (2 ^ s)%Z) in *.
    destruct up.
    + apply Z.le_trans with (2 := C'). assert (x * x <= (m * y) * (m * y))%Z by (apply Z.mul_le_mono_nonneg; lia). lia.
    + apply Z.le_trans with (1 := C'). assert ((m * y) * (m * y) <= x * x)%Z by (apply Z.mul_le_mono_nonneg; nia). lia.
  - cbn. destruct up; lia.
Qed.
Lemma five_below p q : (let '(m, s) := scaled5 true p in (s <=? q) && (m <? 2 ^ (q - s)))%Z = true -> (5 ^ Zpos p < 2 ^ q)%Z.
Proof.
  intros H. pose proof (scaled5_spec true p) as S. destruct (scaled5 true p) as [m s]. destruct S as (A & B & C).
  apply andb_true_iff in H. rewrite Z.leb_le, Z.ltb_lt in H. destruct H as [H1 H2].
  apply Z.le_lt_trans with (1 := C). replace q with ((q - s) + s)%Z by ring. rewrite Z.pow_add_r by lia.
  apply Z.mul_lt_mono_pos_r; [apply Z.pow_pos_nonneg; lia | exact H2].
Qed.
Lemma five_above p q : (let '(m, s) := scaled5 false p in (s <=? q) && (2 ^ (q - s) <? m))%Z = true -> (2 ^ q < 5 ^ Zpos p)%Z.
Proof.
  intros H. pose proof (scaled5_spec false p) as S. destruct (scaled5 false p) as [m s]. destruct S as (A & B & C).
  apply andb_true_iff in H. rewrite Z.leb_le, Z.ltb_lt in H. destruct H as [H1 H2].
  apply Z.lt_le_trans with (2 := C). replace q with ((q - s) + s)%Z by ring. rewrite Z.pow_add_r by lia.
  apply Z.mul_lt_mono_pos_r; [apply Z.pow_pos_nonneg; lia | exact H2].
Qed.

(** ** The three functions *)
Lemma ln_power r z : (0 < r)%Z -> (0 <= z)%Z -> ln (IZR (r ^ z)) = IZR z * ln (IZR r).
Proof.
  intros Hr Hz. rewrite <- (Z2Nat.id z) by exact Hz. rewrite <- pow_IZR, ln_pow by (apply IZR_lt; exact Hr).
  rewrite INR_IZR_INZ. reflexivity.
Qed.
Lemma ln_bpow (r : radix) e : ln (bpow r e) = IZR e * ln (IZR r).
Proof.
  destruct (Z.le_gt_cases 0 e) as [H|H].
  - rewrite <- IZR_Zpower by exact H. apply ln_power; [apply radix_gt_0 | exact H].
  - replace e with (- - e)%Z by ring. rewrite bpow_opp, ln_Rinv by apply bpow_gt_0. rewrite opp_IZR.
    rewrite <- IZR_Zpower by lia. rewrite ln_power by (apply radix_gt_0 || lia). ring.
Qed.

Definition r10 : radix := Build_radix 10 eq_refl.

Lemma log10_pow2 cfg e : (-1650 <= e <= 1650)%Z -> floor_log10_pow2 cfg e = Ok (Zfloor (ln (bpow radix2 e) / ln 10)).
Proof.
  intros He. unfold floor_log10_pow2, cassert, i32.
  rewrite (proj2 (Z.leb_le _ _) (proj1 He)), (proj2 (Z.leb_le _ _) (proj2 He)). cbn [andb].
  assert (B : ((- 2 ^ 31 <=? e * 315652) && (e * 315652 <? 2 ^ 31))%Z = true).
  { rewrite andb_true_iff, Z.leb_le, Z.ltb_lt. change (2 ^ 31)%Z with 2147483648%Z. lia. }
  rewrite B. rewrite ln_bpow. unfold Rdiv. rewrite Rmult_assoc.
  rewrite (gap_floor 351 1166 146 485 1650 315652 (2 ^ 20) (ln (IZR radix2) * / ln 10)); try reflexivity; try exact He.
  - destruct (cfg_ndebug cfg); cbn [bind]; rewrite shiftr_div by discriminate; reflexivity.
  - apply (quot_lt 10 2); try reflexivity; try discriminate.
  - apply (quot_gt 10 2); try reflexivity; try discriminate.
Qed.

Lemma log2_pow10_value e : (-642 <= e <= 642)%Z -> Z.shiftr (e * 0x35269e) 20 = Zfloor (ln (bpow r10 e) / ln 2).
Proof.
  intros He. rewrite ln_bpow. unfold Rdiv. rewrite Rmult_assoc.
  rewrite (gap_floor 485 146 1651 497 642 0x35269e (2 ^ 20) (ln (IZR r10) * / ln 2)); try reflexivity; try exact He.
  - rewrite shiftr_div by discriminate. reflexivity.
  - apply (quot_lt 2 10); try reflexivity; try discriminate.
  - apply (quot_gt 2 10); try reflexivity; try discriminate.
Qed.
Lemma log2_pow10 cfg e : (-616 <= e <= 616)%Z -> floor_log2_pow10 cfg e = Ok (Zfloor (ln (bpow r10 e) / ln 2)).
Proof.
  intros He. unfold floor_log2_pow10, cassert, i32.
  rewrite (proj2 (Z.leb_le _ _)), (proj2 (Z.leb_le _ _)) by lia. cbn [andb].
  assert (B : ((- 2 ^ 31 <=? e * 3483294) && (e * 3483294 <? 2 ^ 31))%Z = true).
  { rewrite andb_true_iff, Z.leb_le, Z.ltb_lt. change (2 ^ 31)%Z with 2147483648%Z. lia. }
  rewrite B, <- log2_pow10_value by lia. destruct (cfg_ndebug cfg); reflexivity.
Qed.
Lemma log2_pow10_overflow cfg e : (616 < Z.abs e <= 642)%Z -> floor_log2_pow10 cfg e = Undefined.
Proof.
  intros He. unfold floor_log2_pow10, cassert, i32.
  rewrite (proj2 (Z.leb_le _ _)), (proj2 (Z.leb_le _ _)) by lia. cbn [andb].
  assert (B : ((- 2 ^ 31 <=? e * 3483294) && (e * 3483294 <? 2 ^ 31))%Z = false).
  { apply not_true_is_false. rewrite andb_true_iff, Z.leb_le, Z.ltb_lt. change (2 ^ 31)%Z with 2147483648%Z. lia. }
  rewrite B. destruct (cfg_ndebug cfg); reflexivity.
Qed.

Lemma five_1 : (let '(m, s) := scaled5 true 21306 in (s <=? 49471) && (m <? 2 ^ (49471 - s)))%Z = true.
Proof. vm_cast_no_check (eq_refl true). Qed.
Lemma five_2 : (let '(m, s) := scaled5 false 12655 in (s <=? 29384) && (2 ^ (29384 - s) <? m))%Z = true.
Proof. vm_cast_no_check (eq_refl true). Qed.
Lemma five_lt : (5 ^ 21306 < 2 ^ 49471)%Z. Proof. exact (five_below 21306 49471 five_1). Qed.
Lemma five_gt : (2 ^ 29384 < 5 ^ 12655)%Z. Proof. exact (five_above 12655 29384 five_2). Qed.
Lemma log5_lower : IZR 21306 < ln (IZR radix2) * / ln 5 * IZR 49471.
Proof.
  refine (quot_lt 5 2 21306 49471 _ _ _ _ five_lt); [reflexivity | reflexivity | discriminate | discriminate].
Qed.
Lemma log5_upper : ln (IZR radix2) * / ln 5 * IZR 29384 < IZR 12655.
Proof.
  refine (quot_gt 5 2 12655 29384 _ _ _ _ five_gt); [reflexivity | reflexivity | discriminate | discriminate].
Qed.
Lemma log5_pow2 cfg e : (-65536 <= e <= 65536)%Z -> floor_log5_pow2 cfg e = Ok (Zfloor (ln (bpow radix2 e) / ln 5)).
Proof.
  intros He. unfold floor_log5_pow2, cassert, i64.
  rewrite (proj2 (Z.leb_le _ _) (proj1 He)), (proj2 (Z.leb_le _ _) (proj2 He)). cbn [andb].
  assert (B : ((- 2 ^ 63 <=? e * 1849741732) && (e * 1849741732 <? 2 ^ 63))%Z = true).
  { rewrite andb_true_iff, Z.leb_le, Z.ltb_lt. change (2 ^ 63)%Z with 9223372036854775808%Z. lia. }
  rewrite B. rewrite ln_bpow. unfold Rdiv. rewrite Rmult_assoc.
  rewrite (gap_floor 21306 49471 12655 29384 65536 1849741732 (2 ^ 32) (ln (IZR radix2) * / ln 5)); try reflexivity; try exact He.
  - destruct (cfg_ndebug cfg); cbn [bind]; rewrite shiftr_div by discriminate; reflexivity.
  - exact log5_lower.
  - exact log5_upper.
Qed.
