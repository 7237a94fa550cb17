(** * The compact tables of Ryu: proofs, by evaluation for every index and build *)

From Coq Require Import ZArith List Bool Lia.
From Verif Require Import Machine Model RyuTables RyuModel SmallTables SmallModel Arith RyuArith.
Import ListNotations.
Open Scope Z_scope.

Definition joined (r : Z * Z) : Z := snd r * 2 ^ 64 + fst r.
(** two words that make up [n] / [d] + [a] *)
Definition quotient (r : outcome (Z * Z)) (a n d : Z) : bool :=
  match r with
  | Ok (lo, hi) => let q := hi * 2 ^ 64 + lo - a in
      (0 <=? lo) && (lo <? 2 ^ 64) && (0 <=? q) && (q * d <=? n) && (n <? (q + 1) * d)
  | _ => false
  end.
Lemma quotient_ok r a n d : quotient r a n d = true -> let v := n / d + a in r = Ok (v mod 2 ^ 64, v / 2 ^ 64).
Proof.
  destruct r as [[lo hi]| | |]; cbn [quotient]; try discriminate. cbv zeta. intros H. repeat rewrite andb_true_iff in H.
  destruct H as ((((A & B) & C) & D) & E). apply Z.leb_le in A, C, D. apply Z.ltb_lt in B, E.
  set (q := hi * 2 ^ 64 + lo - a) in *. assert (Q : n / d = q) by (symmetry; apply (Z.div_unique n d q (n - d * q)); nia).
  rewrite Q. replace (q + a) with (lo + hi * 2 ^ 64) by (unfold q; lia).
  rewrite Z.mod_add, Z.div_add by lia. rewrite Z.mod_small, Z.div_small by lia. reflexivity.
Qed.
(** (i, 5^i), (i + 1, 5^(i + 1)), ... *)
Fixpoint powers (n : nat) (i p : Z) : list (Z * Z) := match n with O => [] | S n => (i, p) :: powers n (i + 1) (5 * p) end.
Lemma in_powers n : forall i p k, 0 <= i -> p = 5 ^ i -> i <= k < i + Z.of_nat n -> In (k, 5 ^ k) (powers n i p).
Proof.
  induction n as [|n IH]; intros i p k Hi -> Hk; [lia|]. cbn [powers]. destruct (Z.eq_dec k i) as [->|N]; [left; reflexivity|].
  right. apply IH; [lia | rewrite Z.pow_add_r by lia; change (5 ^ 1) with 5; ring | lia].
Qed.

(** ** The two functions without the branches *)
Definition bits (i : Z) : Z := Z.shiftr (i * 1217359) 19 + 1.
Definition plain_product (m a b d add : Z) : outcome (Z * Z) :=
  let q := Z.shiftr (m * (b * 2 ^ 64 + a)) d in
  let h := Z.shiftr q 64 in
  let l := q - Z.shiftl h 64 + add in
  if (0 <=? m) && (m <? 2 ^ 64) && (0 <=? a) && (a <? 2 ^ 64) && (0 <=? b) && (b <? 2 ^ 64) && (0 <? d) && (d <? 64) &&
     (h <? 2 ^ 64) && (0 <=? add) && (l <? 2 ^ 64) then Ok (l, h) else Undefined.
Definition plain_pow (i : Z) : outcome (Z * Z) :=
  let base := i / 26 in
  let base2 := base * 26 in
  let offset := i - base2 in
  mul <- read_array DOUBLE_POW5_SPLIT2 base ;;
  if offset =? 0 then Ok mul
  else
    m <- read_array DOUBLE_POW5_TABLE offset ;;
    o <- read_array POW5_OFFSETS base ;;
    plain_product m (fst mul) (snd mul) (bits i - bits base2) (Z.land (Z.shiftr o offset) 1).
Definition plain_inv (i : Z) : outcome (Z * Z) :=
  let base := (i + 25) / 26 in
  let base2 := base * 26 in
  let offset := base2 - i in
  mul <- read_array DOUBLE_POW5_INV_SPLIT2 base ;;
  if offset =? 0 then Ok mul
  else
    m <- read_array DOUBLE_POW5_TABLE offset ;;
    o <- read_array POW5_INV_OFFSETS (i / 16) ;;
    if 0 <? fst mul then plain_product m (fst mul - 1) (snd mul) (bits base2 - bits i) (1 + Z.land (Z.shiftr o (2 * (i mod 16))) 3)
    else Undefined.

Lemma product_plain rc m a b d add r : plain_product m a b d add = Ok r -> shifted_product rc m a b d add = Ok r.
Proof.
  unfold plain_product. cbv zeta. destruct (_ && _) eqn:C; [|discriminate]. intros E. assert (E' := f_equal (fun o => match o with Ok z => z | _ => r end) E). cbv beta iota in E'. rewrite <- E'. clear E E'.
  repeat rewrite andb_true_iff in C. destruct C as ((((((((((C1 & C2) & C3) & C4) & C5) & C6) & C7) & C8) & C9) & C10) & C11).
  apply Z.leb_le in C1, C3, C5, C10. apply Z.ltb_lt in C2, C4, C6, C7, C8, C9, C11.
  rewrite !shiftr_div, shiftl_mul in * by lia. set (P := m * (b * 2 ^ 64 + a)) in *. set (q := P / 2 ^ d) in *.
  assert (Hd : 0 < 2 ^ d) by (apply Z.pow_pos_nonneg; lia).
  assert (P0 : 0 <= P) by (unfold P; nia). assert (Q0 : 0 <= q) by (apply Z.div_pos; lia).
  pose proof (Z.div_mod q (2 ^ 64) ltac:(lia)) as DQ. pose proof (Z.mod_pos_bound q (2 ^ 64) ltac:(lia)) as MQ.
  assert (QS : q < 2 ^ 128) by (change (2 ^ 128) with (2 ^ 64 * 2 ^ 64); nia).
  assert (L : q - q / 2 ^ 64 * 2 ^ 64 = q mod 2 ^ 64) by lia. rewrite L in *.
  unfold shifted_product.
  assert (W : (let '(high1, low1) := ryu_umul128 rc m b in let '(high0, low0) := ryu_umul128 rc m a in
      let sum := wrap 64 (high0 + low1) in let high1 := if sum <? high0 then wrap 64 (high1 + 1) else high1 in
      r0 <- shiftright128 rc low0 sum d ;; r1 <- shiftright128 rc sum high1 d ;; Ok (wrap 64 (r0 + add), r1)) = Ok (q mod 2 ^ 64 + add, q / 2 ^ 64)).
  { rewrite !umul128_ok by lia. cbv zeta beta iota.
    set (h1 := m * b / 2 ^ 64). set (l1 := (m * b) mod 2 ^ 64). set (h0 := m * a / 2 ^ 64). set (l0 := (m * a) mod 2 ^ 64).
    assert (R1 : m * b = h1 * 2 ^ 64 + l1) by (unfold h1, l1; pose proof (Z.div_mod (m * b) (2 ^ 64) ltac:(lia)); lia).
    assert (R0 : m * a = h0 * 2 ^ 64 + l0) by (unfold h0, l0; pose proof (Z.div_mod (m * a) (2 ^ 64) ltac:(lia)); lia).
    assert (B1 : 0 <= l1 < 2 ^ 64) by (apply Z.mod_pos_bound; lia). assert (B0 : 0 <= l0 < 2 ^ 64) by (apply Z.mod_pos_bound; lia).
    assert (H1 : 0 <= h1 < 2 ^ 64 - 1). { split; [apply Z.div_pos; nia|]. apply Z.div_lt_upper_bound; nia. }
    assert (H0 : 0 <= h0 < 2 ^ 64 - 1). { split; [apply Z.div_pos; nia|]. apply Z.div_lt_upper_bound; nia. }
    set (H := if wrap 64 (h0 + l1) <? h0 then wrap 64 (h1 + 1) else h1).
    assert (S : 0 <= wrap 64 (h0 + l1) < 2 ^ 64) by (apply wrap_range; lia).
    assert (E : P = (H * 2 ^ 64 + wrap 64 (h0 + l1)) * 2 ^ 64 + l0 /\ 0 <= H < 2 ^ 64).
    { unfold P. replace (m * (b * 2 ^ 64 + a)) with (m * b * 2 ^ 64 + m * a) by ring. rewrite R1, R0. unfold H.
      destruct (Z_lt_le_dec (h0 + l1) (2 ^ 64)) as [T|T].
      - rewrite (wrap_small 64 (h0 + l1)) by lia. rewrite (proj2 (Z.ltb_ge (h0 + l1) h0)) by lia. lia.
      - assert (V : wrap 64 (h0 + l1) = h0 + l1 - 2 ^ 64) by (symmetry; apply (Z.mod_unique_pos _ _ 1); lia).
        rewrite V, (proj2 (Z.ltb_lt (h0 + l1 - 2 ^ 64) h0)), (wrap_small 64 (h1 + 1)) by lia. lia. }
    set (sum := wrap 64 (h0 + l1)) in *. fold H. destruct E as [EP HH].
    rewrite !shiftright128_ok by lia. cbn [bind]. f_equal.
    assert (Es : 2 ^ 64 = 2 ^ (64 - d) * 2 ^ d) by (rewrite <- Z.pow_add_r by lia; f_equal; lia).
    assert (Hq : 0 < 2 ^ (64 - d)) by (apply Z.pow_pos_nonneg; lia).
    assert (A1 : ((sum * 2 ^ 64 + l0) / 2 ^ d) mod 2 ^ 64 = q mod 2 ^ 64).
    { unfold q. rewrite EP. replace ((H * 2 ^ 64 + sum) * 2 ^ 64 + l0) with (sum * 2 ^ 64 + l0 + H * 2 ^ 64 * 2 ^ (64 - d) * 2 ^ d) by (rewrite Es; ring).
      rewrite Z.div_add by lia. replace (H * 2 ^ 64 * 2 ^ (64 - d)) with (H * 2 ^ (64 - d) * 2 ^ 64) by ring. rewrite Z.mod_add by lia. reflexivity. }
    assert (A2 : (H * 2 ^ 64 + sum) / 2 ^ d = q / 2 ^ 64).
    { unfold q. rewrite EP, Z.div_div by lia. rewrite (Z.mul_comm (2 ^ d)), <- Z.div_div by lia.
      replace ((H * 2 ^ 64 + sum) * 2 ^ 64 + l0) with (l0 + (H * 2 ^ 64 + sum) * 2 ^ 64) by ring. rewrite Z.div_add by lia. rewrite (Z.div_small l0) by exact B0. reflexivity. }
    rewrite A1, A2. rewrite (wrap_small 64) by lia. rewrite (Z.mod_small (q / 2 ^ 64)) by (split; [apply Z.div_pos; lia | lia]). reflexivity. }
  destruct (cfg_mul (ry_config rc)); [|exact W|exact W]. cbv zeta.
  assert (M1 : 0 <= m * b < 2 ^ 128) by (change (2 ^ 128) with (2 ^ 64 * 2 ^ 64); nia).
  assert (M0 : 0 <= m * a < 2 ^ 128) by (change (2 ^ 128) with (2 ^ 64 * 2 ^ 64); nia).
  rewrite !(wrap_small 128 (m * _)) by assumption. rewrite (wrap_small 32) by lia. unfold shr, shl.
  rewrite (proj2 (Z.leb_le 0 (64 - d))), (proj2 (Z.ltb_lt (64 - d) 128)), (proj2 (Z.leb_le 0 d)), (proj2 (Z.ltb_lt d 128)) by lia.
  cbn [andb bind]. rewrite shiftl_mul, !shiftr_div by lia.
  assert (Es : 2 ^ 64 = 2 ^ (64 - d) * 2 ^ d) by (rewrite <- Z.pow_add_r by lia; f_equal; lia).
  assert (Eq : q = m * a / 2 ^ d + m * b * 2 ^ (64 - d)).
  { unfold q, P. rewrite Es. replace (m * (b * (2 ^ (64 - d) * 2 ^ d) + a)) with (m * a + m * b * 2 ^ (64 - d) * 2 ^ d) by ring. apply Z.div_add. lia. }
  assert (T : wrap 128 (m * a / 2 ^ d + wrap 128 (m * b * 2 ^ (64 - d))) = q).
  { unfold wrap. rewrite Z.add_mod_idemp_r by lia. rewrite <- Eq. apply Z.mod_small. lia. }
  rewrite T. change (2 ^ 128) with (2 ^ 64 * 2 ^ 64) in QS. assert (QA : q + add < 2 ^ 128) by (change (2 ^ 128) with (2 ^ 64 * 2 ^ 64); nia).
  rewrite (wrap_small 128 (q + add)) by lia. do 2 f_equal.
  - unfold wrap. symmetry. apply (Z.mod_unique_pos _ _ (q / 2 ^ 64)); lia.
  - replace ((q + add) / 2 ^ 64) with (q / 2 ^ 64) by (apply (Z.div_unique_pos _ _ _ (q mod 2 ^ 64 + add)); lia). apply wrap_small. split; [apply Z.div_pos; lia | lia].
Qed.
Lemma bits_ok cfg i : 0 <= i <= 3528 -> pow5bits cfg (to_int i) = Ok (bits i).
Proof.
  intros H. assert (T : to_int i = i) by (unfold to_int; rewrite Z.mod_small; lia). rewrite T. unfold pow5bits, cassert.
  rewrite (proj2 (Z.leb_le 0 i)), (proj2 (Z.leb_le i 3528)) by lia. rewrite (wrap_small 32 i), (wrap_small 32 (i * 1217359)) by lia.
  fold (bits i). assert (B : 0 <= bits i < 2 ^ 14).
  { unfold bits. rewrite shiftr_div by lia. split; [pose proof (Z.div_pos (i * 1217359) (2 ^ 19)); lia|].
    enough (i * 1217359 / 2 ^ 19 < 2 ^ 14 - 1) by lia. apply Z.div_lt_upper_bound; lia. }
  rewrite (wrap_small 32) by lia. assert (T2 : to_int (bits i) = bits i) by (unfold to_int; rewrite Z.mod_small; lia). rewrite T2.
  destruct (cfg_ndebug cfg); reflexivity.
Qed.
Lemma bits_range i : 0 <= i <= 3528 -> 0 <= bits i < 2 ^ 14.
Proof.
  intros H. unfold bits. rewrite shiftr_div by lia. split; [pose proof (Z.div_pos (i * 1217359) (2 ^ 19)); lia|].
  enough (i * 1217359 / 2 ^ 19 < 2 ^ 14 - 1) by lia. apply Z.div_lt_upper_bound; lia.
Qed.
Lemma bind_ok {A B} (o : outcome A) (k : A -> outcome B) r : (x <- o ;; k x) = Ok r -> exists x, o = Ok x /\ k x = Ok r.
Proof. destruct o as [x| | |]; cbn [bind]; try discriminate. intros H. exists x. auto. Qed.
Lemma delta_ok d d' : d = d' -> 0 < d' < 64 -> i32 d = Ok d' /\ wrap 32 d' = d'.
Proof.
  intros -> H. split; [|apply wrap_small; lia]. unfold i32. rewrite (proj2 (Z.leb_le _ _)), (proj2 (Z.ltb_lt _ _)) by lia. reflexivity.
Qed.
Lemma plain_delta m a b d add r : plain_product m a b d add = Ok r -> 0 < d < 64.
Proof.
  unfold plain_product. cbv zeta. destruct (_ && _) eqn:C; [|discriminate]. intros _.
  repeat rewrite andb_true_iff in C. destruct C as ((((((((((C1 & C2) & C3) & C4) & C5) & C6) & C7) & C8) & C9) & C10) & C11).
  apply Z.ltb_lt in C7, C8. lia.
Qed.
Lemma small_shr o n : 0 <= n < 32 -> shr 32 o n = Ok (Z.shiftr o n).
Proof. intros H. unfold shr. rewrite (proj2 (Z.leb_le 0 n)), (proj2 (Z.ltb_lt n 32)) by lia. reflexivity. Qed.

Lemma pow_plain rc i r : 0 <= i <= 1000 -> plain_pow i = Ok r -> double_computePow5 rc i = Ok r.
Proof.
  intros H. unfold plain_pow, double_computePow5. cbv zeta. change POW5_TABLE_SIZE with 26.
  pose proof (Z.div_mod i 26 ltac:(lia)) as D. pose proof (Z.mod_pos_bound i 26 ltac:(lia)) as M. set (k := i / 26) in *.
  rewrite (wrap_small 32 (k * 26)), (wrap_small 32 (i - k * 26)) by lia. intros E. apply bind_ok in E. destruct E as (mul & -> & E). cbn [bind].
  destruct (i - k * 26 =? 0); [exact E|]. apply bind_ok in E. destruct E as (m & -> & E). apply bind_ok in E. destruct E as (o & -> & E).
  cbn [bind]. rewrite !bits_ok by lia. cbn [bind]. destruct (delta_ok _ _ eq_refl (plain_delta _ _ _ _ _ _ E)) as [-> Wd]. cbn [bind]. rewrite Wd.
  rewrite small_shr by lia. cbn [bind]. apply product_plain. exact E.
Qed.
Lemma inv_plain rc i r : 0 <= i <= 1000 -> plain_inv i = Ok r -> double_computeInvPow5 rc i = Ok r.
Proof.
  intros H. unfold plain_inv, double_computeInvPow5. cbv zeta. change POW5_TABLE_SIZE with 26.
  rewrite (wrap_small 32 (i + 26)), (wrap_small 32 (i + 26 - 1)) by lia. replace (i + 26 - 1) with (i + 25) by lia.
  pose proof (Z.div_mod (i + 25) 26 ltac:(lia)) as D. pose proof (Z.mod_pos_bound (i + 25) 26 ltac:(lia)) as M. set (k := (i + 25) / 26) in *.
  rewrite (wrap_small 32 (k * 26)), (wrap_small 32 (k * 26 - i)) by lia. intros E. apply bind_ok in E. destruct E as (mul & R & E). rewrite R. cbn [bind].
  destruct (k * 26 - i =? 0); [exact E|]. apply bind_ok in E. destruct E as (m & -> & E). apply bind_ok in E. destruct E as (o & -> & E).
  destruct (0 <? fst mul) eqn:P; [|discriminate E]. apply Z.ltb_lt in P.
  cbn [bind]. rewrite !bits_ok by lia. cbn [bind]. destruct (delta_ok _ _ eq_refl (plain_delta _ _ _ _ _ _ E)) as [-> Wd]. cbn [bind]. rewrite Wd.
  pose proof (Z.mod_pos_bound i 16 ltac:(lia)) as M16. rewrite shiftl_mul by lia. change (2 ^ 1) with 2. rewrite (Z.mul_comm _ 2). rewrite (wrap_small 32 (2 * (i mod 16))) by lia.
  rewrite small_shr by lia. cbn [bind]. assert (Wa : wrap 64 (fst mul - 1) = fst mul - 1).
  { apply wrap_small. revert E. unfold plain_product. cbv zeta. destruct (_ && _) eqn:C; [|discriminate]. intros _.
    repeat rewrite andb_true_iff in C. destruct C as ((((((((((C1 & C2) & C3) & C4) & C5) & C6) & C7) & C8) & C9) & C10) & C11).
    apply Z.ltb_lt in C4. lia. }
  rewrite Wa. apply product_plain. exact E.
Qed.

(** ** 326 and 292 indices *)
Definition pow_row (r : Z * Z) : bool := let '(i, p) := r in quotient (plain_pow i) 0 (Z.shiftl p 121) (Z.shiftl 1 (Z.log2 p + 1)).
Definition inv_row (r : Z * Z) : bool := let '(i, p) := r in quotient (plain_inv i) 1 (Z.shiftl 1 (Z.log2 p + 122)) p.
Lemma pow_rows : forallb pow_row (powers 326 0 1) = true.
Proof. vm_compute. reflexivity. Qed.
Lemma inv_rows : forallb inv_row (powers 292 0 1) = true.
Proof. vm_compute. reflexivity. Qed.

Lemma small_pow rc i : 0 <= i <= 325 -> let v := 5 ^ i * 2 ^ 121 / 2 ^ (Z.log2 (5 ^ i) + 1) in
  double_computePow5 rc i = Ok (v mod 2 ^ 64, v / 2 ^ 64).
Proof.
  intros H. cbv zeta. apply pow_plain; [lia|].
  pose proof (proj1 (forallb_forall _ _) pow_rows _ (in_powers 326 0 1 i ltac:(lia) eq_refl ltac:(lia))) as Q. cbn [pow_row] in Q.
  pose proof (Z.log2_nonneg (5 ^ i)). apply quotient_ok in Q. cbv zeta in Q. rewrite Z.add_0_r, !shiftl_mul, Z.mul_1_l in Q by lia. exact Q.
Qed.
Lemma small_inv rc i : 0 <= i <= 291 -> let v := 2 ^ (Z.log2 (5 ^ i) + 122) / 5 ^ i + 1 in
  double_computeInvPow5 rc i = Ok (v mod 2 ^ 64, v / 2 ^ 64).
Proof.
  intros H. cbv zeta. apply inv_plain; [lia|].
  pose proof (proj1 (forallb_forall _ _) inv_rows _ (in_powers 292 0 1 i ltac:(lia) eq_refl ltac:(lia))) as Q. cbn [inv_row] in Q.
  pose proof (Z.log2_nonneg (5 ^ i)). apply quotient_ok in Q. cbv zeta in Q. rewrite shiftl_mul, Z.mul_1_l in Q by lia. exact Q.
Qed.
Lemma small_announced rc i :
  (0 <= i <= 325 -> let v := 5 ^ i * 2 ^ SMALL_POW5_BITCOUNT / 2 ^ (Z.log2 (5 ^ i) + 1) in double_computePow5 rc i = Ok (v mod 2 ^ 64, v / 2 ^ 64)) /\
  (0 <= i <= 291 -> let v := 2 ^ (Z.log2 (5 ^ i) + SMALL_POW5_INV_BITCOUNT) / 5 ^ i + 1 in double_computeInvPow5 rc i = Ok (v mod 2 ^ 64, v / 2 ^ 64)).
Proof. unfold SMALL_POW5_BITCOUNT, SMALL_POW5_INV_BITCOUNT. split; [apply small_pow | apply small_inv]. Qed.
