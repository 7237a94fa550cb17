(** * The arithmetic helpers of Ryu compute products, quotients and divisibility tests *)

From Coq Require Import ZArith List Bool Lia.
From Verif Require Import Machine Model CharsModel RyuModel Arith.
Import ListNotations.
Open Scope Z_scope.

Lemma lor_split a b k : 0 <= a -> 0 <= k -> 0 <= b < 2 ^ k -> Z.lor (a * 2 ^ k) b = a * 2 ^ k + b.
Proof.
  intros Ha Hk Hb. assert (Z.land (a * 2 ^ k) b = 0).
  { apply Z.bits_inj'. intros n Hn. rewrite Z.land_spec, Z.bits_0.
    destruct (Z_lt_dec n k).
    - rewrite Z.mul_pow2_bits_low by lia. reflexivity.
    - destruct (Z.eq_dec b 0) as [->|]; [now rewrite Z.bits_0, andb_false_r|].
      rewrite (Z.bits_above_log2 b n), andb_false_r; [reflexivity|lia|].
      apply Z.log2_lt_pow2; [lia|]. apply (Z.lt_le_trans _ (2 ^ k)); [lia|]. apply Z.pow_le_mono_r; lia. }
  rewrite <- Z.lxor_lor by assumption. symmetry. apply Z.add_nocarry_lxor. assumption.
Qed.

Lemma div_range x w v : 0 <= x < 2 ^ w * 2 ^ v -> 0 <= w -> 0 <= x / 2 ^ w < 2 ^ v.
Proof. intros H H0. assert (0 < 2 ^ w) by (apply Z.pow_pos_nonneg; lia). split; [apply Z.div_pos; lia|apply Z.div_lt_upper_bound; lia]. Qed.

Lemma umul128_ok rc a b : 0 <= a < 2 ^ 64 -> 0 <= b < 2 ^ 64 ->
  ryu_umul128 rc a b = (a * b / 2 ^ 64, (a * b) mod 2 ^ 64).
Proof.
  intros Ha Hb. assert (Hab : 0 <= a * b < 2 ^ 64 * 2 ^ 64) by nia.
  unfold ryu_umul128.
  assert (P : (let aLo := wrap 32 a in
      let aHi := wrap 32 (Z.shiftr a 32) in
      let bLo := wrap 32 b in
      let bHi := wrap 32 (Z.shiftr b 32) in
      let b00 := wrap 64 (aLo * bLo) in
      let b01 := wrap 64 (aLo * bHi) in
      let b10 := wrap 64 (aHi * bLo) in
      let b11 := wrap 64 (aHi * bHi) in
      let b00Lo := wrap 32 b00 in
      let b00Hi := wrap 32 (Z.shiftr b00 32) in
      let mid1 := wrap 64 (b10 + b00Hi) in
      let mid1Lo := wrap 32 mid1 in
      let mid1Hi := wrap 32 (Z.shiftr mid1 32) in
      let mid2 := wrap 64 (b01 + mid1Lo) in
      let mid2Lo := wrap 32 mid2 in
      let mid2Hi := wrap 32 (Z.shiftr mid2 32) in
      let pHi := wrap 64 (wrap 64 (b11 + mid1Hi) + mid2Hi) in
      let pLo := Z.lor (wrap 64 (Z.shiftl mid2Lo 32)) b00Lo in
      (pHi, pLo)) = (a * b / 2 ^ 64, (a * b) mod 2 ^ 64)).
  { assert (Sh : forall x, 0 <= x < 2 ^ 64 -> wrap 32 (Z.shiftr x 32) = x / 2 ^ 32).
    { intros x Hx. rewrite shiftr_div by lia. apply wrap_small. apply div_range; lia. }
    assert (Pr : forall x y, 0 <= x < 2 ^ 32 -> 0 <= y < 2 ^ 32 -> 0 <= x * y <= (2 ^ 32 - 1) * (2 ^ 32 - 1)).
    { intros x y Hx Hy. split; [nia|]. apply Z.mul_le_mono_nonneg; lia. }
    cbv zeta. rewrite (Sh a), (Sh b) by lia.
    pose proof (Z.div_mod a (2 ^ 32) ltac:(lia)) as Da. pose proof (Z.div_mod b (2 ^ 32) ltac:(lia)) as Db.
    assert (Ra : 0 <= wrap 32 a < 2 ^ 32) by (apply wrap_range; lia). assert (Rb : 0 <= wrap 32 b < 2 ^ 32) by (apply wrap_range; lia).
    assert (Qa : 0 <= a / 2 ^ 32 < 2 ^ 32) by (apply div_range; lia). assert (Qb : 0 <= b / 2 ^ 32 < 2 ^ 32) by (apply div_range; lia).
    change (a mod 2 ^ 32) with (wrap 32 a) in Da |- *. change (b mod 2 ^ 32) with (wrap 32 b) in Db |- *.
    set (aL := wrap 32 a) in *. set (bL := wrap 32 b) in *. set (aH := a / 2 ^ 32) in *. set (bH := b / 2 ^ 32) in *.
    pose proof (Pr aL bL Ra Rb) as P00. pose proof (Pr aL bH Ra Qb) as P01. pose proof (Pr aH bL Qa Rb) as P10. pose proof (Pr aH bH Qa Qb) as P11.
    rewrite (wrap_small 64 (aL * bL)), (wrap_small 64 (aL * bH)), (wrap_small 64 (aH * bL)), (wrap_small 64 (aH * bH)) by lia.
    set (b00 := aL * bL) in *. set (b01 := aL * bH) in *. set (b10 := aH * bL) in *. set (b11 := aH * bH) in *.
    rewrite (Sh b00) by lia. pose proof (Z.div_mod b00 (2 ^ 32) ltac:(lia)) as D00.
    assert (Q00 : 0 <= b00 / 2 ^ 32 < 2 ^ 32) by (apply div_range; lia).
    assert (R00 : 0 <= wrap 32 b00 < 2 ^ 32) by (apply wrap_range; lia). change (b00 mod 2 ^ 32) with (wrap 32 b00) in D00.
    set (b00L := wrap 32 b00) in *. set (b00H := b00 / 2 ^ 32) in *.
    rewrite (wrap_small 64 (b10 + b00H)) by lia. set (mid1 := b10 + b00H) in *.
    assert (M1 : 0 <= mid1 < 2 ^ 64) by (unfold mid1; lia).
    rewrite (Sh mid1) by lia. pose proof (Z.div_mod mid1 (2 ^ 32) ltac:(lia)) as D1.
    assert (Q1 : 0 <= mid1 / 2 ^ 32 < 2 ^ 32) by (apply div_range; lia).
    assert (R1 : 0 <= wrap 32 mid1 < 2 ^ 32) by (apply wrap_range; lia). change (mid1 mod 2 ^ 32) with (wrap 32 mid1) in D1.
    set (m1L := wrap 32 mid1) in *. set (m1H := mid1 / 2 ^ 32) in *.
    rewrite (wrap_small 64 (b01 + m1L)) by lia. set (mid2 := b01 + m1L) in *.
    assert (M2 : 0 <= mid2 < 2 ^ 64) by (unfold mid2; lia).
    rewrite (Sh mid2) by lia. pose proof (Z.div_mod mid2 (2 ^ 32) ltac:(lia)) as D2.
    assert (Q2 : 0 <= mid2 / 2 ^ 32 < 2 ^ 32) by (apply div_range; lia).
    assert (R2 : 0 <= wrap 32 mid2 < 2 ^ 32) by (apply wrap_range; lia). change (mid2 mod 2 ^ 32) with (wrap 32 mid2) in D2.
    set (m2L := wrap 32 mid2) in *. set (m2H := mid2 / 2 ^ 32) in *.
    rewrite shiftl_mul by lia. rewrite (wrap_small 64 (m2L * 2 ^ 32)) by lia. rewrite lor_split by lia.
    rewrite (wrap_small 64 (b11 + m1H)) by lia.
    assert (E : a * b = (b11 + m1H + m2H) * 2 ^ 64 + (m2L * 2 ^ 32 + b00L)).
    { rewrite Da, Db. replace ((2 ^ 32 * aH + aL) * (2 ^ 32 * bH + bL)) with (2 ^ 64 * b11 + 2 ^ 32 * (b10 + b01) + b00) by (unfold b11, b10, b01, b00; ring).
      unfold mid1, mid2 in *. lia. }
    rewrite (wrap_small 64 (b11 + m1H + m2H)).
    2: { split; [lia|]. nia. }
    f_equal.
    - apply (Z.div_unique_pos _ _ _ (m2L * 2 ^ 32 + b00L)); lia.
    - apply (Z.mod_unique_pos _ _ (b11 + m1H + m2H)); lia. }
  destruct (cfg_mul (ry_config rc)); [exact P| |exact P].
  rewrite shiftr_div by lia. rewrite (wrap_small 64 (a * b / 2 ^ 64)) by (apply div_range; lia). reflexivity.
Qed.

Lemma shiftright128_ok rc lo hi d : 0 <= lo < 2 ^ 64 -> 0 <= hi < 2 ^ 64 -> 0 < d < 64 ->
  shiftright128 rc lo hi d = Ok (((hi * 2 ^ 64 + lo) / 2 ^ d) mod 2 ^ 64).
Proof.
  intros Hl Hh Hd. unfold shiftright128. assert (Hp : 0 < 2 ^ d) by (apply Z.pow_pos_nonneg; lia).
  assert (Ca : forall b, b = true -> cassert (ry_config rc) b = Ok tt) by (intros b ->; unfold cassert; destruct (cfg_ndebug _); reflexivity).
  assert (P : (cassert (ry_config rc) (d <? 64) ;;; cassert (ry_config rc) (0 <? d) ;;;
      h <- shl 64 hi (wrap 32 (64 - d)) ;; l <- shr 64 lo d ;; Ok (Z.lor h l)) = Ok (((hi * 2 ^ 64 + lo) / 2 ^ d) mod 2 ^ 64)).
  { rewrite !Ca by (apply Z.ltb_lt; lia). cbn [bind]. rewrite (wrap_small 32) by lia. unfold shl, shr.
    rewrite (proj2 (Z.leb_le 0 (64 - d))), (proj2 (Z.ltb_lt (64 - d) 64)), (proj2 (Z.leb_le 0 d)), (proj2 (Z.ltb_lt d 64)) by lia.
    cbn [andb bind]. f_equal. rewrite shiftl_mul, shiftr_div by lia.
    assert (E : 2 ^ 64 = 2 ^ (64 - d) * 2 ^ d) by (rewrite <- Z.pow_add_r by lia; f_equal; lia).
    assert (Hq : 0 < 2 ^ (64 - d)) by (apply Z.pow_pos_nonneg; lia).
    unfold wrap. replace ((hi * 2 ^ (64 - d)) mod 2 ^ 64) with ((hi mod 2 ^ d) * 2 ^ (64 - d)).
    2: { rewrite E, (Z.mul_comm (2 ^ (64 - d))). rewrite Zmult_mod_distr_r. reflexivity. }
    assert (Hlo : 0 <= lo / 2 ^ d < 2 ^ (64 - d)). { split; [apply Z.div_pos; lia|apply Z.div_lt_upper_bound; lia]. }
    pose proof (Z.mod_pos_bound hi (2 ^ d) Hp).
    rewrite lor_split by lia.
    assert (((hi * 2 ^ 64 + lo) / 2 ^ d) = hi * 2 ^ (64 - d) + lo / 2 ^ d) as ->.
    { rewrite E. replace (hi * (2 ^ (64 - d) * 2 ^ d) + lo) with (lo + hi * 2 ^ (64 - d) * 2 ^ d) by ring. rewrite Z.div_add by lia. ring. }
    apply (Z.mod_unique_pos _ _ (hi / 2 ^ d)).
    - split; [nia|]. rewrite E. nia.
    - rewrite E. pose proof (Z.div_mod hi (2 ^ d) ltac:(lia)). nia. }
  destruct (cfg_mul (ry_config rc)); [exact P| |exact P].
  rewrite !Ca by (apply Z.ltb_lt; lia). cbn [bind]. rewrite (wrap_small 8) by lia. rewrite Z.mod_small by lia.
  rewrite shiftr_div by lia. reflexivity.
Qed.

Lemma add_carry a b : 0 <= a < 2 ^ 64 -> 0 <= b < 2 ^ 64 ->
  a + b = wrap 64 (a + b) + 2 ^ 64 * b2z (wrap 64 (a + b) <? a) /\ 0 <= wrap 64 (a + b) < 2 ^ 64.
Proof.
  intros Ha Hb. split; [|apply wrap_range; lia]. destruct (Z_lt_dec (a + b) (2 ^ 64)).
  - rewrite wrap_small by lia. rewrite (proj2 (Z.ltb_ge _ _)) by lia. cbn. lia.
  - assert (wrap 64 (a + b) = a + b - 2 ^ 64) as -> by (symmetry; apply (Z.mod_unique_pos _ _ 1); lia).
    rewrite (proj2 (Z.ltb_lt _ _)) by lia. cbn [b2z]. lia.
Qed.

Lemma sub_borrow a b : 0 <= a < 2 ^ 64 -> 0 <= b < 2 ^ 64 ->
  a - b = wrap 64 (a - b) - 2 ^ 64 * b2z (a <? wrap 64 (a - b)) /\ 0 <= wrap 64 (a - b) < 2 ^ 64.
Proof.
  intros Ha Hb. split; [|apply wrap_range; lia]. destruct (Z_le_dec b a).
  - rewrite wrap_small by lia. rewrite (proj2 (Z.ltb_ge _ _)) by lia. cbn. lia.
  - assert (wrap 64 (a - b) = a - b + 2 ^ 64) as -> by (symmetry; apply (Z.mod_unique_pos _ _ (-1)); lia).
    rewrite (proj2 (Z.ltb_lt _ _)) by lia. cbn [b2z]. lia.
Qed.

(** [j >= 65], a multiplier below 2^126 and results below 2^64 *)
Section Products.
Variables (rc : ryu_config) (mul : Z * Z).
Hypothesis Hm0 : 0 <= fst mul < 2 ^ 64.
Hypothesis Hm1 : 0 <= snd mul < 2 ^ 62.
Let F := snd mul * 2 ^ 64 + fst mul.

Lemma mulShift64_ok m j : 0 <= m < 2 ^ 56 -> 64 < j < 128 -> m * F / 2 ^ j < 2 ^ 64 ->
  mulShift64 rc m mul j = Ok (m * F / 2 ^ j).
Proof.
  intros Hm Hj Hr. unfold mulShift64.
  assert (Hp : 2 ^ j = 2 ^ 64 * 2 ^ (j - 64)) by (rewrite <- Z.pow_add_r by lia; f_equal; lia).
  assert (Hq : 0 < 2 ^ (j - 64)) by (apply Z.pow_pos_nonneg; lia).
  assert (A0 : 0 <= m * fst mul < 2 ^ 120) by nia. assert (A1 : 0 <= m * snd mul < 2 ^ 118) by nia.
  assert (E : m * F / 2 ^ j = (m * fst mul / 2 ^ 64 + m * snd mul) / 2 ^ (j - 64)).
  { rewrite Hp, <- Z.div_div by lia. f_equal. unfold F.
    replace (m * (snd mul * 2 ^ 64 + fst mul)) with (m * fst mul + m * snd mul * 2 ^ 64) by ring. rewrite Z.div_add by lia. reflexivity. }
  assert (H0 : 0 <= m * fst mul / 2 ^ 64 < 2 ^ 56) by (apply div_range; lia).
  assert (Hn : 0 <= m * F / 2 ^ j) by (apply Z.div_pos; [unfold F; nia|lia]).
  assert (P : (let '(high1, low1) := ryu_umul128 rc m (snd mul) in
      let '(high0, _) := ryu_umul128 rc m (fst mul) in
      let sum := wrap 64 (high0 + low1) in
      let high1 := if sum <? high0 then wrap 64 (high1 + 1) else high1 in
      shiftright128 rc sum high1 (wrap 32 (j - 64))) = Ok (m * F / 2 ^ j)).
  { rewrite !umul128_ok by lia. cbv zeta. rewrite (wrap_small 32) by lia.
    pose proof (Z.div_mod (m * snd mul) (2 ^ 64) ltac:(lia)) as D. pose proof (Z.mod_pos_bound (m * snd mul) (2 ^ 64) ltac:(lia)) as R.
    set (h1 := m * snd mul / 2 ^ 64) in *. set (l1 := (m * snd mul) mod 2 ^ 64) in *. set (h0 := m * fst mul / 2 ^ 64) in *.
    assert (Hh1 : 0 <= h1 < 2 ^ 54) by (apply div_range; lia).
    assert (W : (if wrap 64 (h0 + l1) <? h0 then wrap 64 (h1 + 1) else h1) * 2 ^ 64 + wrap 64 (h0 + l1) = h0 + m * snd mul).
    { rewrite (wrap_small 64 (h1 + 1)) by lia.
      destruct (Z_lt_dec (h0 + l1) (2 ^ 64)).
      - rewrite !(wrap_small 64 (h0 + l1)) by lia. rewrite (proj2 (Z.ltb_ge _ _)) by lia. lia.
      - assert (wrap 64 (h0 + l1) = h0 + l1 - 2 ^ 64) as -> by (symmetry; apply (Z.mod_unique_pos _ _ 1); lia).
        rewrite (proj2 (Z.ltb_lt _ _)) by lia. lia. }
    rewrite shiftright128_ok; [|apply wrap_range; lia| |lia].
    - rewrite W, E. f_equal. apply Z.mod_small. rewrite <- E. lia.
    - destruct (_ <? _); [apply wrap_range; lia|lia]. }
  destruct (cfg_mul (ry_config rc)); [|exact P|exact P].
  cbv zeta. rewrite (wrap_small 128 (m * fst mul)), (wrap_small 128 (m * snd mul)) by lia. rewrite shiftr_div by lia. rewrite wrap_small by lia.
  unfold shr. rewrite (proj2 (Z.leb_le _ _)), (proj2 (Z.ltb_lt _ _)) by lia. cbn [andb bind]. rewrite shiftr_div by lia.
  rewrite <- E. rewrite wrap_small by lia. reflexivity.
Qed.

Lemma mulShiftAll64_ok m j mmShift : 0 < m < 2 ^ 53 -> 65 < j < 128 -> (4 * m + 2) * F / 2 ^ j < 2 ^ 64 -> mmShift = 0 \/ mmShift = 1 ->
  (mmShift = 0 -> (2 * m * F / 2 ^ 64) mod 2 ^ 64 < 2 ^ 64 - 1) ->
  mulShiftAll64 rc m mul j mmShift = Ok (4 * m * F / 2 ^ j, (4 * m + 2) * F / 2 ^ j, (4 * m - 1 - mmShift) * F / 2 ^ j).
Proof.
  intros Hm Hj Hr Hmm Hones.
  assert (HF : 0 <= F) by (unfold F; nia).
  assert (Hp : 0 < 2 ^ j) by (apply Z.pow_pos_nonneg; lia).
  assert (Lr : 4 * m * F / 2 ^ j < 2 ^ 64) by (eapply Z.le_lt_trans; [|exact Hr]; apply Z.div_le_mono; nia).
  assert (Lm : (4 * m - 1 - mmShift) * F / 2 ^ j < 2 ^ 64) by (eapply Z.le_lt_trans; [|exact Hr]; apply Z.div_le_mono; nia).
  unfold mulShiftAll64.
  assert (P : (vp <- mulShift64 rc (wrap 64 (4 * m + 2)) mul j ;;
      vm <- mulShift64 rc (wrap 64 (4 * m - 1 - mmShift)) mul j ;;
      vr <- mulShift64 rc (wrap 64 (4 * m)) mul j ;;
      Ok (vr, vp, vm)) = Ok (4 * m * F / 2 ^ j, (4 * m + 2) * F / 2 ^ j, (4 * m - 1 - mmShift) * F / 2 ^ j)).
  { rewrite !(wrap_small 64) by lia. rewrite !mulShift64_ok by lia. reflexivity. }
  destruct (cfg_mul (ry_config rc)); [exact P|exact P|]. clear P.
  rewrite shiftl_mul by lia. change (2 ^ 1) with 2. rewrite (wrap_small 64 (m * 2)) by lia. rewrite !umul128_ok by lia.
  set (B := 2 ^ 64) in *.
  set (tmp := m * 2 * fst mul / B). set (lo := (m * 2 * fst mul) mod B).
  set (hi0 := m * 2 * snd mul / B). set (p := (m * 2 * snd mul) mod B).
  assert (Dl : m * 2 * fst mul = B * tmp + lo) by (apply Z.div_mod; discriminate).
  assert (Dh : m * 2 * snd mul = B * hi0 + p) by (apply Z.div_mod; discriminate).
  assert (Rl : 0 <= lo < B) by (apply Z.mod_pos_bound; reflexivity). assert (Rp : 0 <= p < B) by (apply Z.mod_pos_bound; reflexivity).
  assert (Rt : 0 <= tmp < 2 ^ 54) by (apply div_range; unfold B in *; nia). assert (Rh : 0 <= hi0 < 2 ^ 54) by (apply div_range; unfold B in *; nia).
  pose proof (add_carry tmp p ltac:(unfold B in *; lia) Rp) as [C0 R0].
  set (mid := wrap 64 (tmp + p)) in *. set (c0 := b2z (mid <? tmp)) in *.
  assert (B01 : forall b, 0 <= b2z b <= 1) by (intros []; cbn; lia).
  pose proof (B01 (mid <? tmp)) as Rc0. fold c0 in Rc0.
  rewrite (wrap_small 64 (hi0 + c0)) by lia. set (hi := hi0 + c0) in *. assert (Rhi : 0 <= hi <= 2 ^ 54) by (unfold hi; lia).
  assert (V : 2 * m * F = (hi * B + mid) * B + lo).
  { unfold F, hi. fold B. fold B in C0. nia. }
  assert (Ones : mmShift = 0 -> mid < B - 1).
  { intros E. specialize (Hones E). rewrite V in Hones. replace (((hi * B + mid) * B + lo) / B) with (hi * B + mid) in Hones.
    2: { apply (Z.div_unique_pos _ _ _ lo); lia. }
    rewrite Z.add_comm, Z.mod_add, Z.mod_small in Hones by (unfold B in *; lia). exact Hones. }
  clearbody hi. clearbody c0. clearbody mid lo. clear c0 C0 Rc0. clear hi0 Rh Dh. clear p Rp. clear tmp Rt Dl.
  assert (HB : B = 2 ^ 64) by reflexivity.
  assert (Sh : forall d h x l, 0 < d < 64 -> 0 <= h < B -> 0 <= x < B -> 0 <= l < B ->
     ((h * B + x) * B + l) / 2 ^ (64 + d) < B -> shiftright128 rc x h (wrap 32 d) = Ok (((h * B + x) * B + l) / 2 ^ (64 + d))).
  { intros d h x l Hd Hh Hx Hl Hs. assert (0 < 2 ^ d) by (apply Z.pow_pos_nonneg; lia).
    rewrite Z.pow_add_r in Hs |- * by lia. rewrite <- Z.div_div in Hs |- * by lia.
    assert (E : ((h * B + x) * B + l) / 2 ^ 64 = h * B + x) by (symmetry; apply (Z.div_unique_pos _ _ _ l); lia).
    rewrite E in Hs |- *. rewrite (wrap_small 32) by lia. rewrite shiftright128_ok by lia. f_equal. apply Z.mod_small. fold B. split; [apply Z.div_pos; lia|exact Hs]. }
  assert (Half : forall k, (2 * k) * F / 2 ^ j = k * F / 2 ^ (64 + (j - 64 - 1))).
  { intros k. replace (64 + (j - 64 - 1)) with (j - 1) by lia. replace (2 ^ j) with (2 * 2 ^ (j - 1)) by (rewrite <- Z.pow_succ_r by lia; f_equal; lia).
    rewrite <- Z.mul_assoc. apply Z.div_mul_cancel_l; [|lia]. apply Z.pow_nonzero; lia. }
  (* vp *)
  pose proof (add_carry lo (fst mul) Rl Hm0) as [C1 R1].
  set (lo2 := wrap 64 (lo + fst mul)) in *. pose proof (B01 (lo2 <? lo)) as Rc1. set (c1 := b2z (lo2 <? lo)) in *.
  pose proof (add_carry mid (snd mul + c1) R0 ltac:(unfold B in *; lia)) as [C2 R2]. rewrite Z.add_assoc in C2, R2.
  set (mid2 := wrap 64 (mid + snd mul + c1)) in *. pose proof (B01 (mid2 <? mid)) as Rc2. set (c2 := b2z (mid2 <? mid)) in *.
  rewrite (wrap_small 64 (hi + c2)) by lia.
  assert (V2 : (2 * m + 1) * F = ((hi + c2) * B + mid2) * B + lo2) by (unfold F; fold B; fold B in C1, C2; nia).
  rewrite (Sh _ _ _ lo2); [|lia|lia|exact R2|exact R1|].
  2: { rewrite <- V2, <- Half. replace (2 * (2 * m + 1)) with (4 * m + 2) by ring. lia. }
  rewrite <- V2, <- Half. replace (2 * (2 * m + 1)) with (4 * m + 2) by ring. cbn [bind].
  (* vm *)
  match goal with |- bind ?e _ = _ => assert (VM : e = Ok ((4 * m - 1 - mmShift) * F / 2 ^ j)) end.
  { destruct Hmm as [E|E].
    - rewrite (proj2 (Z.eqb_neq mmShift 1)) by lia. specialize (Ones E). replace (4 * m - 1 - mmShift) with (4 * m - 1) in * by lia. cbv zeta.
      pose proof (add_carry lo lo Rl Rl) as [C3 R3]. set (lo3 := wrap 64 (lo + lo)) in *.
      pose proof (B01 (lo3 <? lo)) as Rc3. set (c3 := b2z (lo3 <? lo)) in *.
      assert (C4 : mid + mid + c3 = wrap 64 (mid + mid + c3) + B * b2z (wrap 64 (mid + mid + c3) <? mid) /\ 0 <= wrap 64 (mid + mid + c3) < B).
      { pose proof (add_carry mid (mid + c3) R0 ltac:(lia)). rewrite Z.add_assoc in H. exact H. }
      destruct C4 as [C4 R4]. set (mid3 := wrap 64 (mid + mid + c3)) in *.
      pose proof (B01 (mid3 <? mid)) as Rc4. set (c4 := b2z (mid3 <? mid)) in *.
      rewrite (wrap_small 64 (hi + hi + c4)) by lia.
      assert (V3 : 4 * m * F = ((hi + hi + c4) * B + mid3) * B + lo3) by (fold B in C3; nia).
      pose proof (sub_borrow lo3 (fst mul) R3 Hm0) as [C5 R5]. set (lo4 := wrap 64 (lo3 - fst mul)) in *.
      pose proof (B01 (lo3 <? lo4)) as Rc5. set (c5 := b2z (lo3 <? lo4)) in *.
      pose proof (sub_borrow mid3 (snd mul + c5) R4 ltac:(unfold B in *; lia)) as [C6 R6]. rewrite Z.sub_add_distr in C6, R6.
      set (mid4 := wrap 64 (mid3 - snd mul - c5)) in *.
      pose proof (B01 (mid3 <? mid4)) as Rc6. set (c6 := b2z (mid3 <? mid4)) in *. fold B in C5, C6.
      assert (V4 : (4 * m - 1) * F = ((hi + hi + c4 - c6) * B + mid4) * B + lo4) by (unfold F at 1; fold B; unfold F in V3; fold B in V3; nia).
      assert (0 <= hi + hi + c4 - c6) by (assert (0 <= (4 * m - 1) * F) by nia; unfold B in *; nia).
      rewrite (wrap_small 64 (hi + hi + c4 - c6)) by lia.
      rewrite (Sh _ _ _ lo4); [|lia|lia|exact R6|exact R5|].
      all: rewrite <- V4; replace (64 + (j - 64)) with j by lia; first [reflexivity|exact Lm].
    - subst mmShift. cbv zeta. change (1 =? 1) with true. cbv iota.
      pose proof (sub_borrow lo (fst mul) Rl Hm0) as [C5 R5]. set (lo4 := wrap 64 (lo - fst mul)) in *.
      pose proof (B01 (lo <? lo4)) as Rc5. set (c5 := b2z (lo <? lo4)) in *.
      pose proof (sub_borrow mid (snd mul + c5) R0 ltac:(unfold B in *; lia)) as [C6 R6]. rewrite Z.sub_add_distr in C6, R6.
      set (mid4 := wrap 64 (mid - snd mul - c5)) in *.
      pose proof (B01 (mid <? mid4)) as Rc6. set (c6 := b2z (mid <? mid4)) in *. fold B in C5, C6.
      assert (V4 : (2 * m - 1) * F = ((hi - c6) * B + mid4) * B + lo4) by (unfold F; fold B; unfold F in V; fold B in V; nia).
      assert (0 <= hi - c6) by (assert (0 <= (2 * m - 1) * F) by nia; unfold B in *; nia).
      rewrite (wrap_small 64 (hi - c6)) by lia.
      rewrite (Sh _ _ _ lo4); [|lia|lia|exact R6|exact R5|].
      all: rewrite <- V4, <- Half; replace (2 * (2 * m - 1)) with (4 * m - 1 - 1) by ring; first [reflexivity|exact Lm]. }
  rewrite VM. cbn [bind].
  rewrite (Sh _ _ _ lo); [|lia|lia|exact R0|exact Rl|].
  all: rewrite <- V, <- Half; replace (2 * (2 * m)) with (4 * m) by ring; first [reflexivity|exact Lr].
Qed.
End Products.

Lemma mulShift32_ok rc m factor shift : 0 <= m < 2 ^ 31 -> 0 <= factor < 2 ^ 64 -> 32 < shift < 64 -> m * factor / 2 ^ shift < 2 ^ 32 ->
  mulShift32 rc m factor shift = Ok (m * factor / 2 ^ shift).
Proof.
  intros Hm Hf Hs Hr. unfold mulShift32. cbv zeta.
  assert (Ca : forall b, b = true -> cassert (ry_config rc) b = Ok tt) by (intros b ->; unfold cassert; destruct (cfg_ndebug _); reflexivity).
  rewrite (Ca (32 <? shift)) by (apply Z.ltb_lt; lia). cbn [bind].
  assert (Sh : forall x, 0 <= x < 2 ^ 64 -> wrap 32 (Z.shiftr x 32) = x / 2 ^ 32).
  { intros x Hx. rewrite shiftr_div by lia. apply wrap_small. apply div_range; lia. }
  rewrite (Sh factor) by lia.
  pose proof (Z.div_mod factor (2 ^ 32) ltac:(lia)) as D. change (factor mod 2 ^ 32) with (wrap 32 factor) in D.
  assert (Rl : 0 <= wrap 32 factor < 2 ^ 32) by (apply wrap_range; lia). assert (Rh : 0 <= factor / 2 ^ 32 < 2 ^ 32) by (apply div_range; lia).
  set (fl := wrap 32 factor) in *. set (fh := factor / 2 ^ 32) in *.
  assert (A0 : 0 <= m * fl < 2 ^ 63) by nia. assert (A1 : 0 <= m * fh < 2 ^ 63) by nia.
  rewrite (wrap_small 64 (m * fl)), (wrap_small 64 (m * fh)) by lia.
  assert (H0 : 0 <= m * fl / 2 ^ 32 < 2 ^ 31) by (apply div_range; lia).
  assert (Hp : 2 ^ shift = 2 ^ 32 * 2 ^ (shift - 32)) by (rewrite <- Z.pow_add_r by lia; f_equal; lia).
  assert (Hq : 0 < 2 ^ (shift - 32)) by (apply Z.pow_pos_nonneg; lia).
  assert (E : m * factor / 2 ^ shift = (m * fl / 2 ^ 32 + m * fh) / 2 ^ (shift - 32)).
  { rewrite Hp, <- Z.div_div by lia. f_equal. rewrite D.
    replace (m * (2 ^ 32 * fh + fl)) with (m * fl + m * fh * 2 ^ 32) by ring. rewrite Z.div_add by lia. reflexivity. }
  assert (Hn : 0 <= m * factor / 2 ^ shift) by (apply Z.div_pos; [nia|lia]).
  destruct (ry_32 rc).
  - rewrite (proj2 (Z.leb_gt _ _)) by lia.
    rewrite (Sh (m * fl)), (Sh (m * fh)) by lia. set (h0 := m * fl / 2 ^ 32) in *.
    pose proof (Z.div_mod (m * fh) (2 ^ 32) ltac:(lia)) as D1. change ((m * fh) mod 2 ^ 32) with (wrap 32 (m * fh)) in D1.
    assert (R1 : 0 <= wrap 32 (m * fh) < 2 ^ 32) by (apply wrap_range; lia). set (l1 := wrap 32 (m * fh)) in *.
    assert (R2 : 0 <= m * fh / 2 ^ 32 < 2 ^ 31) by (apply div_range; lia). set (h1 := m * fh / 2 ^ 32) in *.
    assert (W : wrap 32 (h1 + b2z (wrap 32 (l1 + h0) <? h0)) * 2 ^ 32 + wrap 32 (l1 + h0) = h0 + m * fh).
    { destruct (Z_lt_dec (l1 + h0) (2 ^ 32)).
      - rewrite (wrap_small 32 (l1 + h0)) by lia. rewrite (proj2 (Z.ltb_ge _ _)) by lia. cbn [b2z]. rewrite wrap_small by lia. lia.
      - assert (wrap 32 (l1 + h0) = l1 + h0 - 2 ^ 32) as -> by (symmetry; apply (Z.mod_unique_pos _ _ 1); lia).
        rewrite (proj2 (Z.ltb_lt _ _)) by lia. cbn [b2z]. rewrite wrap_small by lia. lia. }
    assert (0 <= wrap 32 (h1 + b2z (wrap 32 (l1 + h0) <? h0)) < 2 ^ 32) as G1 by (apply wrap_range; lia).
    assert (0 <= wrap 32 (l1 + h0) < 2 ^ 32) as G2 by (apply wrap_range; lia).
    set (hi := wrap 32 (h1 + _)) in *. set (lo := wrap 32 (l1 + h0)) in *.
    unfold shl, shr. rewrite !(proj2 (Z.leb_le _ _)), !(proj2 (Z.ltb_lt _ _)) by lia. cbn [andb bind]. f_equal.
    rewrite E, <- W. rewrite shiftl_mul, shiftr_div by lia. rewrite E, <- W in Hr.
    set (d := shift - 32) in *. assert (Hd : 0 < d < 32) by (unfold d; lia).
    assert (E2 : 2 ^ 32 = 2 ^ (32 - d) * 2 ^ d) by (rewrite <- Z.pow_add_r by lia; f_equal; lia).
    assert (Hq2 : 0 < 2 ^ (32 - d)) by (apply Z.pow_pos_nonneg; lia).
    assert (Hlo : 0 <= lo / 2 ^ d < 2 ^ (32 - d)) by (split; [apply Z.div_pos; lia|apply Z.div_lt_upper_bound; lia]).
    assert (E3 : (hi * 2 ^ 32 + lo) / 2 ^ d = hi * 2 ^ (32 - d) + lo / 2 ^ d).
    { rewrite E2. replace (hi * (2 ^ (32 - d) * 2 ^ d) + lo) with (lo + hi * 2 ^ (32 - d) * 2 ^ d) by ring. rewrite Z.div_add by lia. ring. }
    rewrite E3 in Hr |- *.
    rewrite wrap_small by nia. apply lor_split; lia.
  - rewrite shiftr_div by lia. rewrite wrap_small by lia. unfold shr.
    rewrite (proj2 (Z.leb_le _ _)), (proj2 (Z.ltb_lt _ _)) by lia. cbn [andb bind]. rewrite shiftr_div by lia. rewrite <- E.
    rewrite Ca by (apply Z.leb_le; lia). cbn [bind]. rewrite wrap_small by lia. reflexivity.
Qed.

(** ** Division by constants *)

Lemma magic C n s r x : 0 < n -> 0 <= s -> C * n = 2 ^ s + r -> 0 <= x -> 0 <= r -> x * r < 2 ^ s -> x * C / 2 ^ s = x / n.
Proof.
  intros Hn Hs E Hx Hr H. assert (0 < 2 ^ s) by (apply Z.pow_pos_nonneg; lia). symmetry.
  pose proof (Z.div_mod x n ltac:(lia)) as D. pose proof (Z.mod_pos_bound x n Hn) as R. set (q := x / n) in *.
  apply (Z.div_unique_pos _ _ _ (x * C - 2 ^ s * q)); [|ring].
  assert (n * (x * C) = x * 2 ^ s + x * r) by (rewrite <- Z.mul_add_distr_l, <- E; ring). 
  set (y := x * C) in *. set (w := 2 ^ s) in *. clear - Hn H1 D R H H0 Hx Hr. set (z := x * r) in *. assert (0 <= z) by (unfold z; nia). clearbody z. split.
  - enough (n * (w * q) <= n * y) by nia. rewrite H1. nia.
  - enough (n * y < n * (w * q + w)) by nia. rewrite H1. nia.
Qed.

Lemma umulh_ok rc a b : 0 <= a < 2 ^ 64 -> 0 <= b < 2 ^ 64 -> umulh rc a b = a * b / 2 ^ 64.
Proof. intros; unfold umulh; rewrite umul128_ok by lia; reflexivity. Qed.

Lemma umulh_div rc x C k n r : 0 <= x < 2 ^ 64 -> 0 <= C < 2 ^ 64 -> 0 <= k -> 0 < n -> C * n = 2 ^ (64 + k) + r -> 0 <= r -> x * r < 2 ^ (64 + k) ->
  Z.shiftr (umulh rc x C) k = x / n.
Proof.
  intros Hx HC Hk Hn E Hr H. rewrite umulh_ok, shiftr_div by lia. assert (0 < 2 ^ k) by (apply Z.pow_pos_nonneg; lia).
  rewrite Z.div_div, <- Z.pow_add_r by lia. apply (magic _ _ _ r); lia.
Qed.

Lemma div5_ok rc x : 0 <= x < 2 ^ 64 -> div5 rc x = x / 5.
Proof. intros H. unfold div5. destruct (ry_32 rc); [|reflexivity]. apply (umulh_div _ _ _ _ _ 1); try lia; reflexivity. Qed.
Lemma div10_ok rc x : 0 <= x < 2 ^ 64 -> div10 rc x = x / 10.
Proof. intros H. unfold div10. destruct (ry_32 rc); [|reflexivity]. apply (umulh_div _ _ _ _ _ 2); try lia; reflexivity. Qed.
Lemma div100_ok rc x : 0 <= x < 2 ^ 64 -> div100 rc x = x / 100.
Proof.
  intros H. unfold div100. destruct (ry_32 rc); [|reflexivity]. rewrite (shiftr_div x 2) by lia.
  assert (0 <= x / 2 ^ 2 < 2 ^ 62) by (apply div_range; lia).
  rewrite (umulh_div _ _ _ _ 25 (0x28F5C28F5C28F5C3 * 25 - 2 ^ 66)); try lia.
  rewrite Z.div_div by lia. reflexivity.
Qed.
Lemma div1e8_ok rc x : 0 <= x < 2 ^ 64 -> div1e8 rc x = x / 100000000.
Proof. intros H. unfold div1e8. destruct (ry_32 rc); [|reflexivity]. apply (umulh_div _ _ _ _ _ (0xABCC77118461CEFD * 100000000 - 2 ^ 90)); try lia; reflexivity. Qed.

Lemma low_rem_ok n x : 0 < n < 2 ^ 32 -> low_rem n x (x / n) = x mod n.
Proof.
  intros Hn. unfold low_rem, wrap.
  rewrite Z.mul_mod_idemp_r, <- Zminus_mod by lia.
  rewrite <- Z.mod_eq by lia. apply Z.mod_small. pose proof (Z.mod_pos_bound x n ltac:(lia)). lia.
Qed.

(** ** Divisibility *)

Lemma pow5_divide x p : 0 <= p -> (5 ^ (p + 1) | 5 * x) <-> (5 ^ p | x).
Proof.
  intros Hp. rewrite Z.pow_add_r by lia. split.
  - intros [k E]. exists k. change (5 ^ 1) with 5 in E. lia.
  - intros [k E]. exists k. change (5 ^ 1) with 5. lia.
Qed.

Lemma pow5_count value c0 : 0 < value -> value mod 5 = 0 -> 0 <= c0 -> (forall p, 0 <= p -> (p <= c0 <-> (5 ^ p | value / 5))) ->
  forall p, 0 <= p -> (p <= c0 + 1 <-> (5 ^ p | value)).
Proof.
  intros Hv E Hc H p Hp. pose proof (Z.div_mod value 5 ltac:(lia)) as D. rewrite E in D.
  destruct (Z.eq_dec p 0) as [->|].
  - split; [intros _; exists value; change (5 ^ 0) with 1; ring|lia].
  - specialize (H (p - 1) ltac:(lia)). rewrite <- pow5_divide in H by lia. replace (p - 1 + 1) with p in H by ring.
    replace (5 * (value / 5)) with value in H by lia. rewrite <- H. lia.
Qed.

Lemma pow5_none value : value mod 5 <> 0 -> forall p, 0 <= p -> (p <= 0 <-> (5 ^ p | value)).
Proof.
  intros H p Hp. split.
  - intros Hp0. replace p with 0 by lia. exists value; change (5 ^ 0) with 1; ring.
  - intros [k E]. destruct (Z.eq_dec p 0); [lia|]. exfalso. apply H. rewrite E.
    replace p with (p - 1 + 1) by ring. rewrite Z.pow_add_r by lia. change (5 ^ 1) with 5. rewrite Z.mul_assoc. apply Z.mod_mul. lia.
Qed.

Lemma pow5Factor_ok rc : forall fuel value count, 0 < value < 2 ^ 64 -> value < 5 ^ Z.of_nat fuel -> 0 <= count -> count + Z.of_nat fuel < 2 ^ 32 ->
  exists c, pow5Factor rc fuel value count = Ok (count + c) /\ 0 <= c /\ forall p, 0 <= p -> (p <= c <-> (5 ^ p | value)).
Proof.
  induction fuel as [|fuel IH]; intros value count Hv Hf Hc Hn; [cbn in Hf; lia|].
  cbn [pow5Factor].
  assert (cassert (ry_config rc) (negb (value =? 0)) = Ok tt) as ->.
  { rewrite (proj2 (Z.eqb_neq value 0)) by lia. unfold cassert. destruct (cfg_ndebug _); reflexivity. }
  cbn [bind]. rewrite div5_ok by lia. rewrite low_rem_ok by lia.
  destruct (Z.eqb_spec (value mod 5) 0) as [E|E]; cbn [negb].
  - pose proof (Z.div_mod value 5 ltac:(lia)) as D. rewrite Nat2Z.inj_succ, Z.pow_succ_r in Hf by lia.
    rewrite wrap_small by lia.
    destruct (IH (value / 5) (count + 1)) as [c [E1 [Hc1 H1]]]; try lia.
    exists (c + 1). repeat apply conj; [rewrite E1; f_equal; ring|lia|].
    apply pow5_count; try lia. exact H1.
  - exists 0. rewrite Z.add_0_r. repeat apply conj; [reflexivity|lia|]. apply pow5_none. exact E.
Qed.

Lemma pow5factor_32_ok rc : forall fuel value count, 0 < value < 2 ^ 32 -> value < 5 ^ Z.of_nat fuel -> 0 <= count -> count + Z.of_nat fuel < 2 ^ 32 ->
  exists c, pow5factor_32 rc fuel value count = Ok (count + c) /\ 0 <= c /\ forall p, 0 <= p -> (p <= c <-> (5 ^ p | value)).
Proof.
  induction fuel as [|fuel IH]; intros value count Hv Hf Hc Hn; [cbn in Hf; lia|].
  cbn [pow5factor_32].
  assert (cassert (ry_config rc) (negb (value =? 0)) = Ok tt) as ->.
  { rewrite (proj2 (Z.eqb_neq value 0)) by lia. unfold cassert. destruct (cfg_ndebug _); reflexivity. }
  cbn [bind].
  destruct (Z.eqb_spec (value mod 5) 0) as [E|E]; cbn [negb].
  - pose proof (Z.div_mod value 5 ltac:(lia)) as D. rewrite Nat2Z.inj_succ, Z.pow_succ_r in Hf by lia.
    rewrite wrap_small by lia.
    destruct (IH (value / 5) (count + 1)) as [c [E1 [Hc1 H1]]]; try lia.
    exists (c + 1). repeat apply conj; [rewrite E1; f_equal; ring|lia|].
    apply pow5_count; try lia. exact H1.
  - exists 0. rewrite Z.add_0_r. repeat apply conj; [reflexivity|lia|]. apply pow5_none. exact E.
Qed.

Lemma leb_divide p c v : 0 < 5 ^ p -> (p <= c <-> (5 ^ p | v)) -> (p <=? c) = (v mod 5 ^ p =? 0).
Proof.
  intros Hp H. apply eq_true_iff_eq. rewrite Z.leb_le, Z.eqb_eq, H. symmetry. apply Z.mod_divide. lia.
Qed.

Lemma multipleOfPowerOf5_ok rc value p : 0 < value < 2 ^ 64 -> 0 <= p -> multipleOfPowerOf5 rc value p = Ok (value mod 5 ^ p =? 0).
Proof.
  intros Hv Hp. unfold multipleOfPowerOf5. destruct (pow5Factor_ok rc 28 value 0) as [c [E [Hc H]]]; try lia.
  rewrite E. cbn [bind]. f_equal. rewrite Z.add_0_l. apply leb_divide; [apply Z.pow_pos_nonneg; lia|apply H; lia].
Qed.
Lemma multipleOfPowerOf5_32_ok rc value p : 0 < value < 2 ^ 32 -> 0 <= p -> multipleOfPowerOf5_32 rc value p = Ok (value mod 5 ^ p =? 0).
Proof.
  intros Hv Hp. unfold multipleOfPowerOf5_32. destruct (pow5factor_32_ok rc 14 value 0) as [c [E [Hc H]]]; try lia.
  rewrite E. cbn [bind]. f_equal. rewrite Z.add_0_l. apply leb_divide; [apply Z.pow_pos_nonneg; lia|apply H; lia].
Qed.
Lemma multipleOfPowerOf2_ok rc value p : 0 < value -> 0 <= p < 64 -> multipleOfPowerOf2 rc value p = Ok (value mod 2 ^ p =? 0).
Proof.
  intros Hv Hp. unfold multipleOfPowerOf2.
  assert (Ca : forall b, b = true -> cassert (ry_config rc) b = Ok tt) by (intros b ->; unfold cassert; destruct (cfg_ndebug _); reflexivity).
  rewrite (Ca (negb (value =? 0))), (Ca (p <? 64)).
  2: apply Z.ltb_lt; lia. 2: rewrite (proj2 (Z.eqb_neq value 0)) by lia; reflexivity.
  cbn [bind]. unfold shl. rewrite (proj2 (Z.leb_le _ _)), (proj2 (Z.ltb_lt _ _)) by lia. cbn [andb bind].
  rewrite shiftl_mul, Z.mul_1_l by lia. assert (0 < 2 ^ p) by (apply Z.pow_pos_nonneg; lia).
  assert (2 ^ p < 2 ^ 64) by (apply Z.pow_lt_mono_r; lia).
  rewrite (wrap_small 64 (2 ^ p)), (wrap_small 64) by lia. rewrite land_mask by lia. reflexivity.
Qed.
Lemma multipleOfPowerOf2_32_ok value p : 0 <= p < 32 -> multipleOfPowerOf2_32 value p = Ok (value mod 2 ^ p =? 0).
Proof.
  intros Hp. unfold multipleOfPowerOf2_32. unfold shl. rewrite (proj2 (Z.leb_le _ _)), (proj2 (Z.ltb_lt _ _)) by lia. cbn [andb bind].
  rewrite shiftl_mul, Z.mul_1_l by lia. assert (0 < 2 ^ p) by (apply Z.pow_pos_nonneg; lia).
  assert (2 ^ p < 2 ^ 32) by (apply Z.pow_lt_mono_r; lia).
  rewrite (wrap_small 32 (2 ^ p)), (wrap_small 32) by lia. rewrite land_mask by lia. reflexivity.
Qed.
