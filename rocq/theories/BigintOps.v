(** * The operations of tests/bigint.h: shifts up to a bound, times 5, sums, differences, products *)

From Coq Require Import ZArith List Lia Bool.
From Verif Require Import Machine Model Arith BigintModel BigSpec BigFacts Bigint.
Open Scope Z_scope.

Lemma pow_lt_inv a b : 0 <= b -> 2 ^ a < 2 ^ b -> a < b.
Proof. intros Hb H. destruct (Z_lt_le_dec a b); [assumption|]. assert (2 ^ b <= 2 ^ a) by (apply Z.pow_le_mono_r; lia). lia. Qed.
Lemma Wp_lt_inv m n : Wp m < Wp n -> (m < n)%nat.
Proof. rewrite !Wp_eq. intros H. apply pow_lt_inv in H; lia. Qed.

(** a bigint from its elements and the size of its value *)
Lemma valid_make N a p bits v : words a N -> (p < N)%nat -> (forall i, (p < i < N)%nat -> a i = 0) -> number a (S p) = v ->
  1 <= bits <= 64 -> 2 ^ (64 * Z.of_nat p + bits - 1) <= v < 2 ^ (64 * Z.of_nat p + bits) ->
  valid N (mk_big a p bits) /\ val (mk_big a p bits) = v.
Proof.
  intros Hw Hp Ha Hv Hb B. assert (0 < v) by (assert (0 < 2 ^ (64 * Z.of_nat p + bits - 1)) by (apply Z.pow_pos_nonneg; lia); lia).
  apply represents_valid. split; cbn [elements element_pos bit_pos].
  - exact Hw.
  - rewrite <- Hv. apply number_zero; [lia|]. intros i Hi. apply Ha. lia.
  - exact Hp.
  - lia.
  - intros _. split; [exact Hb|]. rewrite (Z.log2_unique v (64 * Z.of_nat p + bits - 1)); [ring | lia |].
    replace (Z.succ (64 * Z.of_nat p + bits - 1)) with (64 * Z.of_nat p + bits) by lia. exact B.
Qed.
(** a bigint from its elements and log2p1 of the top element *)
Lemma valid_make_top N a p v : words a N -> (p < N)%nat -> (forall i, (p < i < N)%nat -> a i = 0) -> number a (S p) = v ->
  (p = 0%nat \/ Wp p <= v) -> valid N (mk_big a p (log2p1 (a p))) /\ val (mk_big a p (log2p1 (a p))) = v.
Proof.
  intros Hw Hp Ha Hv Ht. split; [|exact Hv]. split; cbn [elements element_pos bit_pos]; try assumption.
  - apply log2p1_ok. apply Hw. exact Hp.
  - destruct Ht as [T|T]; [left; exact T|]. right. intros Z0. rewrite <- Hv, number_S, Z0 in T.
    pose proof (number_bounds a p ltac:(apply (words_le a p N Hw); lia)). lia.
Qed.

Lemma bits_of N b : valid N b -> 0 < val b ->
  1 <= bit_pos b <= 64 /\ 64 * Z.of_nat (element_pos b) + bit_pos b = Z.log2 (val b) + 1.
Proof. intros V P. exact (rep_bits _ _ _ (valid_represents N b V) P). Qed.

(** ** multiply_2_until *)
Lemma aligned N b n : valid N b -> valid N n -> 0 < val b -> val b <= val n ->
  let o := (element_pos n - element_pos b)%nat in
  let d := bit_pos n - bit_pos b in
  exists a0 a1, (if (0 <? o)%nat then shift_elements N (elements b) (element_pos b) o else Ok (elements b)) = Ok a0 /\
    (if 0 <? d then shift_left_bits N a0 (element_pos n) d else if d <? 0 then shift_right_bits N a0 (element_pos n) (- d) else Ok a0) = Ok a1 /\
    words a1 N /\ (forall i, (element_pos n < i < N)%nat -> a1 i = 0) /\
    number a1 (S (element_pos n)) = val b * 2 ^ (64 * Z.of_nat o + d) /\ 0 <= 64 * Z.of_nat o + d /\
    64 * Z.of_nat o + d = Z.log2 (val n) - Z.log2 (val b) /\ (element_pos b <= element_pos n)%nat.
Proof.
  intros Vb Vn Pb L o d. destruct (bits_of N b Vb Pb) as [Bb Eb]. destruct (bits_of N n Vn ltac:(lia)) as [Bn En].
  pose proof (Z.log2_le_mono _ _ L) as Lm. pose proof (v_pos _ _ Vb) as Pp. pose proof (v_pos _ _ Vn) as Pn.
  assert (Po : (element_pos b <= element_pos n)%nat) by lia.
  assert (Eo : Z.of_nat o = Z.of_nat (element_pos n) - Z.of_nat (element_pos b)) by (unfold o; lia).
  assert (Ed : 64 * Z.of_nat o + d = Z.log2 (val n) - Z.log2 (val b)) by (unfold d; lia).
  assert (Eop : (element_pos b + o)%nat = element_pos n) by (unfold o; lia).
  (* elements moved *)
  assert (H0 : exists a0, (if (0 <? o)%nat then shift_elements N (elements b) (element_pos b) o else Ok (elements b)) = Ok a0 /\
    words a0 N /\ (forall i, (element_pos n < i < N)%nat -> a0 i = 0) /\ number a0 (S (element_pos n)) = Wp o * val b /\ ((0 < o)%nat -> a0 0%nat = 0)).
  { destruct (Nat.ltb_spec 0 o) as [Lo|Lo].
    - destruct (shift_elements_ok N (elements b) (element_pos b) o ltac:(lia)) as (a0 & E & H1 & H2). exists a0. split; [exact E|].
      rewrite Eop in *. assert (Hw : words a0 N).
      { intros i Hi. destruct (Nat.le_gt_cases i (element_pos n)) as [G|G].
        - rewrite H1 by exact G. destruct (Nat.ltb_spec i o); [lia|]. apply (v_words _ _ Vb). lia.
        - rewrite H2 by lia. apply (v_words _ _ Vb). lia. }
      repeat apply conj.
      + exact Hw.
      + intros i Hi. rewrite H2 by lia. apply (v_above _ _ Vb). lia.
      + rewrite <- Eop. unfold val. apply moved_number. intros i Hi. apply H1. lia.
      + intros _. rewrite H1 by lia. destruct (Nat.ltb_spec 0 o); [reflexivity | lia].
    - exists (elements b). assert (Q : o = 0%nat) by lia. rewrite Q in *. rewrite Nat.add_0_r in Eop. rewrite <- Eop.
      split; [reflexivity|]. repeat apply conj; [apply Vb | intros i Hi; apply (v_above _ _ Vb); lia | rewrite Wp_0; unfold val; ring | lia]. }
  destruct H0 as (a0 & E0 & W0 & Z0 & N0 & F0). exists a0.
  assert (Pv : val b * 2 ^ (64 * Z.of_nat o + d) < Wp (S (element_pos n))).
  { rewrite Ed, Wp_eq. destruct (Z.log2_spec (val b) Pb) as [_ U].
    apply Z.lt_le_trans with (2 ^ Z.succ (Z.log2 (val b)) * 2 ^ (Z.log2 (val n) - Z.log2 (val b))).
    - apply Z.mul_lt_mono_pos_r; [apply Z.pow_pos_nonneg; lia | exact U].
    - pose proof (Z.log2_nonneg (val b)). rewrite <- Z.pow_add_r by lia. apply Z.pow_le_mono_r; lia. }
  destruct (Z.ltb_spec 0 d) as [D|D]; [|destruct (Z.ltb_spec d 0) as [D2|D2]].
  - destruct (shift_left_bits_ok N a0 (element_pos n) d ltac:(unfold d; lia) Pn W0) as (a1 & E1 & H1 & H2). exists a1.
    assert (Q : 2 ^ d * number a0 (S (element_pos n)) = val b * 2 ^ (64 * Z.of_nat o + d)) by (rewrite N0, Z.pow_add_r, Wp_eq by lia; ring).
    assert (W1 : words a1 N).
    { intros i Hi. destruct (Nat.le_gt_cases i (element_pos n)) as [G|G].
      - rewrite H1 by exact G. apply (shifted_words a0 d N); [unfold d; lia | exact W0 | exact Hi].
      - rewrite H2 by lia. apply W0. exact Hi. }
    repeat apply conj; try assumption; try lia.
    + intros i Hi. rewrite H2 by lia. apply Z0. exact Hi.
    + rewrite (number_ext a1 (shifted a0 d)) by (intros i Hi; apply H1; lia). rewrite shifted_exact; [exact Q | unfold d; lia | | lia].
      apply (words_le a0 _ N W0). lia.
  - assert (Lo : (0 < o)%nat) by lia.
    destruct (shift_right_bits_ok N a0 (element_pos n) (- d) ltac:(unfold d; lia) Pn W0) as (a1 & E1 & H1 & W1 & H2). exists a1.
    rewrite F0, Z.mod_0_l in H1 by (try exact Lo; apply Z.pow_nonzero; lia).
    repeat apply conj; try assumption; try lia.
    + intros i Hi. rewrite H2 by lia. apply Z0. exact Hi.
    + assert (0 < 2 ^ (- d)) by (apply Z.pow_pos_nonneg; lia). apply (Z.mul_cancel_l _ _ (2 ^ (- d))); [lia|]. rewrite H1, N0, Wp_eq.
      replace (64 * Z.of_nat o) with (- d + (64 * Z.of_nat o + d)) at 1 by ring. rewrite Z.pow_add_r by lia. ring.
  - exists a0. assert (d = 0) by lia. repeat apply conj; try assumption; try reflexivity; try lia.
    rewrite N0. replace d with 0 by lia. rewrite Z.add_0_r, Wp_eq. ring.
Qed.

Lemma multiply_2_until_valid cfg N b n k : 64 * Z.of_nat N < W -> valid N b -> valid N n -> 0 < val b -> val b <= val n ->
  0 <= k -> val n <= val b * 2 ^ k -> (k = 0 \/ val b * 2 ^ (k - 1) < val n) -> val b * 2 ^ k < Wp N ->
  exists b', multiply_2_until cfg N (fun _ => elements n) b (element_pos n) (bit_pos n) = Ok (b', k) /\ valid N b' /\ val b' = val b * 2 ^ k.
Proof.
  intros HN Vb Vn Pb L Hk K1 K2 F. destruct (aligned N b n Vb Vn Pb L) as (a0 & a1 & E0 & E1 & W1 & Z1 & N1 & D0 & D1 & Po).
  destruct (bits_of N b Vb Pb) as [Bb Eb]. destruct (bits_of N n Vn ltac:(lia)) as [Bn En].
  pose proof (v_pos _ _ Vn) as Pn. set (o := (element_pos n - element_pos b)%nat) in *. set (db := bit_pos n - bit_pos b) in *.
  set (d := 64 * Z.of_nat o + db) in *.
  assert (Eo : wrap 64 (Z.of_nat (element_pos n) - Z.of_nat (element_pos b)) = Z.of_nat o) by (rewrite wrap_small; unfold o; lia).
  unfold multiply_2_until. rewrite cassert_ok by (apply negb_true_iff, Z.eqb_neq; lia). cbn [bind].
  rewrite cassert_ok by (apply Nat.leb_le; exact Po). cbn [bind]. rewrite Eo.
  assert (Eb0 : (0 <? Z.of_nat o) = (0 <? o)%nat) by (destruct (Z.ltb_spec 0 (Z.of_nat o)), (Nat.ltb_spec 0 o); try reflexivity; lia).
  rewrite Eb0, Nat2Z.id, E0. cbn [bind].
  assert (Ep : (if (0 <? o)%nat then Z.to_nat (wrap 64 (Z.of_nat (element_pos b) + Z.of_nat o)) else element_pos b) = element_pos n).
  { destruct (Nat.ltb_spec 0 o); [rewrite wrap_small by (unfold o in *; lia); unfold o; lia | unfold o in *; lia]. }
  rewrite Ep. fold db. cbn [bind] in E1. rewrite E1. cbn [bind].
  assert (Ec : wrap 64 ((if (0 <? o)%nat then wrap 64 (Z.of_nat o * element_number_of_bits) else 0) + db) = d).
  { unfold element_number_of_bits. destruct (Nat.ltb_spec 0 o).
    - rewrite (wrap_small 64 (Z.of_nat o * 64)) by (unfold o in *; lia). rewrite wrap_small; unfold d, o in *; lia.
    - rewrite wrap_small; unfold d in *; lia. }
  rewrite Ec. rewrite (geq_from_ok N _ a1 (elements n)) by (try reflexivity; try lia; (apply (words_le a1 _ N W1) || apply (words_le _ _ N (v_words _ _ Vn))); lia).
  cbn [bind]. fold (val n). rewrite N1.
  pose proof (Z.log2_nonneg (val b)) as Lb. pose proof (Z.log2_nonneg (val n)) as Ln.
  destruct (Z.log2_spec (val b) Pb) as [LB UB]. destruct (Z.log2_spec (val n) ltac:(lia)) as [LN UN].
  set (lb := Z.log2 (val b)) in *. set (ln := Z.log2 (val n)) in *.
  assert (PD : forall e, 0 <= e -> 2 ^ (lb + e) <= val b * 2 ^ e < 2 ^ (lb + e + 1)).
  { intros e He. replace (lb + e + 1) with (Z.succ lb + e) by lia. rewrite !Z.pow_add_r by lia. assert (0 < 2 ^ e) by (apply Z.pow_pos_nonneg; lia). nia. }
  assert (Mono : forall i j, 0 <= i -> i <= j -> val b * 2 ^ i <= val b * 2 ^ j).
  { intros i j Hi Hj. apply Z.mul_le_mono_nonneg_l; [lia|]. apply Z.pow_le_mono_r; lia. }
  destruct (Z.leb_spec (val n) (val b * 2 ^ d)) as [G|G].
  - (* aligned value is enough *)
    assert (k = d).
    { destruct (Z_lt_le_dec k d) as [C|C].
      - destruct (PD k Hk) as [_ U]. assert (2 ^ (lb + k + 1) <= 2 ^ ln) by (apply Z.pow_le_mono_r; lia). lia.
      - destruct (Z.eq_dec k d) as [|Q]; [assumption|]. exfalso. pose proof (Mono d (k - 1) D0 ltac:(lia)). lia. }
    subst k. eexists. split; [reflexivity|]. apply valid_make; try assumption.
    destruct (PD d D0) as [U1 U2]. replace (64 * Z.of_nat (element_pos n) + bit_pos n - 1) with (lb + d) by lia.
    replace (64 * Z.of_nat (element_pos n) + bit_pos n) with (lb + d + 1) by lia. lia.
  - assert (k = d + 1).
    { destruct (Z_lt_le_dec k (d + 1)) as [C|C].
      - pose proof (Mono k d Hk ltac:(lia)). lia.
      - destruct (Z.eq_dec k (d + 1)) as [|Q]; [assumption|]. exfalso. pose proof (Mono (d + 1) (k - 1) ltac:(lia) ltac:(lia)).
        destruct (PD (d + 1) ltac:(lia)) as [U _]. assert (2 ^ Z.succ ln <= 2 ^ (lb + (d + 1))) by (apply Z.pow_le_mono_r; lia). lia. }
    subst k. rewrite (wrap_small 64 (d + 1)).
    2:{ split; [lia|]. destruct (PD (d + 1) ltac:(lia)) as [U _]. rewrite Wp_eq in F.
        assert (X : 2 ^ (lb + (d + 1)) < 2 ^ (64 * Z.of_nat N)) by lia. apply pow_lt_inv in X; lia. }
    unfold element_number_of_bits.
    assert (S1 : exists p' b', (if bit_pos n =? 64 then (S (element_pos n), 1) else (element_pos n, bit_pos n + 1)) = (p', b') /\
      64 * Z.of_nat p' + b' = lb + (d + 1) + 1 /\ 1 <= b' <= 64 /\ (p' < N)%nat /\ (element_pos n <= p')%nat).
    { destruct (PD (d + 1) ltac:(lia)) as [U _].
      assert (X : 2 ^ (lb + (d + 1)) < 2 ^ (64 * Z.of_nat N)) by (rewrite Wp_eq in F; lia). apply pow_lt_inv in X; [|lia].
      destruct (Z.eqb_spec (bit_pos n) 64) as [Q|Q]; eexists; eexists; (split; [reflexivity|]); repeat apply conj; lia. }
    destruct S1 as (p' & b' & -> & Epb & Hb' & Hp' & Hpp).
    assert (Ea : (if bit_pos n =? 64 then cassert cfg (negb (Z.of_nat p' =? Z.of_nat N)) else Ok tt) = Ok tt).
    { destruct (bit_pos n =? 64); [|reflexivity]. apply cassert_ok. apply negb_true_iff, Z.eqb_neq. lia. }
    rewrite Ea. cbn [bind]. destruct (shift_one_bit_ok N a1 p' Hp' W1) as (a2 & -> & H1 & H2). cbn [bind].
    eexists. split; [reflexivity|].
    assert (N2 : number a1 (S p') = val b * 2 ^ d) by (rewrite <- N1; apply number_zero; [lia | intros i Hi; apply Z1; lia]).
    assert (E2 : val b * 2 ^ (d + 1) = 2 ^ 1 * number a1 (S p')) by (rewrite N2, Z.pow_add_r by lia; ring).
    destruct (PD (d + 1) ltac:(lia)) as [U1 U2].
    assert (B2 : val b * 2 ^ (d + 1) < Wp (S p')).
    { apply Z.lt_le_trans with (1 := U2). rewrite Wp_eq. apply Z.pow_le_mono_r; lia. }
    apply valid_make.
    + intros i Hi. destruct (Nat.le_gt_cases i p') as [Q|Q].
      * rewrite H1 by exact Q. apply (shifted_words a1 1 N); [lia | exact W1 | exact Hi].
      * rewrite H2 by lia. apply W1. exact Hi.
    + exact Hp'.
    + intros i Hi. rewrite H2 by lia. apply Z1. lia.
    + rewrite (number_ext a2 (shifted a1 1)) by (intros i Hi; apply H1; lia). rewrite shifted_exact; [symmetry; exact E2 | lia | | lia].
      apply (words_le a1 _ N W1). lia.
    + exact Hb'.
    + rewrite Epb. replace (lb + (d + 1) + 1 - 1) with (lb + (d + 1)) by ring. split; assumption.
Qed.

Lemma multiply_2_until_self cfg N b : valid N b -> 0 < val b ->
  exists b', multiply_2_until cfg N (fun a => a) b (element_pos b) (bit_pos b) = Ok (b', 0) /\ valid N b' /\ val b' = val b.
Proof.
  intros V P. destruct (bits_of N b V P) as [B E]. pose proof (v_pos _ _ V). unfold multiply_2_until.
  rewrite cassert_ok by (apply negb_true_iff, Z.eqb_neq; lia). cbn [bind]. rewrite cassert_ok by (apply Nat.leb_le; lia). cbn [bind].
  rewrite !Z.sub_diag. change (wrap 64 0) with 0. cbn [Z.ltb Z.compare bind].
  rewrite (geq_from_ok N _ (elements b) (elements b)) by (try reflexivity; try lia; apply (words_le _ _ N (v_words _ _ V)); lia).
  cbn [bind]. rewrite Z.leb_refl. change (wrap 64 (0 + 0)) with 0. eexists. split; [reflexivity|]. split; [|reflexivity].
  destruct V. split; assumption.
Qed.

(** ** Sums *)
Definition added (N : nat) (a0 n : nat -> Z) (k : nat) (st : (nat -> Z) * Z) : Prop :=
  number (fst st) k + snd st * Wp k = number a0 k + number n k /\ 0 <= snd st <= 1 /\ words (fst st) N /\
  forall j, (k <= j)%nat -> fst st j = a0 j.

Lemma add_common_ok N src a0 n i m st : (i + m <= N)%nat -> words n (i + m) ->
  (forall a k, (i <= k < i + m)%nat -> (forall j, (k <= j)%nat -> a j = a0 j) -> src a k = n k) ->
  added N a0 n i st -> exists st', add_common N src i m st = Ok st' /\ added N a0 n (i + m) st'.
Proof.
  intros HN Hn Hs H0. unfold add_common. apply (up_loop_inv (added N a0 n)); [exact H0|].
  intros k [a c] Hk (I1 & I2 & I3 & I4). cbn [fst snd] in *.
  rewrite sel_ok by lia. cbn [bind]. rewrite sel_ok by lia. cbn [bind]. rewrite (Hs a k Hk I4).
  pose proof (I3 k ltac:(lia)) as Wa. pose proof (Hn k ltac:(lia)) as Wn.
  pose proof (add_twice (a k) (n k) c Wa Wn I2) as A. cbv zeta in A. destruct A as (A1 & A2 & A3).
  rewrite upd_ok by lia. cbn [bind]. eexists. split; [reflexivity|]. unfold added. cbn [fst snd]. rewrite (I4 k) in * by lia.
  repeat apply conj; try lia.
  - rewrite (number_S (put _ _ _)), put_same, number_put_above, !number_S, Wp_S by lia.
    set (s := wrap 64 (wrap 64 (a0 k + c) + n k)) in *. set (c' := Z.lor _ _) in *. pose proof (Wp_pos k).
    replace (c' * (Wp k * W)) with ((c' * W) * Wp k) by ring. nia.
  - apply words_put; assumption.
  - intros j Hj. rewrite put_other by lia. apply I4. lia.
Qed.

(** a carry running through elements to which nothing else is added *)
Lemma carry_loop_ok N (get : (nat -> Z) -> nat -> Z) a0 n i m st : (i + m <= N)%nat ->
  (forall a k, (i <= k < i + m)%nat -> (forall j, (k <= j)%nat -> a j = a0 j) -> get a k = a0 k + n k /\ 0 <= get a k < W) ->
  added N a0 n i st ->
  exists st', up_loop (fun idx (st : (nat -> Z) * Z) => let '(a, carry) := st in
            w <- sel N (get a) idx ;;
            let s := wrap 64 (w + carry) in
            a <- upd N a idx s ;; Ok (a, if s <? carry then 1 else 0)) i m st = Ok st' /\ added N a0 n (i + m) st'.
Proof.
  intros HN Hs H0. apply (up_loop_inv (added N a0 n)); [exact H0|].
  intros k [a c] Hk (I1 & I2 & I3 & I4). cbn [fst snd] in *.
  rewrite sel_ok by lia. cbn [bind]. destruct (Hs a k Hk I4) as [G1 G2].
  pose proof (add_once (get a k) c G2 ltac:(lia)) as A. cbv zeta in A. destruct A as (A1 & A2 & A3).
  rewrite upd_ok by lia. cbn [bind]. eexists. split; [reflexivity|]. unfold added. cbn [fst snd].
  repeat apply conj; try lia.
  - rewrite (number_S (put _ _ _)), put_same, number_put_above, !number_S, Wp_S by lia.
    set (s := wrap 64 (get a k + c)) in *. set (c' := if s <? c then 1 else 0) in *. pose proof (Wp_pos k).
    replace (c' * (Wp k * W)) with ((c' * W) * Wp k) by ring. nia.
  - apply words_put; assumption.
  - intros j Hj. rewrite put_other by lia. apply I4. lia.
Qed.

Lemma added_first N a0 n : (1 <= N)%nat -> words a0 N -> 0 <= n 0%nat < W ->
  let s := wrap 64 (a0 0%nat + n 0%nat) in added N a0 n 1 (put a0 0 s, if s <? n 0%nat then 1 else 0).
Proof.
  intros HN Hw Hn s. pose proof (add_once (a0 0%nat) (n 0%nat) (Hw 0%nat ltac:(lia)) Hn) as A. cbv zeta in A. fold s in A. destruct A as (A1 & A2 & A3).
  unfold added. cbn [fst snd]. repeat apply conj; try lia.
  - rewrite !number_S, put_same, Wp_S, Wp_0. cbn [number]. lia.
  - apply words_put; assumption.
  - intros j Hj. apply put_other. lia.
Qed.

Lemma set_leading_one_pos_ok cfg N m st v : words (fst st) N -> (m < N)%nat -> (forall i, (m < i < N)%nat -> fst st i = 0) ->
  0 <= snd st <= 1 -> number (fst st) (S m) + snd st * Wp (S m) = v -> v < Wp N -> (m = 0%nat \/ Wp m <= v) ->
  exists b, set_leading_one_pos cfg N m st = Ok b /\ valid N b /\ val b = v.
Proof.
  destruct st as [a c]. cbn [fst snd]. intros Hw Hm Ha Hc Hv F Ht. unfold set_leading_one_pos.
  pose proof (number_bounds a (S m) ltac:(apply (words_le a _ N Hw); lia)) as B.
  destruct (Z.eqb_spec c 0) as [E|E]; cbn [negb].
  - rewrite sel_ok by exact Hm. cbn [bind]. eexists. split; [reflexivity|]. apply valid_make_top; try assumption. lia.
  - assert (c = 1) by lia. subst c. assert (S m < N)%nat by (apply Wp_lt_inv; lia).
    rewrite cassert_ok by (apply Nat.ltb_lt; assumption). cbn [bind]. rewrite upd_ok by assumption. cbn [bind]. eexists. split; [reflexivity|].
    assert (E2 : number (put a (S m) 1) (S (S m)) = v) by (rewrite number_S, put_same, number_put_above by lia; lia).
    assert (W2 : words (put a (S m) 1) N) by (apply words_put; [exact Hw | lia]).
    apply valid_make; try assumption; try lia.
    + intros i Hi. rewrite put_other by lia. apply Ha. lia.
    + replace (64 * Z.of_nat (S m) + 1 - 1) with (64 * Z.of_nat (S m)) by ring. rewrite Z.pow_add_r by lia. rewrite <- !Wp_eq. change (2 ^ 1) with 2. lia.
Qed.

Lemma above_zero N b i : valid N b -> (element_pos b < i < N)%nat -> elements b i = 0.
Proof. intros V H. apply (v_above _ _ V). exact H. Qed.
Lemma val_number_at N b m : valid N b -> (element_pos b < m <= N)%nat -> number (elements b) m = val b.
Proof. intros V H. apply number_zero; [lia|]. intros i Hi. apply (v_above _ _ V). lia. Qed.

(** an operand whose top element may be zero *)
Record loose (N : nat) (b : big) : Prop := {
  l_words : words (elements b) N;
  l_pos : (element_pos b < N)%nat;
  l_above : forall i, (element_pos b < i < N)%nat -> elements b i = 0
}.
Lemma valid_loose N b : valid N b -> loose N b.
Proof. intros [A B C _ _]. split; assumption. Qed.
Lemma loose_number_at N b m : loose N b -> (element_pos b < m <= N)%nat -> number (elements b) m = val b.
Proof. intros V H. apply number_zero; [lia|]. intros i Hi. apply (l_above _ _ V). lia. Qed.
Lemma loose_bounds N b : loose N b -> 0 <= val b < Wp N.
Proof. intros V. pose proof (l_pos _ _ V). rewrite <- (loose_number_at N b N V) by lia. apply number_bounds, (l_words _ _ V). Qed.

(** [n] is read through [src]: either another object or the object itself *)
Lemma add_assign_loose cfg N src b n : valid N b -> loose N n -> ((element_pos b < element_pos n)%nat -> Wp (element_pos n) <= val n) -> val b + val n < Wp N ->
  (forall a k, (k < N)%nat -> (forall j, (k <= j)%nat -> a j = elements b j) -> src a k = elements n k) ->
  exists b', add_assign cfg N src b (element_pos n) = Ok b' /\ valid N b' /\ val b' = val b + val n.
Proof.
  intros Vb Vn Tn F Hs. pose proof (v_pos _ _ Vb) as Pb. pose proof (l_pos _ _ Vn) as Pn. unfold add_assign.
  rewrite !sel_ok by lia. cbn [bind]. rewrite (Hs (elements b) 0%nat) by (try lia; reflexivity). rewrite upd_ok by lia. cbn [bind].
  pose proof (added_first N (elements b) (elements n) ltac:(lia) (v_words _ _ Vb) (l_words _ _ Vn 0%nat ltac:(lia))) as A0. cbv zeta in A0.
  pose proof (val_bounds N b Vb) as Bb. pose proof (loose_bounds N n Vn) as Bn.
  destruct (Nat.ltb_spec (element_pos b) (element_pos n)) as [L|L].
  - destruct (add_common_ok N src (elements b) (elements n) 1 (element_pos b) _ ltac:(lia) ltac:(apply (words_le _ _ N (l_words _ _ Vn)); lia)
      ltac:(intros a k Hk Hj; apply Hs; [lia | exact Hj]) A0) as (s1 & -> & A1). cbn [bind].
    destruct (carry_loop_ok N src (elements b) (elements n) (S (element_pos b)) (element_pos n - element_pos b) s1 ltac:(lia)) as (s2 & E2 & A2).
    { intros a k Hk Hj. rewrite (Hs a k) by (try lia; exact Hj). rewrite (above_zero N b k Vb) by lia. split; [ring|]. apply (l_words _ _ Vn). lia. }
    { exact A1. }
    cbn [bind] in E2. rewrite E2. cbn [bind]. replace (S (element_pos b) + (element_pos n - element_pos b))%nat with (S (element_pos n)) in A2 by lia.
    destruct A2 as (I1 & I2 & I3 & I4). apply set_leading_one_pos_ok; try assumption.
    + intros i Hi. rewrite I4 by lia. apply (above_zero N b i Vb). lia.
    + rewrite I1. rewrite (val_number_at N b) by (try assumption; lia). reflexivity.
    + right. pose proof (Tn L). lia.
  - destruct (add_common_ok N src (elements b) (elements n) 1 (element_pos n) _ ltac:(lia) ltac:(apply (words_le _ _ N (l_words _ _ Vn)); lia)
      ltac:(intros a k Hk Hj; apply Hs; [lia | exact Hj]) A0) as (s1 & -> & A1). cbn [bind].
    destruct (carry_loop_ok N (fun a => a) (elements b) (elements n) (S (element_pos n)) (element_pos b - element_pos n) s1 ltac:(lia)) as (s2 & E2 & A2).
    { intros a k Hk Hj. cbv beta. rewrite (Hj k) by lia. rewrite (l_above N n Vn k) by lia. split; [ring|]. apply (v_words _ _ Vb). lia. }
    { exact A1. }
    cbn [bind] in E2. rewrite E2. cbn [bind]. replace (S (element_pos n) + (element_pos b - element_pos n))%nat with (S (element_pos b)) in A2 by lia.
    destruct A2 as (I1 & I2 & I3 & I4). apply set_leading_one_pos_ok; try assumption.
    + intros i Hi. rewrite I4 by lia. apply (above_zero N b i Vb). lia.
    + rewrite I1. rewrite (loose_number_at N n) by (try assumption; lia). reflexivity.
    + destruct (Nat.eq_dec (element_pos b) 0); [left; assumption|]. right. pose proof (val_pos_lower N b Vb ltac:(lia)). lia.
Qed.
Lemma add_assign_valid cfg N src b n : valid N b -> valid N n -> val b + val n < Wp N ->
  (forall a k, (k < N)%nat -> (forall j, (k <= j)%nat -> a j = elements b j) -> src a k = elements n k) ->
  exists b', add_assign cfg N src b (element_pos n) = Ok b' /\ valid N b' /\ val b' = val b + val n.
Proof.
  intros Vb Vn F Hs. apply add_assign_loose; try assumption; [apply valid_loose, Vn|]. intros L. apply (val_pos_lower N n Vn). lia.
Qed.

(** the sum with an element: the elements are right; the recorded position of the leading bit only when a
    carry leaves the top element or the number of bits does not change *)
Lemma add_element_elements cfg N b x : valid N b -> 0 <= x < W -> val b + x < Wp N ->
  exists b', add_element cfg N b x = Ok b' /\ words (elements b') N /\ number (elements b') N = val b + x /\
    (forall v, v = val b + x -> (nbits v = nbits (val b) \/ v >= Wp (S (element_pos b))) -> 0 < val b -> valid N b' /\ val b' = v).
Proof.
  intros Vb Hx F. pose proof (v_pos _ _ Vb) as Pb. pose proof (val_bounds N b Vb) as Bb. unfold add_element.
  rewrite sel_ok by lia. cbn [bind]. rewrite upd_ok by lia. cbn [bind].
  set (n := fun i : nat => match i with O => x | _ => 0 end).
  pose proof (added_first N (elements b) n ltac:(lia) (v_words _ _ Vb) Hx) as A0. cbv zeta in A0. change (n 0%nat) with x in A0.
  destruct (carry_loop_ok N (fun a => a) (elements b) n 1 (element_pos b) _ ltac:(lia)
    ltac:(intros a k Hk Hj; cbv beta; rewrite (Hj k) by lia; destruct k as [|k]; [lia|]; cbn [n]; split; [ring | apply (v_words _ _ Vb); lia]) A0) as ([a c] & E2 & A2).
  cbn [bind] in E2. rewrite E2. cbn [bind]. destruct A2 as (I1 & I2 & I3 & I4). cbn [fst snd] in *.
  assert (En : forall m, number n (S m) = x).
  { intros m. rewrite (number_zero n 1 (S m)) by (try lia; intros i Hi; destruct i; (lia || reflexivity)). rewrite number_S, Wp_0. cbn [number n]. ring. }
  change (1 + element_pos b)%nat with (S (element_pos b)) in *. rewrite En in I1. fold (val b) in I1.
  assert (Ha : forall i, (element_pos b < i < N)%nat -> a i = 0) by (intros i Hi; rewrite I4 by lia; apply (above_zero N b i Vb); lia).
  pose proof (number_bounds a (S (element_pos b)) ltac:(apply (words_le a _ N I3); lia)) as B.
  destruct (Z.eqb_spec c 0) as [E|E]; cbn [negb].
  - subst c. eexists. split; [reflexivity|]. cbn [elements].
    split; [exact I3|]. split; [rewrite (number_zero a (S (element_pos b)) N) by (try lia; intros i Hi; apply Ha; lia); lia|].
    intros v -> Hv P. destruct Hv as [Hv|Hv]; [|lia]. destruct (bits_of N b Vb P) as [Bp Ep].
    apply valid_make; try assumption; try lia. rewrite (nbits_pos (val b)), nbits_pos in Hv by lia. rewrite Ep.
    replace (Z.log2 (val b) + 1 - 1) with (Z.log2 (val b)) by ring.
    replace (Z.log2 (val b)) with (Z.log2 (val b + x)) by lia. apply Z.log2_spec. lia.
  - assert (c = 1) by lia. subst c. assert (S (element_pos b) < N)%nat by (apply Wp_lt_inv; lia).
    rewrite cassert_ok by (apply Nat.ltb_lt; assumption). cbn [bind]. rewrite upd_ok by assumption. cbn [bind]. eexists. split; [reflexivity|]. cbn [elements].
    assert (E3 : number (put a (S (element_pos b)) 1) (S (S (element_pos b))) = val b + x) by (rewrite number_S, put_same, number_put_above by lia; lia).
    assert (W2 : words (put a (S (element_pos b)) 1) N) by (apply words_put; [exact I3 | lia]).
    assert (A3 : forall i, (S (element_pos b) < i < N)%nat -> put a (S (element_pos b)) 1 i = 0) by (intros i Hi; rewrite put_other by lia; apply Ha; lia).
    split; [exact W2|]. split; [rewrite (number_zero _ (S (S (element_pos b))) N) by (try lia; intros i Hi; apply A3; lia); exact E3|].
    intros v -> _ _. apply valid_make; try assumption; try lia.
    replace (64 * Z.of_nat (S (element_pos b)) + 1 - 1) with (64 * Z.of_nat (S (element_pos b))) by ring. rewrite Z.pow_add_r by lia. rewrite <- !Wp_eq. change (2 ^ 1) with 2. lia.
Qed.

(** ** Times 5 *)
Lemma times_4_ok N a junk p : (p < N)%nat -> words a N ->
  exists t, down_loop (fun idx t =>
         v <- sel N a idx ;; v <- shl 64 v 2 ;; t <- upd N t idx v ;;
         low <- sel N a (idx - 1) ;; low <- shr 64 low (64 - 2) ;;
         v <- sel N t idx ;; upd N t idx (Z.lor v low)) p junk = Ok t /\ forall i, (0 < i <= p)%nat -> t i = shifted a 2 i.
Proof.
  intros Hp Hw.
  apply (down_loop_inv (fun k t => forall i, (k < i <= p)%nat -> t i = shifted a 2 i)).
  - intros i Hi. lia.
  - intros j t Hj H. replace (S j - 1)%nat with j by lia.
    rewrite sel_ok by lia. cbn [bind]. rewrite shl_ok by lia. cbn [bind]. rewrite upd_ok by lia. cbn [bind].
    rewrite sel_ok by lia. cbn [bind]. rewrite shr_ok by lia. cbn [bind]. rewrite sel_ok by lia. cbn [bind]. rewrite put_same, upd_ok by lia.
    eexists. split; [reflexivity|]. intros i Hi. unfold put. destruct (Nat.eqb_spec i (S j)) as [->|Q].
    + rewrite lor_shl by (try lia; apply Hw; lia). reflexivity.
    + apply H. lia.
Qed.

Lemma multiply_5_valid cfg N junk b : valid N b -> 0 < val b -> 5 * val b < Wp N ->
  exists b', multiply_5 cfg N junk b = Ok b' /\ valid N b' /\ val b' = 5 * val b.
Proof.
  intros V P F. destruct (bits_of N b V P) as [B E]. pose proof (v_pos _ _ V) as Pp. unfold multiply_5.
  rewrite cassert_ok by (apply negb_true_iff, Z.eqb_neq; lia). cbn [bind]. unfold element_number_of_bits.
  destruct (Z.log2_spec (val b) P) as [LB UB]. pose proof (Z.log2_nonneg (val b)) as L0. set (lb := Z.log2 (val b)) in *.
  assert (X4 : 2 ^ (lb + 2) <= 4 * val b < 2 ^ (lb + 3)).
  { replace (lb + 3) with (Z.succ lb + 2) by lia. rewrite !Z.pow_add_r by lia. change (2 ^ 2) with 4. lia. }
  assert (LN : lb + 2 < 64 * Z.of_nat N) by (apply pow_lt_inv; [lia|]; rewrite <- Wp_eq; lia).
  set (over := 64 <? bit_pos b + 2).
  set (tpos := if over then S (element_pos b) else element_pos b). set (tbits := if over then bit_pos b + 2 - 64 else bit_pos b + 2).
  assert (T : 64 * Z.of_nat tpos + tbits = lb + 3 /\ 1 <= tbits <= 64 /\ (element_pos b <= tpos)%nat).
  { unfold tpos, tbits, over. destruct (Z.ltb_spec 64 (bit_pos b + 2)); lia. }
  destruct T as (T1 & T2 & T3). assert (Tp : (tpos < N)%nat) by lia.
  assert (Ea : (if over then cassert cfg (negb (Z.of_nat (S (element_pos b)) =? Z.of_nat N)) else Ok tt) = Ok tt).
  { unfold tpos in Tp. destruct over; [|reflexivity]. apply cassert_ok. apply negb_true_iff, Z.eqb_neq. lia. }
  rewrite Ea. cbn [bind]. pose proof (v_words _ _ V) as Wb.
  destruct (times_4_ok N (elements b) junk tpos Tp Wb) as (t0 & -> & Ht0). cbn [bind].
  rewrite !sel_ok by lia. cbn [bind]. rewrite shl_ok by lia. cbn [bind]. rewrite upd_ok by lia. cbn [bind].
  set (t := put t0 0 ((elements b 0%nat * 2 ^ 2) mod W)).
  assert (Ht : forall i, (i <= tpos)%nat -> t i = shifted (elements b) 2 i).
  { intros i Hi. unfold t, put. destruct (Nat.eqb_spec i 0) as [->|Q]; [unfold shifted; ring | apply Ht0; lia]. }
  assert (Wt : words t (S tpos)).
  { intros i Hi. rewrite Ht by lia. apply (shifted_words (elements b) 2 N); [lia | exact Wb | lia]. }
  assert (Nb : number (elements b) (S tpos) = val b) by (apply (val_number_at N b); [exact V | lia]).
  assert (Nt : number t (S tpos) = 4 * val b).
  { rewrite (number_ext t (shifted (elements b) 2)) by (intros i Hi; apply Ht; lia). rewrite shifted_exact.
    - rewrite Nb. ring.
    - lia.
    - apply (words_le _ _ N Wb). lia.
    - rewrite Nb. change (2 ^ 2) with 4. apply Z.lt_le_trans with (1 := proj2 X4). rewrite Wp_eq. apply Z.pow_le_mono_r; lia. }
  rewrite sel_ok by lia. cbn [bind]. rewrite upd_ok by lia. cbn [bind].
  pose proof (added_first N (elements b) t ltac:(lia) Wb (Wt 0%nat ltac:(lia))) as A0. cbv zeta in A0.
  destruct (add_common_ok N (fun _ => t) (elements b) t 1 tpos _ ltac:(lia) Wt ltac:(reflexivity) A0) as ([a c] & E1 & A1).
  unfold add_common in E1. cbn [bind] in E1. rewrite E1. cbn [bind]. destruct A1 as (I1 & I2 & I3 & I4). cbn [fst snd] in *.
  change (1 + tpos)%nat with (S tpos) in *. rewrite Nb, Nt in I1. assert (I1' : number a (S tpos) + c * Wp (S tpos) = 5 * val b) by lia. clear I1.
  assert (Ha : forall i, (tpos < i < N)%nat -> a i = 0) by (intros i Hi; rewrite I4 by lia; apply (above_zero N b i V); lia).
  pose proof (number_bounds a (S tpos) ltac:(apply (words_le a _ N I3); lia)) as Ba.
  destruct (Z.eqb_spec c 0) as [C|C]; cbn [negb].
  - subst c. rewrite Z.mul_0_l, Z.add_0_r in I1'.
    rewrite shr_ok by lia. cbn [bind]. rewrite sel_ok by lia. cbn [bind].
    assert (Eth : (2 ^ 64 - 1) / 2 ^ (64 - tbits) = 2 ^ tbits - 1).
    { symmetry. apply (Z.div_unique_pos _ _ _ (2 ^ (64 - tbits) - 1)).
      - pose proof (pow_ge1 (64 - tbits) ltac:(lia)). lia.
      - rewrite (pow_split tbits) by lia. ring. }
    rewrite Eth.
    assert (Q : number a (S tpos) = number a tpos + a tpos * Wp tpos) by apply number_S.
    pose proof (number_bounds a tpos ltac:(apply (words_le a _ N I3); lia)) as Bl.
    assert (PW : 2 ^ (64 * Z.of_nat tpos + tbits) = Wp tpos * 2 ^ tbits) by (rewrite Wp_eq, Z.pow_add_r by lia; reflexivity).
    assert (PV : 2 ^ (lb + 3) = Wp tpos * 2 ^ tbits) by (rewrite <- T1; exact PW).
    pose proof (Wp_pos tpos). pose proof (pow_ge1 tbits ltac:(lia)).
    assert (H5 : 5 * val b < 2 * 2 ^ (lb + 3)) by lia.
    set (bits := if 2 ^ tbits - 1 <? a tpos then tbits + 1 else tbits).
    assert (Hb : 1 <= bits <= 64 /\ 2 ^ (64 * Z.of_nat tpos + bits - 1) <= 5 * val b < 2 ^ (64 * Z.of_nat tpos + bits)).
    { unfold bits. destruct (Z.ltb_spec (2 ^ tbits - 1) (a tpos)) as [G|G].
      - assert (tbits < 64).
        { apply pow_lt_inv; [lia|]. pose proof (I3 tpos Tp). lia. }
        split; [lia|]. replace (64 * Z.of_nat tpos + (tbits + 1) - 1) with (64 * Z.of_nat tpos + tbits) by ring.
        replace (64 * Z.of_nat tpos + (tbits + 1)) with (lb + 3 + 1) by lia. rewrite PW, (Z.pow_add_r 2 (lb + 3) 1) by lia. change (2 ^ 1) with 2.
        split; [nia | lia].
      - split; [lia|]. rewrite PW. replace (64 * Z.of_nat tpos + tbits - 1) with (lb + 2) by lia. split; [lia | nia]. }
    destruct Hb as [Hb1 Hb2]. rewrite cassert_ok by (cbn [element_pos]; apply negb_true_iff, Z.eqb_neq; lia). cbn [bind].
    rewrite cassert_ok by (cbn [bit_pos]; fold bits; apply Z.leb_le; lia). cbn [bind]. eexists. split; [reflexivity|].
    apply valid_make; assumption.
  - assert (c = 1) by lia. subst c. assert (Sp : (S tpos < N)%nat) by (apply Wp_lt_inv; lia).
    rewrite upd_ok by exact Sp. cbn [bind]. rewrite cassert_ok by (cbn [element_pos]; apply negb_true_iff, Z.eqb_neq; lia). cbn [bind].
    rewrite cassert_ok by reflexivity. cbn [bind]. eexists. split; [reflexivity|].
    apply valid_make; try assumption; try lia.
    + apply words_put; [exact I3 | lia].
    + intros i Hi. rewrite put_other by lia. apply Ha. lia.
    + rewrite number_S, put_same, number_put_above by lia. lia.
    + replace (64 * Z.of_nat (S tpos) + 1 - 1) with (64 * Z.of_nat (S tpos)) by ring. rewrite Z.pow_add_r by lia. rewrite <- !Wp_eq. change (2 ^ 1) with 2. lia.
Qed.

(** ** Differences *)
Lemma sub_twice v w c : 0 <= v < W -> 0 <= w < W -> 0 <= c <= 1 ->
  let wc := wrap 64 (w + c) in let s := wrap 64 (v - wc) in
  let c' := Z.lor (if wc <? c then 1 else 0) (if v <? wc then 1 else 0) in s - c' * W = v - w - c /\ 0 <= s < W /\ 0 <= c' <= 1.
Proof.
  intros Hv Hw Hc. cbv zeta. pose proof (add_once w c Hw ltac:(lia)) as A. cbv zeta in A.
  set (wc := wrap 64 (w + c)) in *. destruct A as (A1 & A2 & A3). pose proof (wrap_words (v - wc)) as R.
  assert (S : wrap 64 (v - wc) = v - wc + (if v <? wc then 1 else 0) * W).
  { unfold wrap. destruct (Z.ltb_spec v wc); [symmetry; apply (Z.mod_unique_pos _ _ (-1)); lia | rewrite Z.mod_small; lia]. }
  destruct (wc <? c) eqn:E1, (v <? wc) eqn:E2; cbn [Z.lor Pos.lor]; try lia.
Qed.
Definition subtracted (N : nat) (a0 n : nat -> Z) (k : nat) (st : (nat -> Z) * Z) : Prop :=
  number (fst st) k - snd st * Wp k = number a0 k - number n k /\ 0 <= snd st <= 1 /\ words (fst st) N /\
  forall j, (k <= j)%nat -> fst st j = a0 j.

Lemma number_tail a b k n : (k <= n)%nat -> (forall i, (k <= i < n)%nat -> a i = b i) -> number a n - number a k = number b n - number b k.
Proof.
  intros L H. induction n as [|n IH].
  - replace k with 0%nat by lia. lia.
  - destruct (Nat.eq_dec k (S n)) as [->|]; [lia|]. rewrite !number_S, (H n) by lia. specialize (IH ltac:(lia) ltac:(intros i Hi; apply H; lia)). lia.
Qed.

Lemma borrow_ok cfg N j fuel a i : words a N -> (i <= j < N)%nat -> a j <> 0 -> (j - i < fuel)%nat ->
  exists a', borrow cfg N fuel a i = Ok a' /\ words a' N /\ number a' N = number a N - Wp i /\ (forall k, (k < i)%nat \/ (j < k)%nat -> a' k = a k).
Proof.
  revert a i. induction fuel as [|fuel IH]; intros a i Hw Hj Nz Hf; [lia|]. cbn [borrow]. rewrite sel_ok by lia. cbn [bind].
  destruct (Z.eqb_spec (a i) 0) as [E|E].
  - assert (i <> j) by (intros ->; contradiction). rewrite upd_ok by lia. cbn [bind]. rewrite cassert_ok by (apply Nat.ltb_lt; lia). cbn [bind].
    destruct (IH (put a i (2 ^ 64 - 1)) (S i)) as (a' & E' & W' & N' & R').
    + apply words_put; [exact Hw | lia].
    + lia.
    + rewrite put_other by lia. exact Nz.
    + lia.
    + exists a'. split; [exact E'|]. split; [exact W'|]. split.
      * rewrite N', number_put, E, Wp_S by lia. ring.
      * intros k Hk. rewrite R' by lia. apply put_other. lia.
  - rewrite upd_ok by lia. pose proof (Hw i ltac:(lia)). rewrite wrap_small by lia. eexists. split; [reflexivity|].
    split; [apply words_put; [exact Hw | lia]|]. split; [rewrite number_put by lia; ring|]. intros k Hk. apply put_other. lia.
Qed.
Lemma find_top_ok N a i : (i < N)%nat -> exists p, find_top N a i = Ok p /\ (p <= i)%nat /\ (p = 0%nat \/ a p <> 0) /\ forall k, (p < k <= i)%nat -> a k = 0.
Proof.
  induction i as [|i IH]; intros H; cbn [find_top].
  - exists 0%nat. repeat apply conj; try lia; try reflexivity.
  - rewrite sel_ok by exact H. cbn [bind]. destruct (Z.eqb_spec (a (S i)) 0) as [E|E]; cbn [negb].
    + destruct (IH ltac:(lia)) as (p & E1 & H1 & H2 & H3). exists p. repeat apply conj; try lia; try assumption.
      intros k Hk. destruct (Nat.eq_dec k (S i)) as [->|]; [exact E | apply H3; lia].
    + exists (S i). repeat apply conj; try lia; try reflexivity.
Qed.

(** [n] is another object or the object itself: the loop reads each element of [n] before it writes it, and
    the final borrow does not read [n]. *)
Lemma sub_assign_loose cfg N b n : valid N b -> loose N n -> (element_pos n <= element_pos b)%nat -> val n <= val b ->
  exists b', sub_assign cfg N b n = Ok b' /\ valid N b' /\ val b' = val b - val n.
Proof.
  intros Vb Vn Pl L. pose proof (v_pos _ _ Vb) as Pb. pose proof (l_pos _ _ Vn) as Pn. pose proof (v_words _ _ Vb) as Wb. pose proof (l_words _ _ Vn) as Wn.
  unfold sub_assign. rewrite !sel_ok by lia. cbn [bind]. rewrite upd_ok by lia. cbn [bind].
  assert (A0 : subtracted N (elements b) (elements n) 1 (put (elements b) 0 (wrap 64 (elements b 0%nat - elements n 0%nat)),
            if elements b 0%nat <? elements n 0%nat then 1 else 0)).
  { pose proof (Wb 0%nat ltac:(lia)). pose proof (Wn 0%nat ltac:(lia)).
    pose proof (sub_twice (elements b 0%nat) (elements n 0%nat) 0 ltac:(lia) ltac:(lia) ltac:(lia)) as A. cbv zeta in A.
    rewrite Z.add_0_r, (wrap_small 64 (elements n 0%nat)) in A by lia. 
    rewrite (proj2 (Z.ltb_ge (elements n 0%nat) 0)) in A by lia. cbn [Z.lor] in A. destruct A as (A1 & A2 & A3).
    unfold subtracted. cbn [fst snd]. rewrite !number_S, put_same, Wp_S, Wp_0. cbn [number].
    repeat apply conj; try lia; [apply words_put; assumption | intros j Hj; apply put_other; lia]. }
  destruct (up_loop_inv (subtracted N (elements b) (elements n)) (fun idx (st : (nat -> Z) * Z) => let '(a, carry) := st in
          w <- sel N (elements n) idx ;;
          let with_carry := wrap 64 (w + carry) in
          let first_carry := if with_carry <? carry then 1 else 0 in
          v <- sel N a idx ;;
          a <- upd N a idx (wrap 64 (v - with_carry)) ;;
          Ok (a, Z.lor first_carry (if v <? with_carry then 1 else 0))) 1 (element_pos n) _ A0) as ([a c] & E1 & A1).
  { intros k [a c] Hk (I1 & I2 & I3 & I4). cbn [fst snd] in *. rewrite !sel_ok by lia. cbn [bind].
    pose proof (sub_twice (a k) (elements n k) c (I3 k ltac:(lia)) (Wn k ltac:(lia)) I2) as A. cbv zeta in A. destruct A as (A1 & A2 & A3).
    rewrite upd_ok by lia. cbn [bind]. eexists. split; [reflexivity|]. unfold subtracted. cbn [fst snd]. rewrite (I4 k) in * by lia.
    repeat apply conj; try lia.
    - rewrite (number_S (put _ _ _)), put_same, number_put_above, !number_S, Wp_S by lia.
      set (s := wrap 64 _) in *. set (c' := Z.lor _ _) in *. pose proof (Wp_pos k). replace (c' * (Wp k * W)) with ((c' * W) * Wp k) by ring. nia.
    - apply words_put; assumption.
    - intros j Hj. rewrite put_other by lia. apply I4. lia. }
  cbn [bind] in E1. rewrite E1. cbn [bind]. destruct A1 as (I1 & I2 & I3 & I4). cbn [fst snd] in *. change (1 + element_pos n)%nat with (S (element_pos n)) in *.
  fold (val n) in I1.
  assert (Nt : number a N = val b - val n + c * Wp (S (element_pos n))).
  { pose proof (number_tail a (elements b) (S (element_pos n)) N ltac:(lia) ltac:(intros i Hi; apply I4; lia)) as T. rewrite (val_number N b Vb) in T. lia. }
  assert (H2 : exists a', (if negb (c =? 0) then borrow cfg N (S N) a (S (element_pos n)) else Ok a) = Ok a' /\
    words a' N /\ number a' N = val b - val n /\ forall i, (element_pos b < i < N)%nat -> a' i = 0).
  { assert (Za : forall i, (element_pos b < i < N)%nat -> a i = 0) by (intros i Hi; rewrite I4 by lia; apply (above_zero N b i Vb); lia).
    destruct (Z.eqb_spec c 0) as [C|C]; cbn [negb].
    - subst c. exists a. repeat apply conj; try assumption; try reflexivity. lia.
    - assert (c = 1) by lia. subst c. rewrite Z.mul_1_l in Nt.
      assert (J : exists j, (S (element_pos n) <= j <= element_pos b)%nat /\ a j <> 0).
      { assert (D : forall m, (m <= N)%nat -> (forall i, (S (element_pos n) <= i < m)%nat -> a i = 0) \/ exists j, (S (element_pos n) <= j < m)%nat /\ a j <> 0).
        { induction m as [|m IH]; intros Hm; [left; intros; lia|]. destruct (IH ltac:(lia)) as [Q|(j & Q1 & Q2)].
          - destruct (Z.eq_dec (a m) 0) as [Q0|Q0].
            + left. intros i Hi. destruct (Nat.eq_dec i m) as [->|]; [exact Q0 | apply Q; lia].
            + destruct (Nat.le_gt_cases (S (element_pos n)) m) as [G|G]; [right; exists m; split; [lia | exact Q0] | left; intros; lia].
          - right. exists j. split; [lia | exact Q2]. }
        destruct (D N (le_n N)) as [Q|(j & Q1 & Q2)].
        - exfalso. rewrite (number_zero a (S (element_pos n)) N) in Nt by (try lia; intros i Hi; apply Q; lia).
          pose proof (number_bounds a (S (element_pos n)) ltac:(apply (words_le a _ N I3); lia)). lia.
        - exists j. split; [|exact Q2]. split; [lia|]. destruct (Nat.le_gt_cases j (element_pos b)) as [|G]; [assumption|]. exfalso. apply Q2, Za. lia. }
      destruct J as (j & Hj & Nz). destruct (borrow_ok cfg N j (S N) a (S (element_pos n)) I3 ltac:(lia) Nz ltac:(lia)) as (a' & E & W' & N' & R').
      exists a'. repeat apply conj; try assumption; [lia|]. intros i Hi. rewrite R' by lia. apply Za. exact Hi. }
  destruct H2 as (a' & -> & W' & N' & Z'). cbn [bind].
  destruct (find_top_ok N a' (element_pos b) Pb) as (p & -> & P1 & P2 & P3). cbn [bind]. rewrite sel_ok by lia. cbn [bind].
  eexists. split; [reflexivity|].
  assert (Zp : forall i, (p < i < N)%nat -> a' i = 0).
  { intros i Hi. destruct (Nat.le_gt_cases i (element_pos b)); [apply P3; lia | apply Z'; lia]. }
  assert (Vr : number a' (S p) = val b - val n) by (rewrite <- N'; symmetry; apply number_zero; [lia | intros i Hi; apply Zp; lia]).
  apply valid_make_top; try assumption; [lia|].
  destruct P2 as [P2|P2]; [left; exact P2 | right]. rewrite <- Vr, number_S. pose proof (W' p ltac:(lia)).
  pose proof (number_bounds a' p ltac:(apply (words_le a' _ N W'); lia)). pose proof (Wp_pos p). nia.
Qed.

Lemma sub_assign_valid cfg N b n : valid N b -> valid N n -> val n <= val b ->
  exists b', sub_assign cfg N b n = Ok b' /\ valid N b' /\ val b' = val b - val n.
Proof.
  intros Vb Vn L. apply sub_assign_loose; try assumption; [apply valid_loose, Vn|].
  destruct (Nat.le_gt_cases (element_pos n) (element_pos b)) as [|G]; [assumption|exfalso].
  pose proof (val_pos_lower N n Vn ltac:(lia)). pose proof (val_pos_bound N b Vb). pose proof (Wp_le (S (element_pos b)) (element_pos n) G). lia.
Qed.

(** ** Products *)
Definition multiplied (N : nat) (x0 : nat -> Z) (y : Z) (k : nat) (st : (nat -> Z) * Z) : Prop :=
  number (fst st) k + snd st * Wp k = y * number x0 k /\ 0 <= snd st < W.

Lemma mul_once cfg x y c : 0 <= x < W -> 0 <= y < W -> 0 <= c < W ->
  let m := umul128 cfg x y in let s := wrap 64 (u128_low m + c) in
  let c' := wrap 64 (u128_high m + (if s <? u128_low m then 1 else 0)) in s + c' * W = x * y + c /\ 0 <= s < W /\ 0 <= c' < W.
Proof.
  intros Hx Hy Hc. cbv zeta. destruct (umul128_exact cfg x y Hx Hy) as [-> ->].
  pose proof (Z.mod_pos_bound (x * y) W ltac:(lia)) as M. pose proof (Z.div_mod (x * y) W ltac:(lia)) as D.
  set (lo := (x * y) mod W) in *. set (hi := x * y / W) in *.
  pose proof (add_once c lo Hc M) as A. cbv zeta in A. rewrite (Z.add_comm c lo) in A. set (s := wrap 64 (lo + c)) in *.
  destruct A as (A1 & A2 & A3). set (k := if s <? lo then 1 else 0) in *.
  assert (0 <= hi + k < W).
  { split; [assert (0 <= hi) by (apply Z.div_pos; nia); lia|]. assert ((hi + k) * W < W * W); [|nia]. assert (x * y + c < W * W) by nia. lia. }
  rewrite (wrap_small 64 (hi + k)) by lia. lia.
Qed.

Lemma mul_assign_element_valid cfg N b x : valid N b -> 0 <= x < W -> (0 < x \/ val b < W) -> val b * x < Wp N ->
  exists b', mul_assign_element cfg N b x = Ok b' /\ valid N b' /\ val b' = val b * x.
Proof.
  intros V Hx Hp F. pose proof (v_pos _ _ V) as Pp. pose proof (v_words _ _ V) as Wb. unfold mul_assign_element.
  destruct (up_loop_inv (fun k st => multiplied N (elements b) x k st /\ words (fst st) N /\ forall j, (k <= j)%nat -> fst st j = elements b j)
    (fun idx (st : (nat -> Z) * Z) => let '(a, carry) := st in
          v <- sel N a idx ;;
          let mul := umul128 cfg v x in
          let s := wrap 64 (u128_low mul + carry) in
          a <- upd N a idx s ;;
          Ok (a, wrap 64 (u128_high mul + (if s <? u128_low mul then 1 else 0)))) 0 (S (element_pos b)) (elements b, 0)) as ([a c] & E1 & (I1 & I2) & I3 & I4).
  - unfold multiplied. cbn [fst snd number]. rewrite Wp_0. repeat apply conj; try lia; try assumption.
  - intros k [a c] Hk ((I1 & I2) & I3 & I4). cbn [fst snd] in *. rewrite sel_ok by lia. cbn [bind].
    pose proof (mul_once cfg (a k) x c (I3 k ltac:(lia)) Hx I2) as A. cbv zeta in A. destruct A as (A1 & A2 & A3).
    rewrite upd_ok by lia. cbn [bind]. eexists. split; [reflexivity|]. unfold multiplied. cbn [fst snd]. rewrite (I4 k) in * by lia.
    repeat apply conj; try lia.
    + rewrite (number_S (put _ _ _)), put_same, number_put_above, number_S, Wp_S by lia.
      set (s := wrap 64 _) in *. set (c' := wrap 64 (u128_high _ + _)) in *. pose proof (Wp_pos k). replace (c' * (Wp k * W)) with ((c' * W) * Wp k) by ring. nia.
    + apply words_put; assumption.
    + intros j Hj. rewrite put_other by lia. apply I4. lia.
  - cbn [bind fst snd] in *. rewrite E1. cbn [bind]. change (0 + S (element_pos b))%nat with (S (element_pos b)) in *. fold (val b) in I1.
    assert (Za : forall i, (element_pos b < i < N)%nat -> a i = 0) by (intros i Hi; rewrite I4 by lia; apply (above_zero N b i V); lia).
    pose proof (number_bounds a (S (element_pos b)) ltac:(apply (words_le a _ N I3); lia)) as Ba.
    destruct (Z.eqb_spec c 0) as [C|C]; cbn [negb].
    + subst c. rewrite sel_ok by exact Pp. cbn [bind]. eexists. split; [reflexivity|]. apply valid_make_top; try assumption; [lia|].
      destruct (Nat.eq_dec (element_pos b) 0) as [|Q]; [left; assumption|right]. pose proof (val_pos_lower N b V ltac:(lia)) as Lw.
      destruct Hp as [Hp|Hp]; [nia|]. pose proof (Wp_le 1 (element_pos b) ltac:(lia)). rewrite Wp_S, Wp_0 in *. lia.
    + assert (Sp : (S (element_pos b) < N)%nat) by (apply Wp_lt_inv; pose proof (Wp_pos (S (element_pos b))); nia).
      rewrite cassert_ok by (apply Nat.ltb_lt; lia). cbn [bind]. rewrite upd_ok by exact Sp. cbn [bind]. eexists. split; [reflexivity|].
      replace (log2p1 c) with (log2p1 (put a (S (element_pos b)) c (S (element_pos b)))) by (rewrite put_same; reflexivity).
      apply valid_make_top; try assumption.
      * apply words_put; assumption.
      * intros i Hi. rewrite put_other by lia. apply Za. lia.
      * rewrite number_S, put_same, number_put_above by lia. lia.
      * right. pose proof (Wp_pos (S (element_pos b))). nia.
Qed.
