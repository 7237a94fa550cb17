(** * The operations of tests/bigint.h compute what they say *)

From Coq Require Import ZArith List Lia Bool.
From Verif Require Import Machine Model Arith BigintModel BigSpec BigFacts.
Open Scope Z_scope.

Lemma number_put a i v n : (i < n)%nat -> number (put a i v) n = number a n + (v - a i) * Wp i.
Proof.
  induction n as [|n IH]; intros H; [lia|]. rewrite !number_S. destruct (Nat.eq_dec i n) as [->|Q].
  - rewrite put_same, (number_ext (put a n v) a n) by (intros j Hj; apply put_other; lia). ring.
  - rewrite IH, put_other by lia. ring.
Qed.
Lemma number_put_above a i v n : (n <= i)%nat -> number (put a i v) n = number a n.
Proof. intros H. apply number_ext. intros j Hj. apply put_other. lia. Qed.
Lemma words_put a i v n : words a n -> 0 <= v < W -> words (put a i v) n.
Proof. intros H Hv j Hj. unfold put. destruct (Nat.eqb j i); [exact Hv | apply H; exact Hj]. Qed.
Lemma words_le a m n : words a n -> (m <= n)%nat -> words a m.
Proof. intros H L i Hi. apply H. lia. Qed.
Lemma words_S a n : words a (S n) -> words a n.
Proof. intros H. apply (words_le a n (S n) H). lia. Qed.
Lemma wrap_words x : 0 <= wrap 64 x < W.
Proof. apply wrap_range. lia. Qed.

Lemma shr_ok x n : 0 <= n < 64 -> shr 64 x n = Ok (x / 2 ^ n).
Proof.
  intros H. unfold shr. rewrite (proj2 (Z.leb_le _ _)), (proj2 (Z.ltb_lt _ _)) by lia. cbn [andb]. rewrite shiftr_div by lia. reflexivity.
Qed.
Lemma shl_ok x n : 0 <= n < 64 -> shl 64 x n = Ok ((x * 2 ^ n) mod W).
Proof.
  intros H. unfold shl. rewrite (proj2 (Z.leb_le _ _)), (proj2 (Z.ltb_lt _ _)) by lia. cbn [andb]. rewrite shiftl_mul by lia. reflexivity.
Qed.
Lemma lor_add h l s : 0 <= s -> 0 <= l < 2 ^ s -> Z.lor (h * 2 ^ s) l = h * 2 ^ s + l.
Proof.
  intros Hs Hl. assert (T : forall n, s <= n -> Z.testbit l n = false).
  { intros n Hn. destruct (Z.eq_dec l 0) as [->|]; [apply Z.testbit_0_l|]. apply Z.bits_above_log2; [lia|].
    assert (Z.log2 l < s) by (apply Z.log2_lt_pow2; lia). lia. }
  rewrite <- shiftl_mul by lia. rewrite Z.add_nocarry_lxor.
  - apply Z.bits_inj'. intros n Hn. rewrite Z.lor_spec, Z.lxor_spec. destruct (Z.lt_ge_cases n s).
    + rewrite Z.shiftl_spec_low by lia. destruct (Z.testbit l n); reflexivity.
    + rewrite T by lia. destruct (Z.testbit _ _); reflexivity.
  - apply Z.bits_inj'. intros n Hn. rewrite Z.land_spec, Z.bits_0. destruct (Z.lt_ge_cases n s).
    + rewrite Z.shiftl_spec_low by lia. reflexivity.
    + rewrite T by lia. apply andb_false_r.
Qed.
Lemma pow_split s : 0 <= s <= 64 -> W = 2 ^ s * 2 ^ (64 - s).
Proof. intros H. rewrite <- Z.pow_add_r by lia. f_equal. lia. Qed.
Lemma pow_ge1 s : 0 <= s -> 1 <= 2 ^ s.
Proof. intros H. assert (0 < 2 ^ s) by (apply Z.pow_pos_nonneg; lia). lia. Qed.
(** the part of a shifted element that stays, and the part that leaves it *)
Lemma shl_parts x s : 0 <= s <= 64 -> (x * 2 ^ s) mod W = (x mod 2 ^ (64 - s)) * 2 ^ s.
Proof.
  intros H. rewrite (pow_split s H). pose proof (pow_ge1 s ltac:(lia)). pose proof (pow_ge1 (64 - s) ltac:(lia)).
  rewrite (Z.mul_comm (2 ^ s) (2 ^ (64 - s))). apply Z.mul_mod_distr_r; lia.
Qed.
Lemma lor_shl x y s : 0 <= s <= 64 -> 0 <= y < W -> 
  Z.lor ((x * 2 ^ s) mod W) (y / 2 ^ (64 - s)) = (x * 2 ^ s) mod W + y / 2 ^ (64 - s).
Proof.
  intros H Hy. rewrite shl_parts by exact H. pose proof (pow_ge1 (64 - s) ltac:(lia)). apply lor_add; [lia|]. split; [apply Z.div_pos; lia|].
  apply Z.div_lt_upper_bound; [lia|]. rewrite Z.mul_comm, <- pow_split; lia.
Qed.

(** ** Addition with carry *)
Lemma add_once v w : 0 <= v < W -> 0 <= w < W ->
  let s := wrap 64 (v + w) in let c := if s <? w then 1 else 0 in s + c * W = v + w /\ 0 <= s < W /\ 0 <= c <= 1.
Proof.
  intros Hv Hw. cbv zeta. pose proof (wrap_words (v + w)) as R. unfold wrap in *.
  destruct (Z_lt_le_dec (v + w) W) as [L|L].
  - rewrite Z.mod_small in * by lia. destruct (Z.ltb_spec (v + w) w); lia.
  - assert (E : (v + w) mod W = v + w - W) by (symmetry; apply (Z.mod_unique_pos _ _ 1); lia). rewrite E in *.
    destruct (Z.ltb_spec (v + w - W) w); lia.
Qed.
Lemma add_twice v w c : 0 <= v < W -> 0 <= w < W -> 0 <= c <= 1 ->
  let wc := wrap 64 (v + c) in let s := wrap 64 (wc + w) in
  let c' := Z.lor (if wc <? v then 1 else 0) (if s <? w then 1 else 0) in s + c' * W = v + w + c /\ 0 <= s < W /\ 0 <= c' <= 1.
Proof.
  intros Hv Hw Hc. cbv zeta. pose proof (add_once c v ltac:(lia) Hv) as A. cbv zeta in A. rewrite (Z.add_comm c v) in A.
  set (wc := wrap 64 (v + c)) in *. destruct A as (A1 & A2 & A3).
  pose proof (add_once wc w A2 Hw) as B. cbv zeta in B. set (s := wrap 64 (wc + w)) in *. destruct B as (B1 & B2 & B3).
  destruct (wc <? v) eqn:E1, (s <? w) eqn:E2; cbn [Z.lor Pos.lor]; try lia.
Qed.

(** ** Making bigints *)
Lemma big_of_valid N junk x : (1 <= N)%nat -> 0 <= x < W -> exists b, big_of N junk x = Ok b /\ valid N b /\ val b = x.
Proof.
  intros HN Hx. unfold big_of. rewrite upd_ok by lia. cbn [bind].
  destruct (fill_zero_ok N (put junk 0 x) 1 (N - 1) ltac:(lia)) as (a & -> & Ha). cbn [bind]. eexists. split; [reflexivity|].
  assert (A0 : a 0%nat = x) by (rewrite Ha; reflexivity).
  assert (A1 : forall i, (0 < i < N)%nat -> a i = 0).
  { intros i Hi. rewrite Ha. destruct (Nat.leb_spec 1 i), (Nat.ltb_spec i (1 + (N - 1))); cbn [andb]; lia. }
  split.
  - split; cbn [elements element_pos bit_pos]; [| lia | intros i Hi; apply A1; lia | rewrite A0; apply log2p1_ok; exact Hx | left; reflexivity].
    intros i Hi. destruct i as [|i]; [rewrite A0; exact Hx | rewrite A1 by lia; lia].
  - unfold val. cbn [elements element_pos]. rewrite number_S, Wp_0, A0. cbn [number]. ring.
Qed.

Lemma number_single a p n v : (p < n)%nat -> a p = v -> (forall i, (i < n)%nat -> i <> p -> a i = 0) -> number a n = v * Wp p.
Proof.
  intros L E H. rewrite (number_zero a (S p) n) by (try lia; intros i Hi; apply H; lia). rewrite number_S, E.
  rewrite (number_zero a 0 p) by (try lia; intros i Hi; apply H; lia). cbn [number]. ring.
Qed.

Lemma power_of_2_valid cfg N junk e : 0 <= e < 64 * Z.of_nat N -> exists b, power_of_2 cfg N junk e = Ok b /\ valid N b /\ val b = 2 ^ e.
Proof.
  intros He. unfold power_of_2, element_number_of_bits. rewrite cassert_ok by (apply Z.ltb_lt; lia). cbn [bind].
  destruct (fill_zero_ok N junk 0 N ltac:(lia)) as (a & -> & Ha). cbn [bind].
  pose proof (Z.mod_pos_bound e 64 ltac:(lia)) as M. pose proof (Z.div_mod e 64 ltac:(lia)) as D.
  assert (0 <= e / 64) by (apply Z.div_pos; lia).
  replace (e mod 64 + 1 - 1) with (e mod 64) by ring. rewrite shl_ok by exact M. cbn [bind]. rewrite Z.mul_1_l.
  assert (B : 0 < 2 ^ (e mod 64) < W) by (split; [apply Z.pow_pos_nonneg; lia | apply Z.pow_lt_mono_r; lia]).
  rewrite Z.mod_small by lia. set (p := Z.to_nat (e / 64)). assert (Ep : Z.of_nat p = e / 64) by (apply Z2Nat.id; lia).
  assert (Hp : (p < N)%nat) by lia. rewrite upd_ok by exact Hp. cbn [bind]. eexists. split; [reflexivity|].
  assert (A0 : forall i, (i < N)%nat -> a i = 0).
  { intros i Hi. rewrite Ha. destruct (Nat.ltb_spec i (0 + N)); cbn [andb Nat.leb]; lia. }
  set (v := 2 ^ (e mod 64)) in *. split.
  - split; cbn [elements element_pos bit_pos].
    + apply words_put; [intros i Hi; rewrite A0 by exact Hi; lia | lia].
    + exact Hp.
    + intros i Hi. rewrite put_other by lia. apply A0. lia.
    + rewrite put_same, nbits_pos by lia. unfold v. rewrite Z.log2_pow2 by lia. reflexivity.
    + right. rewrite put_same. lia.
  - unfold val. cbn [elements element_pos]. rewrite (number_single _ p _ v); [| lia | apply put_same | intros i Hi Q; rewrite put_other by exact Q; apply A0; lia].
    unfold v. rewrite Wp_eq, <- Z.pow_add_r by lia. f_equal. lia.
Qed.

(** ** Comparisons *)
Lemma number_lt a n k : words a (S k) -> words n (S k) -> a k < n k -> number a (S k) < number n (S k).
Proof.
  intros Ha Hn L. rewrite !number_S. pose proof (number_bounds a k (words_S _ _ Ha)).
  pose proof (number_bounds n k (words_S _ _ Hn)). pose proof (Wp_pos k). nia.
Qed.
Lemma geq_from_ok N src a n k : src a = n -> (k <= N)%nat -> words a k -> words n k ->
  geq_from N src a k = Ok (number n k <=? number a k).
Proof.
  intros Es. induction k as [|k IH]; intros HN Ha Hn; [reflexivity|]. cbn [geq_from]. rewrite Es, !sel_ok by lia. cbn [bind].
  destruct (Z.ltb_spec (n k) (a k)) as [L|L].
  - pose proof (number_lt n a k Hn Ha L). symmetry. f_equal. apply Z.leb_le. lia.
  - destruct (Z.ltb_spec (a k) (n k)) as [L2|L2].
    + pose proof (number_lt a n k Ha Hn L2). symmetry. f_equal. apply Z.leb_gt. lia.
    + rewrite IH by (try lia; eapply words_le; eauto). rewrite !number_S. replace (a k) with (n k) by lia. f_equal.
      destruct (Z.leb_spec (number n k) (number a k)); symmetry; [apply Z.leb_le | apply Z.leb_gt]; lia.
Qed.

Lemma compare_loop_ok N a n k : (k < N)%nat -> words a (S k) -> words n (S k) ->
  exists c, compare_loop N a n k = Ok c /\
    ((0 < c /\ number a (S k) < number n (S k)) \/ (c < 0 /\ number n (S k) < number a (S k)) \/
     (c = 0 /\ number a (S k) - a 0%nat = number n (S k) - n 0%nat)).
Proof.
  induction k as [|k IH]; intros HN Ha Hn; cbn [compare_loop].
  - exists 0. split; [reflexivity|]. right. right. rewrite !number_S, Wp_0. cbn [number]. lia.
  - rewrite !sel_ok by lia. cbn [bind]. destruct (Z.ltb_spec (a (S k)) (n (S k))) as [L|L].
    + exists 1. split; [reflexivity|]. left. split; [lia|]. apply number_lt; assumption.
    + destruct (Z.ltb_spec (n (S k)) (a (S k))) as [L2|L2].
      * exists (-1). split; [reflexivity|]. right. left. split; [lia|]. apply number_lt; assumption.
      * destruct (IH ltac:(lia) (words_S _ _ Ha) (words_S _ _ Hn)) as (c & E & H). exists c. split; [exact E|].
        rewrite (number_S a (S k)), (number_S n (S k)). replace (a (S k)) with (n (S k)) by lia. lia.
Qed.

Lemma val_bounds N b : valid N b -> 0 <= val b < Wp N.
Proof. intros V. rewrite <- (val_number N b V). apply number_bounds. apply V. Qed.
Lemma val_pos_bound N b : valid N b -> val b < Wp (S (element_pos b)).
Proof. intros V. apply number_bounds. eapply words_le; [apply V|]. pose proof (v_pos _ _ V). lia. Qed.
Lemma val_pos_lower N b : valid N b -> (0 < element_pos b)%nat -> Wp (element_pos b) <= val b.
Proof.
  intros V P. destruct (v_top _ _ V) as [T|T]; [lia|]. unfold val. rewrite number_S.
  pose proof (v_words _ _ V _ (v_pos _ _ V)).
  pose proof (number_bounds (elements b) (element_pos b) ltac:(eapply words_le; [apply V|]; pose proof (v_pos _ _ V); lia)).
  pose proof (Wp_pos (element_pos b)). nia.
Qed.
Lemma Wp_le m n : (m <= n)%nat -> Wp m <= Wp n.
Proof. intros H. rewrite !Wp_eq. apply Z.pow_le_mono_r; lia. Qed.

Lemma compare_common_ok N b n : valid N b -> valid N n ->
  exists c, compare_common N b n = Ok c /\
    ((0 < c /\ val b < val n) \/ (c < 0 /\ val n < val b) \/
     (c = 0 /\ val b - elements b 0%nat = val n - elements n 0%nat)).
Proof.
  intros Vb Vn. unfold compare_common. destruct (Nat.ltb_spec (element_pos b) (element_pos n)) as [L|L].
  - exists 1. split; [reflexivity|]. left. split; [lia|]. pose proof (val_pos_bound _ _ Vb). pose proof (val_pos_lower _ _ Vn ltac:(lia)).
    pose proof (Wp_le (S (element_pos b)) (element_pos n) L). lia.
  - destruct (Nat.ltb_spec (element_pos n) (element_pos b)) as [L2|L2].
    + exists (-1). split; [reflexivity|]. right. left. split; [lia|]. pose proof (val_pos_bound _ _ Vn). pose proof (val_pos_lower _ _ Vb ltac:(lia)).
      pose proof (Wp_le (S (element_pos n)) (element_pos b) L2). lia.
    + assert (E : element_pos n = element_pos b) by lia. pose proof (v_pos _ _ Vb). unfold val. rewrite E.
      apply compare_loop_ok; [assumption | eapply words_le; [apply Vb | lia] | eapply words_le; [apply Vn | lia]].
Qed.

Lemma compare_op_ok N up down cmp b n : valid N b -> valid N n ->
  (forall v w, v < w -> cmp v w = up) -> (forall v w, w < v -> cmp v w = down) ->
  (forall v w d, cmp (v + d) (w + d) = cmp v w) ->
  compare_op N up down cmp b n = Ok (cmp (val b) (val n)).
Proof.
  intros Vb Vn Hu Hd Ht. destruct (compare_common_ok N b n Vb Vn) as (c & E & H). unfold compare_op. rewrite E. cbn [bind].
  destruct H as [[C L]|[[C L]|[C L]]].
  - rewrite (proj2 (Z.ltb_lt 0 c) C), Hu by exact L. reflexivity.
  - rewrite (proj2 (Z.ltb_ge 0 c)), (proj2 (Z.ltb_lt c 0)), Hd by lia. reflexivity.
  - subst c. cbn [Z.ltb Z.compare]. pose proof (v_pos _ _ Vb). pose proof (v_pos _ _ Vn). rewrite !sel_ok by lia. cbn [bind].
    rewrite <- (Ht _ _ (val b - elements b 0%nat)). f_equal. f_equal; lia.
Qed.

Ltac cmp := intros; repeat match goal with
  | |- context [Z.ltb ?x ?y] => destruct (Z.ltb_spec x y)
  | |- context [Z.leb ?x ?y] => destruct (Z.leb_spec x y)
  | |- context [Z.gtb ?x ?y] => rewrite (Z.gtb_ltb x y)
  | |- context [Z.geb ?x ?y] => rewrite (Z.geb_leb x y)
  | |- context [Z.eqb ?x ?y] => destruct (Z.eqb_spec x y)
  end; cbn [negb]; try reflexivity; lia.

Lemma big_lt_ok N b n : valid N b -> valid N n -> big_lt N b n = Ok (val b <? val n).
Proof. intros Vb Vn. apply compare_op_ok; try assumption; cmp. Qed.
Lemma big_le_ok N b n : valid N b -> valid N n -> big_le N b n = Ok (val b <=? val n).
Proof. intros Vb Vn. apply compare_op_ok; try assumption; cmp. Qed.
Lemma big_gt_ok N b n : valid N b -> valid N n -> big_gt N b n = Ok (val b >? val n).
Proof. intros Vb Vn. apply compare_op_ok; try assumption; cmp. Qed.
Lemma big_ge_ok N b n : valid N b -> valid N n -> big_ge N b n = Ok (val b >=? val n).
Proof. intros Vb Vn. apply compare_op_ok; try assumption; cmp. Qed.
Lemma big_eq_ok N b n : valid N b -> valid N n -> big_eq N b n = Ok (val b =? val n).
Proof. intros Vb Vn. apply compare_op_ok; try assumption; cmp. Qed.
Lemma big_ne_ok N b n : valid N b -> valid N n -> big_ne N b n = Ok (negb (val b =? val n)).
Proof. intros Vb Vn. apply (compare_op_ok N true true (fun v w => negb (v =? w))); try assumption; cmp. Qed.

Lemma compare_element_ok N many cmp b x : valid N b -> 0 <= x < W -> (forall v, x < v -> cmp v x = many) ->
  compare_element N many cmp b x = Ok (cmp (val b) x).
Proof.
  intros V Hx Hm. pose proof (v_pos _ _ V). unfold compare_element. destruct (Z.eqb_spec (Z.of_nat (element_pos b)) 0) as [E|E]; cbn [negb].
  - rewrite sel_ok by lia. cbn [bind]. unfold val. replace (element_pos b) with 0%nat by lia. rewrite number_S, Wp_0. cbn [number].
    do 2 f_equal. ring.
  - pose proof (val_pos_lower N b V ltac:(lia)). pose proof (Wp_le 1 (element_pos b) ltac:(lia)). rewrite (Wp_S 0), Wp_0 in *.
    rewrite Hm by lia. reflexivity.
Qed.
Lemma compare_elements_ok N b x : valid N b -> 0 <= x < W ->
  big_lt_element N b x = Ok (val b <? x) /\ big_le_element N b x = Ok (val b <=? x) /\
  big_gt_element N b x = Ok (val b >? x) /\ big_ge_element N b x = Ok (val b >=? x) /\
  big_eq_element N b x = Ok (val b =? x) /\ big_ne_element N b x = Ok (negb (val b =? x)).
Proof.
  intros V Hx. repeat apply conj; try (apply compare_element_ok; try assumption; cmp).
Qed.

(** ** Shifts *)

(** the elements of the shifted number *)
Definition shifted (a : nat -> Z) (s : Z) (i : nat) : Z :=
  (a i * 2 ^ s) mod W + match i with O => 0 | S j => a j / 2 ^ (64 - s) end.
Lemma shifted_words a s n : 0 <= s <= 64 -> words a n -> words (shifted a s) n.
Proof.
  intros Hs Hw i Hi. unfold shifted. rewrite shl_parts by exact Hs. pose proof (pow_ge1 s ltac:(lia)). pose proof (pow_ge1 (64 - s) ltac:(lia)).
  pose proof (pow_split s Hs) as P. pose proof (Z.mod_pos_bound (a i) (2 ^ (64 - s)) ltac:(lia)).
  assert (0 <= match i with O => 0 | S j => a j / 2 ^ (64 - s) end < 2 ^ s).
  { destruct i as [|j]; [lia|]. pose proof (Hw j ltac:(lia)). split; [apply Z.div_pos; lia|]. apply Z.div_lt_upper_bound; [lia|]. lia. }
  set (q := 2 ^ s) in *. set (r := 2 ^ (64 - s)) in *. rewrite P. nia.
Qed.
Lemma shifted_number a s n : 0 <= s <= 64 -> words a (S n) ->
  number (shifted a s) (S n) + (a n / 2 ^ (64 - s)) * Wp (S n) = 2 ^ s * number a (S n).
Proof.
  intros Hs. pose proof (pow_split s Hs) as P. pose proof (pow_ge1 (64 - s) ltac:(lia)).
  assert (Q : forall x, (x * 2 ^ s) mod W + x / 2 ^ (64 - s) * W = x * 2 ^ s).
  { intros x. rewrite shl_parts by exact Hs. pose proof (Z.div_mod x (2 ^ (64 - s)) ltac:(lia)). rewrite P. nia. }
  induction n as [|n IH]; intros Hw.
  - rewrite !number_S, Wp_S, Wp_0. unfold shifted. cbn [number]. specialize (Q (a 0%nat)). rewrite !Z.add_0_l, !Z.mul_1_r, Z.add_0_r, Z.mul_1_l, Q. ring.
  - rewrite number_S, (number_S a (S n)). specialize (IH (words_S _ _ Hw)). unfold shifted at 2.
    specialize (Q (a (S n))). rewrite (Wp_S (S n)). rewrite Z.mul_add_distr_l, <- IH.
    set (X := number (shifted a s) (S n)) in *. set (Y := a n / 2 ^ (64 - s)) in *. set (V := Wp (S n)) in *.
    set (A := a (S n)) in *. set (q := (A * 2 ^ s) mod W) in *. set (r := A / 2 ^ (64 - s)) in *. nia.
Qed.
(** nothing is lost when the result fits *)
Lemma shifted_exact a s n : 0 <= s <= 64 -> words a (S n) -> 2 ^ s * number a (S n) < Wp (S n) ->
  number (shifted a s) (S n) = 2 ^ s * number a (S n).
Proof.
  intros Hs Hw L. pose proof (shifted_number a s n Hs Hw) as E. pose proof (number_bounds _ _ (shifted_words a s _ Hs Hw)) as B.
  pose proof (Wp_pos (S n)). assert (0 <= a n / 2 ^ (64 - s)).
  { apply Z.div_pos; [apply Hw; lia|]. apply Z.pow_pos_nonneg; lia. }
  assert (a n / 2 ^ (64 - s) = 0) by nia. nia.
Qed.

Lemma shift_left_bits_ok N a p s : 0 < s < 64 -> (p < N)%nat -> words a N ->
  exists a', shift_left_bits N a p s = Ok a' /\ (forall i, (i <= p)%nat -> a' i = shifted a s i) /\ (forall i, (p < i)%nat -> a' i = a i).
Proof.
  intros Hs Hp Hw. unfold shift_left_bits, element_number_of_bits.
  destruct (down_loop_inv (fun k a' => forall i, a' i = if ((k <? i) && (i <=? p))%nat then shifted a s i else a i)
    (fun idx a => low <- sel N a (idx - 1) ;; transfer <- shr 64 low (64 - s) ;;
         v <- sel N a idx ;; v <- shl 64 v s ;; upd N a idx (Z.lor v transfer)) p a) as (a1 & E & H1).
  - intros i. destruct (Nat.ltb_spec p i), (Nat.leb_spec i p); cbn; try reflexivity; lia.
  - intros j a1 Hj H1. replace (S j - 1)%nat with j by lia. rewrite !sel_ok by lia. cbn [bind]. rewrite shr_ok by lia. cbn [bind].
    rewrite shl_ok by lia. cbn [bind]. rewrite upd_ok by lia. eexists. split; [reflexivity|]. intros i. unfold put.
    assert (Ej : a1 j = a j) by (rewrite H1; destruct (Nat.ltb_spec (S j) j); cbn; [lia | reflexivity]).
    assert (Ej1 : a1 (S j) = a (S j)) by (rewrite H1; destruct (Nat.ltb_spec (S j) (S j)); cbn; [lia | reflexivity]).
    rewrite Ej, Ej1. rewrite lor_shl by (try lia; apply Hw; lia).
    destruct (Nat.eqb_spec i (S j)) as [->|Q]; [destruct (Nat.ltb_spec j (S j)), (Nat.leb_spec (S j) p); cbn [andb]; try lia; reflexivity|].
    rewrite H1. destruct (Nat.ltb_spec (S j) i), (Nat.ltb_spec j i), (Nat.leb_spec i p); cbn [andb]; try reflexivity; lia.
  - rewrite E. cbn [bind]. rewrite sel_ok by lia. cbn [bind]. rewrite shl_ok by lia. cbn [bind]. rewrite upd_ok by lia.
    assert (E0 : a1 0%nat = a 0%nat) by (rewrite H1; reflexivity). rewrite E0.
    eexists. split; [reflexivity|]. split; intros i Hi; unfold put; destruct (Nat.eqb_spec i 0) as [->|Q].
    + unfold shifted. ring.
    + rewrite H1. destruct (Nat.ltb_spec 0 i), (Nat.leb_spec i p); cbn [andb]; try reflexivity; lia.
    + lia.
    + rewrite H1. destruct (Nat.leb_spec i p); [lia|]. rewrite andb_false_r. reflexivity.
Qed.

Lemma shift_one_bit_ok N a p : (p < N)%nat -> words a N ->
  exists a', shift_one_bit N a p = Ok a' /\ (forall i, (i <= p)%nat -> a' i = shifted a 1 i) /\ (forall i, (p < i)%nat -> a' i = a i).
Proof.
  intros Hp Hw. unfold shift_one_bit.
  destruct (down_loop_inv (fun k a' => forall i, a' i = if ((k <? i) && (i <=? p))%nat then shifted a 1 i else a i)
    (fun idx a => v <- sel N a idx ;; v <- shl 64 v 1 ;; a <- upd N a idx v ;;
         low <- sel N a (idx - 1) ;; low <- shr 64 low 63 ;;
         v <- sel N a idx ;; upd N a idx (Z.lor v low)) p a) as (a1 & E & H1).
  - intros i. destruct (Nat.ltb_spec p i), (Nat.leb_spec i p); cbn; try reflexivity; lia.
  - intros j a1 Hj H1. replace (S j - 1)%nat with j by lia. rewrite sel_ok by lia. cbn [bind]. rewrite shl_ok by lia. cbn [bind].
    rewrite upd_ok by lia. cbn [bind]. rewrite sel_ok by lia. cbn [bind]. rewrite shr_ok by lia. cbn [bind]. rewrite sel_ok by lia. cbn [bind].
    rewrite put_same, put_other by lia. rewrite upd_ok by lia. eexists. split; [reflexivity|]. intros i.
    assert (Ej : a1 j = a j) by (rewrite H1; destruct (Nat.ltb_spec (S j) j); cbn; [lia | reflexivity]).
    assert (Ej1 : a1 (S j) = a (S j)) by (rewrite H1; destruct (Nat.ltb_spec (S j) (S j)); cbn; [lia | reflexivity]).
    rewrite Ej, Ej1. change (a j / 2 ^ 63) with (a j / 2 ^ (64 - 1)). rewrite lor_shl by (try lia; apply Hw; lia). unfold put.
    destruct (Nat.eqb_spec i (S j)) as [->|Q]; [destruct (Nat.ltb_spec j (S j)), (Nat.leb_spec (S j) p); cbn [andb]; try lia; reflexivity|].
    rewrite H1. destruct (Nat.ltb_spec (S j) i), (Nat.ltb_spec j i), (Nat.leb_spec i p); cbn [andb]; try reflexivity; lia.
  - rewrite E. cbn [bind]. rewrite sel_ok by lia. cbn [bind]. rewrite shl_ok by lia. cbn [bind]. rewrite upd_ok by lia.
    assert (E0 : a1 0%nat = a 0%nat) by (rewrite H1; reflexivity). rewrite E0.
    eexists. split; [reflexivity|]. split; intros i Hi; unfold put; destruct (Nat.eqb_spec i 0) as [->|Q].
    + unfold shifted. ring.
    + rewrite H1. destruct (Nat.ltb_spec 0 i), (Nat.leb_spec i p); cbn [andb]; try reflexivity; lia.
    + lia.
    + rewrite H1. destruct (Nat.leb_spec i p); [lia|]. rewrite andb_false_r. reflexivity.
Qed.

Lemma shift_right_bits_ok N a p s : 0 < s < 64 -> (p < N)%nat -> words a N ->
  exists a', shift_right_bits N a p s = Ok a' /\ 2 ^ s * number a' (S p) = number a (S p) - a 0%nat mod 2 ^ s /\
    words a' N /\ (forall i, (p < i)%nat -> a' i = a i).
Proof.
  intros Hs Hp Hw. unfold shift_right_bits, element_number_of_bits. pose proof (pow_ge1 s ltac:(lia)) as P1. pose proof (pow_ge1 (64 - s) ltac:(lia)) as P2.
  pose proof (pow_split s ltac:(lia)) as PW.
  assert (Dv : forall i, (i < N)%nat -> 0 <= a i / 2 ^ s < 2 ^ (64 - s)).
  { intros i Hi. pose proof (Hw i Hi). split; [apply Z.div_pos; lia | apply Z.div_lt_upper_bound; lia]. }
  rewrite sel_ok by lia. cbn [bind]. rewrite shr_ok by lia. cbn [bind]. rewrite upd_ok by lia. cbn [bind].
  destruct (up_loop_inv (fun k a' => 2 ^ s * number a' k = number a k - a 0%nat mod 2 ^ s /\ words a' N /\
      0 <= a' (k - 1)%nat < 2 ^ (64 - s) /\ (1 <= k)%nat /\ forall i, (k <= i)%nat -> a' i = a i)
    (fun idx a => v <- sel N a idx ;; transfer <- shl 64 v (64 - s) ;;
      low <- sel N a (idx - 1) ;; a <- upd N a (idx - 1) (Z.lor low transfer) ;;
      v <- sel N a idx ;; v <- shr 64 v s ;; upd N a idx v) 1 p (put a 0 (a 0%nat / 2 ^ s))) as (a1 & E & H1).
  - rewrite !number_S, Wp_0, put_same. cbn [number Nat.sub]. pose proof (Z.div_mod (a 0%nat) (2 ^ s) ltac:(lia)). pose proof (Dv 0%nat ltac:(lia)).
    split; [lia|]. split; [apply words_put; [exact Hw | nia]|]. rewrite put_same. split; [assumption|]. split; [lia|]. intros i Hi. apply put_other. lia.
  - intros k a1 Hk (I1 & I2 & I3 & I4 & I5). rewrite sel_ok by lia. cbn [bind]. rewrite shl_ok by lia. cbn [bind]. rewrite sel_ok by lia. cbn [bind].
    rewrite upd_ok by lia. cbn [bind]. rewrite sel_ok by lia. cbn [bind]. rewrite shr_ok by lia. cbn [bind]. rewrite upd_ok by lia.
    eexists. split; [reflexivity|]. rewrite (put_other _ (k - 1) _ k) by lia. rewrite (I5 k) by lia.
    pose proof (Dv k ltac:(lia)) as Dk. pose proof (Z.div_mod (a k) (2 ^ s) ltac:(lia)) as Ek. pose proof (Z.mod_pos_bound (a k) (2 ^ s) ltac:(lia)) as Mk.
    assert (El : Z.lor (a1 (k - 1)%nat) ((a k * 2 ^ (64 - s)) mod W) = a1 (k - 1)%nat + (a k mod 2 ^ s) * 2 ^ (64 - s)).
    { rewrite shl_parts by lia. replace (64 - (64 - s)) with s by ring. rewrite Z.lor_comm, lor_add by lia. ring. }
    rewrite El. set (q := 2 ^ s) in *. set (r := 2 ^ (64 - s)) in *.
    assert (B : 0 <= a1 (k - 1)%nat + a k mod q * r < W) by (rewrite PW; nia).
    assert (Bk : 0 <= a k / q < W) by (rewrite PW; nia).
    repeat apply conj.
    + rewrite number_S, put_same, number_put_above, number_put by lia. rewrite number_S.
      assert (EW : Wp k = Wp (k - 1) * W) by (rewrite <- Wp_S; f_equal; lia).
      rewrite PW in EW. set (w := Wp (k - 1)) in *. rewrite EW. nia.
    + apply words_put; [apply words_put; [exact I2 | exact B] | exact Bk].
    + replace (S k - 1)%nat with k by lia. rewrite put_same. lia.
    + replace (S k - 1)%nat with k by lia. rewrite put_same. lia.
    + lia.
    + intros i Hi. rewrite !put_other by lia. apply I5. lia.
  - exists a1. split; [exact E|]. destruct H1 as (I1 & I2 & _ & _ & I5). repeat apply conj; assumption || (intros i Hi; apply I5; lia).
Qed.

Lemma shift_elements_ok N a p o : (p + o < N)%nat -> 
  exists a', shift_elements N a p o = Ok a' /\ (forall i, (i <= p + o)%nat -> a' i = if (i <? o)%nat then 0 else a (i - o)%nat) /\
    (forall i, (p + o < i)%nat -> a' i = a i).
Proof.
  intros Hp. unfold shift_elements.
  destruct (down_loop_inv (fun k a' => (forall i, (k + o <= i)%nat -> (i <= p + o)%nat -> a' i = a (i - o)%nat) /\
      (forall i, (i < k + o)%nat \/ (p + o < i)%nat -> a' i = a i))
    (fun j1 a => v <- sel N a (j1 - 1) ;; upd N a (j1 - 1 + o) v) (S p) a) as (a1 & E & H1 & H2).
  - split; [intros; lia | reflexivity].
  - intros j a1 Hj (I1 & I2). replace (S j - 1)%nat with j by lia. rewrite sel_ok by lia. cbn [bind]. rewrite upd_ok by lia.
    eexists. split; [reflexivity|]. split; intros i Hi.
    + intros Hi2. unfold put. destruct (Nat.eqb_spec i (j + o)) as [->|Q].
      * replace (j + o - o)%nat with j by lia. apply I2. lia.
      * apply I1; lia.
    + rewrite put_other by lia. apply I2. lia.
  - rewrite E. cbn [bind]. destruct (fill_zero_ok N a1 0 o ltac:(lia)) as (a' & -> & Ha). exists a'. split; [reflexivity|].
    split; intros i Hi; rewrite Ha; cbn [Nat.leb andb]; replace (0 + o)%nat with o by lia.
    + destruct (Nat.ltb_spec i o); [reflexivity|]. apply H1; lia.
    + destruct (Nat.ltb_spec i o); [lia|]. apply H2. lia.
Qed.
Lemma moved_number a a' p o : (forall i, (i <= p + o)%nat -> a' i = if (i <? o)%nat then 0 else a (i - o)%nat) ->
  number a' (S (p + o)) = Wp o * number a (S p).
Proof.
  intros H. assert (G : forall k, (k <= S p)%nat -> number a' (o + k) = Wp o * number a k).
  { induction k as [|k IH]; intros Hk.
    - rewrite Nat.add_0_r, (number_zero a' 0 o) by (try lia; intros i Hi; rewrite H by lia; destruct (Nat.ltb_spec i o); lia). cbn [number]. ring.
    - rewrite <- plus_n_Sm, number_S, IH, number_S by lia. rewrite H by lia. destruct (Nat.ltb_spec (o + k) o); [lia|].
      replace (o + k - o)%nat with k by lia. rewrite Wp_add. ring. }
  replace (S (p + o)) with (o + S p)%nat by lia. apply G. lia.
Qed.
