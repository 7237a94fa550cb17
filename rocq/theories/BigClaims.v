(** * The operations of bigint in terms of the numbers they hold *)

From Coq Require Import ZArith List Bool Lia.
From Verif Require Import Machine Model Arith BigintModel BigSpec BigFacts Bigint BigintOps BigintMul.
Open Scope Z_scope.

Lemma fits_Wp N v : fits N v <-> 0 <= v < Wp N.
Proof. unfold fits. rewrite Wp_eq. reflexivity. Qed.

Lemma rep N b v : represents N b v -> valid N b /\ val b = v.
Proof. apply represents_valid. Qed.
Lemma rep_of N b v : valid N b -> val b = v -> represents N b v.
Proof. intros V <-. apply valid_represents. exact V. Qed.
Lemma represented_fits N b v : represents N b v -> fits N v.
Proof. intros R. apply rep in R. destruct R as [V <-]. apply fits_Wp, val_bounds, V. Qed.

(** ** Making *)
Lemma made_from_element N junk x : (1 <= N)%nat -> 0 <= x < 2 ^ 64 -> exists b, big_of N junk x = Ok b /\ represents N b x.
Proof. intros H X. destruct (big_of_valid N junk x H X) as (b & E & V & v). exists b. split; [exact E | apply rep_of; assumption]. Qed.
Lemma made_power_of_2 cfg N junk e : 0 <= e < 64 * Z.of_nat N -> exists b, power_of_2 cfg N junk e = Ok b /\ represents N b (2 ^ e).
Proof. intros H. destruct (power_of_2_valid cfg N junk e H) as (b & E & V & v). exists b. split; [exact E | apply rep_of; assumption]. Qed.

(** ** Comparing *)
Lemma comparisons N b c v w : represents N b v -> represents N c w ->
  big_lt N b c = Ok (v <? w) /\ big_le N b c = Ok (v <=? w) /\ big_gt N b c = Ok (w <? v) /\
  big_ge N b c = Ok (w <=? v) /\ big_eq N b c = Ok (v =? w) /\ big_ne N b c = Ok (negb (v =? w)).
Proof.
  intros R S. apply rep in R, S. destruct R as [Vb <-], S as [Vc <-].
  rewrite big_lt_ok, big_le_ok, big_gt_ok, big_ge_ok, big_eq_ok, big_ne_ok by assumption.
  rewrite Z.gtb_ltb, Z.geb_leb. repeat split.
Qed.
Lemma element_comparisons N b v x : represents N b v -> 0 <= x < 2 ^ 64 ->
  big_lt_element N b x = Ok (v <? x) /\ big_le_element N b x = Ok (v <=? x) /\ big_gt_element N b x = Ok (x <? v) /\
  big_ge_element N b x = Ok (x <=? v) /\ big_eq_element N b x = Ok (v =? x) /\ big_ne_element N b x = Ok (negb (v =? x)).
Proof.
  intros R H. apply rep in R. destruct R as [V <-]. destruct (compare_elements_ok N b x V H) as (A & B & C & D & E & F).
  rewrite A, B, C, D, E, F, Z.gtb_ltb, Z.geb_leb. repeat split.
Qed.

(** ** Adding and subtracting *)
Lemma addition cfg N b c v w : represents N b v -> represents N c w -> fits N (v + w) ->
  exists r, add_assign cfg N (fun _ => elements c) b (element_pos c) = Ok r /\ represents N r (v + w).
Proof.
  intros R S F. apply rep in R, S. destruct R as [Vb <-], S as [Vc <-]. apply fits_Wp in F.
  destruct (add_assign_valid cfg N (fun _ => elements c) b c Vb Vc ltac:(lia) ltac:(reflexivity)) as (r & E & V & W). exists r. split; [exact E | apply rep_of; assumption].
Qed.
Lemma doubling cfg N b v : represents N b v -> fits N (v + v) ->
  exists r, add_assign cfg N (fun a => a) b (element_pos b) = Ok r /\ represents N r (v + v).
Proof.
  intros R F. apply rep in R. destruct R as [Vb <-]. apply fits_Wp in F.
  destruct (add_assign_valid cfg N (fun a => a) b b Vb Vb ltac:(lia)) as (r & E & V & W); [intros a k Hk H; apply H; lia|]. exists r. split; [exact E | apply rep_of; assumption].
Qed.
Lemma subtraction cfg N b c v w : represents N b v -> represents N c w -> w <= v ->
  exists r, sub_assign cfg N b c = Ok r /\ represents N r (v - w).
Proof.
  intros R S L. apply rep in R, S. destruct R as [Vb <-], S as [Vc <-].
  destruct (sub_assign_valid cfg N b c Vb Vc L) as (r & E & V & W). exists r. split; [exact E | apply rep_of; assumption].
Qed.

(** ** Scaling *)
Lemma times_five cfg N junk b v : represents N b v -> 0 < v -> fits N (5 * v) ->
  exists r, multiply_5 cfg N junk b = Ok r /\ represents N r (5 * v).
Proof.
  intros R P F. apply rep in R. destruct R as [Vb <-]. apply fits_Wp in F.
  destruct (multiply_5_valid cfg N junk b Vb P ltac:(lia)) as (r & E & V & W). exists r. split; [exact E | apply rep_of; assumption].
Qed.
Lemma doubling_until cfg N b c v w k : 64 * Z.of_nat N < 2 ^ 64 -> represents N b v -> represents N c w -> 0 < v <= w ->
  0 <= k -> w <= v * 2 ^ k -> (forall j, 0 <= j < k -> v * 2 ^ j < w) -> fits N (v * 2 ^ k) ->
  exists r, multiply_2_until cfg N (fun _ => elements c) b (element_pos c) (bit_pos c) = Ok (r, k) /\ represents N r (v * 2 ^ k).
Proof.
  intros HN R S P K0 K1 K2 F. apply rep in R, S. destruct R as [Vb <-], S as [Vc <-]. apply fits_Wp in F.
  destruct (multiply_2_until_valid cfg N b c k HN Vb Vc ltac:(lia) ltac:(lia) K0 K1) as (r & E & V & W); [|lia|].
  - destruct (Z.eq_dec k 0); [left; assumption | right; apply K2; lia].
  - exists r. split; [exact E | apply rep_of; assumption].
Qed.
Lemma times_element cfg N b v x : represents N b v -> 0 <= x < 2 ^ 64 -> (0 < x \/ v < 2 ^ 64) -> fits N (v * x) ->
  exists r, mul_assign_element cfg N b x = Ok r /\ represents N r (v * x).
Proof.
  intros R X P F. apply rep in R. destruct R as [Vb <-]. apply fits_Wp in F.
  destruct (mul_assign_element_valid cfg N b x Vb X P ltac:(lia)) as (r & E & V & W). exists r. split; [exact E | apply rep_of; assumption].
Qed.

(** ** Products *)
Lemma size_pos N b : valid N b -> 0 < val b -> size (val b) = Z.of_nat (S (element_pos b)).
Proof.
  intros V P. destruct (bits_of N b V P) as [B E]. unfold size. replace (Z.log2 (val b)) with (64 * Z.of_nat (element_pos b) + (bit_pos b - 1)) by lia.
  rewrite Z.mul_comm, Z.div_add_l, Z.div_small by lia. lia.
Qed.
Lemma lost_iff N b y : valid N b -> 0 < val b ->
  (carry_lost (val b) y <-> exists i, (1 <= i)%nat /\ lost_row (val b) y (S (element_pos b)) i).
Proof.
  intros V P. unfold carry_lost, lost_row. rewrite (size_pos N b V P). split.
  - intros (i & Hi & A & B). exists (Z.to_nat i). split; [lia|]. rewrite !Wp_eq. rewrite Z2Nat.id by lia. split; [exact A|].
    replace (Z.of_nat (S (Z.to_nat i))) with (i + 1) by lia. replace (Z.of_nat (S (element_pos b) + Z.to_nat i)) with (Z.of_nat (S (element_pos b)) + i) by lia. exact B.
  - intros (i & Hi & A & B). exists (Z.of_nat i). split; [lia|]. rewrite !Wp_eq in *. split; [exact A|].
    replace (Z.of_nat i + 1) with (Z.of_nat (S i)) by lia. replace (Z.of_nat (S (element_pos b)) + Z.of_nat i) with (Z.of_nat (S (element_pos b) + i)) by lia. exact B.
Qed.
Lemma product cfg N jt jr b c v w : represents N b v -> represents N c w -> 0 < v -> 0 < w -> fits N (v * w) -> ~ carry_lost v w ->
  exists r, big_mul cfg N jt jr b c = Ok r /\ represents N r (v * w).
Proof.
  intros R S Pv Pw F L. apply rep in R, S. destruct R as [Vb <-], S as [Vc <-]. apply fits_Wp in F. rewrite (lost_iff N b _ Vb Pv) in L.
  destruct (big_mul_valid cfg N jt jr b c Vb Vc Pv Pw ltac:(lia)) as [(r & E & V & W & _)|(i & Hi & Lr & _)].
  - right. intros i Hi Lr. apply L. exists i. split; assumption.
  - exists r. split; [exact E | apply rep_of; assumption].
  - exfalso. apply L. exists i. split; assumption.
Qed.
Lemma product_stops cfg N jt jr b c v w : cfg_ndebug cfg = false -> represents N b v -> represents N c w -> 0 < v -> 0 < w -> fits N (v * w) ->
  carry_lost v w -> big_mul cfg N jt jr b c = AssertFailed.
Proof.
  intros D R S Pv Pw F L. apply rep in R, S. destruct R as [Vb <-], S as [Vc <-]. apply fits_Wp in F. rewrite (lost_iff N b _ Vb Pv) in L.
  destruct (big_mul_valid cfg N jt jr b c Vb Vc Pv Pw ltac:(lia) (or_introl D)) as [(r & E & V & W & NL)|(i & Hi & Lr & E)]; [|exact E].
  destruct L as (i & Hi & Lr). exfalso. apply (NL i Hi Lr).
Qed.

(** ** Adding an element and subtracting one: the elements *)
Lemma plus_element cfg N b v x : represents N b v -> 0 <= x < 2 ^ 64 -> fits N (v + x) ->
  exists r, add_element cfg N b x = Ok r /\ (forall i, (i < N)%nat -> 0 <= elements r i < 2 ^ 64) /\ number (elements r) N = v + x /\
    (0 < v -> (Z.log2 (v + x) = Z.log2 v \/ 2 ^ (64 * size v) <= v + x) -> represents N r (v + x)).
Proof.
  intros R X F. apply rep in R. destruct R as [V <-]. apply fits_Wp in F.
  destruct (add_element_elements cfg N b x V X ltac:(lia)) as (r & E & A & B & C). exists r. split; [exact E|]. split; [exact A|]. split; [exact B|].
  intros P H. destruct (C (val b + x) eq_refl) as [V' E']; [|exact P | apply rep_of; assumption].
  destruct H as [H|H]; [left; rewrite !nbits_pos by lia; lia | right]. rewrite (size_pos N b V P) in H. rewrite Wp_eq. lia.
Qed.
Lemma minus_one cfg N b v : represents N b v -> 0 < v ->
  exists r, decrement cfg N b = Ok r /\ (forall i, (i < N)%nat -> 0 <= elements r i < 2 ^ 64) /\ number (elements r) N = v - 1 /\
    (v < 2 ^ 64 -> represents N r (v - 1)).
Proof.
  intros R P. apply rep in R. destruct R as [V <-].
  destruct (decrement_elements cfg N b V P) as (r & E & A & B & C). exists r. split; [exact E|]. split; [exact A|]. split; [exact B|].
  intros L. destruct (C L). apply rep_of; assumption.
Qed.

(** ** Bigints for examples and witnesses: two elements in an array of [N] *)
Definition two (lo hi : Z) : nat -> Z := fun i => match i with O => lo | 1%nat => hi | _ => 0 end.
Definition three (lo mid hi : Z) : nat -> Z := fun i => match i with O => lo | 1%nat => mid | 2%nat => hi | _ => 0 end.
Definition one_word (x : Z) : big := mk_big (two x 0) 0 (log2p1 x).
Definition two_words (lo hi : Z) : big := mk_big (two lo hi) 1 (log2p1 hi).
Definition three_words (lo mid hi : Z) : big := mk_big (three lo mid hi) 2 (log2p1 hi).

Lemma two_small a N k : (2 <= N)%nat -> (forall i, (k <= i)%nat -> a i = 0) -> (k <= N)%nat -> number a N = number a k.
Proof. intros _ H L. apply number_zero; [exact L|]. intros i Hi. apply H. lia. Qed.

Lemma one_word_represents N x : (1 <= N)%nat -> 0 <= x < 2 ^ 64 -> represents N (one_word x) x.
Proof.
  intros HN X. apply rep_of.
  - split; cbn [elements element_pos bit_pos one_word].
    + intros i Hi. destruct i as [|[|i]]; cbn; lia.
    + lia.
    + intros i Hi. destruct i as [|[|i]]; cbn; lia.
    + apply log2p1_ok. exact X.
    + left. reflexivity.
  - unfold val, one_word. cbn [elements element_pos]. rewrite number_S, Wp_0. cbn. lia.
Qed.
Lemma two_words_represents N lo hi : (2 <= N)%nat -> 0 <= lo < 2 ^ 64 -> 0 < hi < 2 ^ 64 -> represents N (two_words lo hi) (hi * 2 ^ 64 + lo).
Proof.
  intros HN X Y. apply rep_of.
  - split; cbn [elements element_pos bit_pos two_words].
    + intros i Hi. destruct i as [|[|i]]; cbn; lia.
    + lia.
    + intros i Hi. destruct i as [|[|i]]; cbn; lia.
    + apply log2p1_ok. cbn. lia.
    + right. cbn. lia.
  - unfold val, two_words. cbn [elements element_pos]. rewrite !number_S, Wp_S, Wp_0. cbn [number two]. change W with (2 ^ 64). lia.
Qed.
Lemma three_words_represents N lo mid hi : (3 <= N)%nat -> 0 <= lo < 2 ^ 64 -> 0 <= mid < 2 ^ 64 -> 0 < hi < 2 ^ 64 ->
  represents N (three_words lo mid hi) (hi * 2 ^ 128 + mid * 2 ^ 64 + lo).
Proof.
  intros HN X M Y. apply rep_of.
  - split; cbn [elements element_pos bit_pos three_words].
    + intros i Hi. destruct i as [|[|[|i]]]; cbn; lia.
    + lia.
    + intros i Hi. destruct i as [|[|[|i]]]; cbn; lia.
    + apply log2p1_ok. cbn. lia.
    + right. cbn. lia.
  - unfold val, three_words. cbn [elements element_pos]. rewrite !number_S, !Wp_S, Wp_0. cbn [number three]. change W with (2 ^ 64).
    change (2 ^ 128) with (2 ^ 64 * 2 ^ 64). ring.
Qed.

(** ** Where the operations go wrong *)
Definition debug_cfg : config := mk_config MulInt128 CtzBuiltin true false.
Definition release_cfg : config := mk_config MulInt128 CtzBuiltin true true.
Definition never (_ : nat) : Z := 0.

Lemma not_represents N b v : (0 < v -> 64 * Z.of_nat (element_pos b) + bit_pos b <> Z.log2 v + 1) ->
  (v = 0 -> element_pos b <> 0%nat \/ bit_pos b <> 0) -> 0 <= v -> ~ represents N b v.
Proof.
  intros H1 H2 H0 R. destruct (Z.eq_dec v 0) as [E|E].
  - destruct (rep_zero _ _ _ R E). destruct (H2 E); contradiction.
  - apply H1; [lia|]. apply (rep_bits _ _ _ R). lia.
Qed.

(** (2^64 - 1) * (2^65 - 1) in three elements *)
Lemma product_fails : exists b c v w, represents 3 b v /\ represents 3 c w /\ 0 < v /\ 0 < w /\ fits 3 (v * w) /\
  (forall jt jr, big_mul debug_cfg 3 jt jr b c = AssertFailed) /\
  exists r, big_mul release_cfg 3 never never b c = Ok r /\ number (elements r) 3 <> v * w.
Proof.
  exists (one_word (2 ^ 64 - 1)), (two_words (2 ^ 64 - 1) 1), (2 ^ 64 - 1), (1 * 2 ^ 64 + (2 ^ 64 - 1)).
  assert (R1 : represents 3 (one_word (2 ^ 64 - 1)) (2 ^ 64 - 1)) by (apply one_word_represents; lia).
  assert (R2 : represents 3 (two_words (2 ^ 64 - 1) 1) (1 * 2 ^ 64 + (2 ^ 64 - 1))) by (apply two_words_represents; lia).
  assert (F : fits 3 ((2 ^ 64 - 1) * (1 * 2 ^ 64 + (2 ^ 64 - 1)))) by (vm_compute; split; congruence).
  split; [exact R1|]. split; [exact R2|]. split; [lia|]. split; [lia|]. split; [exact F|]. split.
  - intros jt jr. apply (product_stops debug_cfg 3 jt jr _ _ _ _ eq_refl R1 R2); [lia | lia | exact F|].
    exists 1. vm_compute. repeat split; congruence.
  - eexists. split; [vm_compute; reflexivity|]. vm_compute. discriminate.
Qed.
(** 0 * 2^64: the value is 0, but the leading one is said to be in element 1 *)
Lemma zero_product_fails : exists b c w r, represents 2 b 0 /\ represents 2 c w /\ fits 2 (0 * w) /\
  big_mul debug_cfg 2 never never b c = Ok r /\ ~ represents 2 r (0 * w).
Proof.
  exists (one_word 0), (two_words 0 1), (1 * 2 ^ 64 + 0). eexists. split; [apply one_word_represents; lia|]. split; [apply two_words_represents; lia|].
  split; [vm_compute; split; congruence|]. split; [vm_compute; reflexivity|]. apply not_represents; [vm_compute; congruence | | vm_compute; congruence].
  intros _. left. vm_compute. discriminate.
Qed.
Lemma times_zero_fails : exists b v r, represents 2 b v /\ fits 2 (v * 0) /\ mul_assign_element debug_cfg 2 b 0 = Ok r /\ ~ represents 2 r (v * 0).
Proof.
  exists (two_words 0 1), (1 * 2 ^ 64 + 0). eexists. split; [apply two_words_represents; lia|].
  split; [vm_compute; split; congruence|]. split; [vm_compute; reflexivity|]. apply not_represents; [vm_compute; congruence | | vm_compute; congruence].
  intros _. left. vm_compute. discriminate.
Qed.
(** 1 + 1: the value is 2, but the leading one is said to be bit 1 *)
Lemma plus_element_fails : exists b v x r, represents 2 b v /\ 0 <= x < 2 ^ 64 /\ fits 2 (v + x) /\ add_element debug_cfg 2 b x = Ok r /\ ~ represents 2 r (v + x).
Proof.
  exists (one_word 1), 1, 1. eexists. split; [apply one_word_represents; lia|]. split; [lia|].
  split; [vm_compute; split; congruence|]. split; [vm_compute; reflexivity|]. apply not_represents; [vm_compute; congruence | vm_compute; congruence | vm_compute; congruence].
Qed.
(** 2^64 + 1 - 1 and 2^128 + 2^64 - 1 *)
Lemma minus_one_fails :
  (exists b v r, represents 2 b v /\ 0 < v /\ decrement debug_cfg 2 b = Ok r /\ ~ represents 2 r (v - 1)) /\
  (exists b v r, represents 3 b v /\ 0 < v /\ decrement debug_cfg 3 b = Ok r /\ (element_pos r < element_pos b)%nat /\ 2 ^ 128 <= v - 1).
Proof.
  split.
  - exists (two_words 1 1), (1 * 2 ^ 64 + 1). eexists. split; [apply two_words_represents; lia|]. split; [lia|].
    split; [vm_compute; reflexivity|]. apply not_represents; [vm_compute; congruence | vm_compute; congruence | vm_compute; congruence].
  - exists (three_words 0 1 1), (1 * 2 ^ 128 + 1 * 2 ^ 64 + 0). eexists. split; [apply three_words_represents; lia|]. split; [lia|].
    split; [vm_compute; reflexivity|]. split; [vm_compute; lia | vm_compute; congruence].
Qed.
