(** * The loops of tests/generate_cache.cpp *)

From Coq Require Import ZArith List Bool Lia.
From Verif Require Import Machine Tables Model Arith BigintModel BigSpec BigFacts Bigint BigintOps BigintMul GenModel GenBits.
Import ListNotations.
Open Scope Z_scope.

Lemma no_divide_2 p x : (5 | p) -> 0 <= x -> ~ (p | 2 ^ x).
Proof.
  intros D Hx. assert (G : ~ (5 | 2 ^ x)).
  { pattern x. apply natlike_ind; [intros [q E]; lia| |exact Hx]. intros y Hy IH. rewrite Z.pow_succ_r by exact Hy.
    intros [q E]. apply IH. exists (2 ^ y - 2 * q). lia. }
  intros C. apply G. eapply Z.divide_trans; eassumption.
Qed.
Lemma five_divides k : (1 <= k)%nat -> (5 | 5 ^ Z.of_nat k).
Proof. intros H. exists (5 ^ (Z.of_nat k - 1)). rewrite Z.mul_comm, <- Z.pow_succ_r by lia. f_equal. lia. Qed.

Lemma least_shift d p : 0 < d -> d <= p -> exists n, 0 <= n /\ p <= d * 2 ^ n /\ (n = 0 \/ d * 2 ^ (n - 1) < p).
Proof.
  intros Hd L. remember (Z.to_nat (p - d)) as m eqn:Em. revert d Hd L Em. induction m as [m IH] using lt_wf_ind. intros d Hd L Em.
  destruct (Z_le_gt_dec p (2 * d)) as [Q|Q].
  - destruct (Z.eq_dec d p) as [->|N]; [exists 0; lia|]. exists 1. change (2 ^ 1) with 2. change (2 ^ (1 - 1)) with 1. lia.
  - destruct (IH (Z.to_nat (p - 2 * d)) ltac:(lia) (2 * d) ltac:(lia) ltac:(lia) eq_refl) as (n & N0 & N1 & N2).
    exists (n + 1). rewrite Z.pow_add_r by lia. change (2 ^ 1) with 2. split; [lia|]. split; [lia|]. right. replace (n + 1 - 1) with n by lia.
    destruct N2 as [->|N2]; [lia|]. replace (2 ^ n) with (2 * 2 ^ (n - 1)); [lia|].
    assert (n <> 0) by (intros ->; cbn in N2; lia). rewrite <- Z.pow_succ_r by lia. f_equal. lia.
Qed.

Lemma shift_bound d p n N : 0 < d -> 1 <= n -> d * 2 ^ (n - 1) < p -> p < Wp N -> n <= 64 * Z.of_nat N.
Proof.
  intros Hd Hn H F. rewrite Wp_eq in F. assert (0 < 2 ^ (n - 1)) by (apply Z.pow_pos_nonneg; lia).
  assert (2 ^ (n - 1) < 2 ^ (64 * Z.of_nat N)) by nia. apply pow_lt_inv in H1; lia.
Qed.

Lemma bitset_shl_ok P u n : 0 <= n < P -> 0 <= u -> u * 2 ^ n < 2 ^ P -> bitset_shl P u n = u * 2 ^ n.
Proof.
  intros Hn Hu H. unfold bitset_shl. rewrite (proj2 (Z.ltb_lt _ _)) by lia. rewrite shiftl_mul by lia. unfold wrap. apply Z.mod_small. nia.
Qed.

Section Digits.
Variables (cfg : config) (P : Z) (N : nat) (p5 : big).
Hypotheses (HP : 1 <= P) (HN : P + 64 * Z.of_nat N < W) (V : valid N p5) (F : 2 * val p5 <= Wp N) (Hfive : (5 | val p5)) (Hpos : 0 < val p5).
Let p := val p5.
Let nb := nbits p.

Lemma negative_digits_ok fuel : forall d g acc, valid N d -> p < val d < 2 * p -> 0 <= acc < P -> P - acc <= Z.of_nat fuel ->
  2 ^ (nb + acc) = (g - 1) * p + val d -> 2 ^ acc <= g < 2 ^ (acc + 1) ->
  negative_digits cfg P N fuel p5 d g acc = Ok (2 ^ (nb + P - 1) / p).
Proof.
  pose proof (nbits_bounds p Hpos) as NBB. assert (NB1 : 1 <= nb) by (unfold nb; rewrite nbits_pos by exact Hpos; pose proof (Z.log2_nonneg p); lia).
  induction fuel as [|fuel IH]; intros d g acc Vd Hd Ha Hf Hg Hb; [lia|]. cbn [negative_digits].
  destruct (sub_assign_valid cfg N d p5 Vd V ltac:(fold p; lia)) as (d1 & -> & V1 & E1). cbn [bind]. fold p in E1.
  destruct (least_shift (val d1) p ltac:(lia) ltac:(lia)) as (n & N0 & N1 & N2).
  assert (Hn : 1 <= n) by (destruct (Z.eq_dec n 0) as [->|]; [rewrite Z.pow_0_r in N1; lia | lia]).
  destruct N2 as [N2|N2]; [lia|].
  assert (E2 : 2 ^ n = 2 * 2 ^ (n - 1)) by (rewrite <- Z.pow_succ_r by lia; f_equal; lia).
  assert (Lt : val d1 * 2 ^ n < 2 * p) by (rewrite E2; lia).
  assert (Nb : n <= 64 * Z.of_nat N) by (apply (shift_bound (val d1) p n N); fold p in F; lia).
  destruct (multiply_2_until_valid cfg N d1 p5 n ltac:(lia) V1 V ltac:(lia) ltac:(fold p; lia) N0 N1 ltac:(right; exact N2) ltac:(fold p in F; lia)) as (d2 & -> & V2 & D2).
  cbn [bind]. replace (wrap 64 (acc + n)) with (acc + n) by (symmetry; apply Z.mod_small; lia).
  assert (G0 : 0 < g) by (assert (0 < 2 ^ acc) by (apply Z.pow_pos_nonneg; lia); lia).
  destruct (Z.leb_spec P (acc + n)) as [L|L].
  - replace (acc + n - n) with acc by lia. replace (wrap 64 acc) with acc by (symmetry; apply Z.mod_small; change (2 ^ 64) with W; lia).
    replace (wrap 64 (P - 1 - acc)) with (P - 1 - acc) by (symmetry; apply Z.mod_small; change (2 ^ 64) with W; lia).
    set (s := P - 1 - acc). assert (0 < 2 ^ s) by (apply Z.pow_pos_nonneg; lia).
    rewrite bitset_shl_ok; [| lia | lia |].
    + f_equal. assert (X : 2 ^ (nb + P - 1) = 2 ^ (nb + acc) * 2 ^ s) by (rewrite <- Z.pow_add_r by lia; f_equal; lia).
      apply Z.div_unique_pos with (r := val d1 * 2 ^ s).
      * split; [nia|]. assert (2 ^ s <= 2 ^ (n - 1)) by (apply Z.pow_le_mono_r; lia). nia.
      * rewrite X, Hg, E1. ring.
    + replace (2 ^ P) with (2 ^ (acc + 1) * 2 ^ s) by (rewrite <- Z.pow_add_r by lia; f_equal; lia). nia.
  - assert (0 < 2 ^ (n - 1)) by (apply Z.pow_pos_nonneg; lia).
    rewrite bitset_shl_ok; [| lia | lia |].
    2: { assert (2 ^ (acc + 1) * 2 ^ n <= 2 ^ P) by (rewrite <- Z.pow_add_r by lia; apply Z.pow_le_mono_r; lia). nia. }
    unfold set_bit. rewrite (proj2 (Z.ltb_lt _ _)) by lia. cbn [Z.leb Z.compare andb bind].
    replace (Z.setbit (g * 2 ^ n) 0) with (g * 2 ^ n + 1).
    2: { rewrite Z.setbit_spec'. change (2 ^ 0) with 1. rewrite E2. replace (g * (2 * 2 ^ (n - 1))) with (g * 2 ^ (n - 1) * 2 ^ 1) by (change (2 ^ 1) with 2; ring).
         rewrite lor_add; [reflexivity | lia | change (2 ^ 1) with 2; lia]. }
    assert (ND : val d2 <> p).
    { intros Q. apply (no_divide_2 p (nb + acc + n) Hfive ltac:(lia)). exists (g * 2 ^ n + 1).
      rewrite Z.pow_add_r, Hg by lia. rewrite Z.mul_add_distr_r. replace (val d) with (val d1 + p) by lia. rewrite D2 in Q. nia. }
    apply IH; try assumption; try lia.
    + rewrite Z.add_assoc, Z.pow_add_r, Hg, D2, E1 by lia. ring.
    + rewrite (Z.pow_add_r 2 acc n) by lia. replace (acc + n + 1) with (acc + 1 + n) by lia. rewrite (Z.pow_add_r 2 (acc + 1) n) by lia. nia.
Qed.
End Digits.

(** ** The numbers generated *)
(** the top [P] bits of 5^k, and the top [P] bits of 1/5^k (truncated) *)
Definition positive_bits (P k : Z) : Z := Z.shiftl (5 ^ k) (P - nbits (5 ^ k)).
Definition negative_bits (P k : Z) : Z := 2 ^ (nbits (5 ^ k) + P - 1) / 5 ^ k.
Definition generated (P j : Z) : Z := if 0 <=? j then positive_bits P j else negative_bits P (- j).

Lemma cache_put_ok min_k max_k c k v : min_k <= k <= max_k -> cache_put min_k max_k c k v = Ok (fun j => if j =? k then v else c j).
Proof. intros H. unfold cache_put. rewrite !(proj2 (Z.leb_le _ _)) by lia. reflexivity. Qed.

Definition exact_fill (P v : Z) : Prop := 64 < P /\ over_shift P v.

Section Generate.
Variables (over : option Z) (cfg : config) (junk : nat -> nat -> Z) (P min_k max_k : Z) (N : nat).
Hypotheses (HP : 1 <= P) (HN : P + 64 * Z.of_nat N < W) (Hk : min_k <= 0 /\ 0 <= max_k + min_k)
  (F1 : 5 ^ max_k < Wp N) (F2 : 2 * 5 ^ (- min_k) <= Wp N).

Lemma power_le a b : 0 <= a <= b -> 5 ^ a <= 5 ^ b.
Proof. intros H. apply Z.pow_le_mono_r; lia. Qed.
Lemma power_S (k : nat) : 5 ^ Z.of_nat (S k) = 5 * 5 ^ Z.of_nat k.
Proof. rewrite <- Z.pow_succ_r by lia. f_equal. lia. Qed.
Lemma one_word : (1 <= N)%nat.
Proof. destruct N; [|lia]. rewrite Wp_0 in F1. assert (0 < 5 ^ max_k) by (apply Z.pow_pos_nonneg; lia). lia. Qed.

(** 5^(k-1) has been computed, and the entries -low .. k-1 are in place *)
Definition progress (k low : nat) (st : big * (Z -> Z)) : Prop :=
  valid N (fst st) /\ val (fst st) = 5 ^ Z.of_nat (k - 1) /\ (1 <= k)%nat /\
  forall j, - Z.of_nat low <= j < Z.of_nat k -> snd st j = generated P j.

Lemma positive_step_ok k low st : progress k low st -> Z.of_nat k <= max_k ->
  (over <> None \/ ~ exact_fill P (5 ^ Z.of_nat k)) ->
  exists st', positive_step over cfg junk P min_k max_k N k st = Ok st' /\ progress (S k) low st'.
Proof.
  intros (V & E & K1 & C) Hm Ho. destruct st as [p5 c]. cbn [fst snd] in *. unfold positive_step.
  assert (E5 : 5 * val p5 = 5 ^ Z.of_nat k) by (rewrite E, <- power_S; f_equal; lia).
  assert (P5 : 0 < val p5) by (rewrite E; apply Z.pow_pos_nonneg; lia).
  destruct (multiply_5_valid cfg N (junk k) p5 V P5 ltac:(rewrite E5; pose proof (power_le (Z.of_nat k) max_k ltac:(lia)); lia)) as (q5 & -> & Vq & Eq). cbn [bind].
  rewrite E5 in Eq. assert (Pq : 0 < val q5) by (rewrite Eq; apply Z.pow_pos_nonneg; lia).
  rewrite (get_upper_bits_ok over P N q5 HP Vq Pq) by (unfold exact_fill in Ho; rewrite Eq; exact Ho). cbn [bind].
  rewrite cache_put_ok by lia. cbn [bind]. eexists. split; [reflexivity|]. split; [exact Vq|]. cbn [fst snd].
  replace (S k - 1)%nat with k by lia. split; [exact Eq|]. split; [lia|]. intros j Hj.
  destruct (Z.eqb_spec j (Z.of_nat k)) as [->|Q]; [|apply C; lia].
  unfold generated. rewrite (proj2 (Z.leb_le _ _)) by lia. unfold positive_bits. rewrite Eq. reflexivity.
Qed.

Lemma both_step_ok k st : progress k (k - 1) st -> Z.of_nat k <= - min_k ->
  (over <> None \/ ~ exact_fill P (5 ^ Z.of_nat k)) ->
  exists st', both_step over cfg junk P min_k max_k N k st = Ok st' /\ progress (S k) (S k - 1) st'.
Proof.
  intros H Hm Ho. unfold both_step. pose proof (proj1 (proj2 (proj2 H))) as K1. destruct (positive_step_ok k (k - 1) st H ltac:(lia) Ho) as ([p5 c] & -> & V & E & _ & C).
  cbn [fst snd bind] in *. replace (S k - 1)%nat with k in * by lia.
  pose proof one_word as N1. destruct (big_of_valid N (junk k) 1 N1 ltac:(lia)) as (d0 & -> & V0 & E0). cbn [bind].
  assert (Pp : 0 < val p5) by (rewrite E; apply Z.pow_pos_nonneg; lia).
  assert (F5 : (5 | val p5)) by (rewrite E; apply five_divides; lia).
  assert (C2 : 2 * val p5 <= Wp N) by (rewrite E; pose proof (power_le (Z.of_nat k) (- min_k) ltac:(lia)); lia).
  pose proof (nbits_bounds (val p5) Pp) as NB. pose proof (Z.log2_nonneg (val p5)) as LG. pose proof (nbits_pos (val p5) Pp) as NE.
  assert (NP : forall x, 0 <= x -> 2 ^ x <> val p5).
  { intros x Hx Q. apply (no_divide_2 (val p5) x F5 Hx). rewrite Q. apply Z.divide_refl. }
  assert (X2 : 2 ^ nbits (val p5) = 2 * 2 ^ (nbits (val p5) - 1)) by (rewrite <- Z.pow_succ_r by lia; f_equal; lia).
  pose proof (NP (nbits (val p5)) ltac:(lia)). pose proof (NP (nbits (val p5) - 1) ltac:(lia)).
  destruct (multiply_2_until_valid cfg N d0 p5 (nbits (val p5)) ltac:(lia) V0 V ltac:(lia) ltac:(lia) ltac:(lia) ltac:(lia) ltac:(right; lia) ltac:(lia)) as (d1 & -> & V1 & E1).
  cbn [bind]. rewrite E0, Z.mul_1_l in E1.
  rewrite (negative_digits_ok cfg P N p5 HP HN V C2 F5 Pp); [| exact V1 | lia | lia | lia | rewrite Z.add_0_r; lia | change (2 ^ (0 + 1)) with 2; change (2 ^ 0) with 1; lia].
  cbn [bind]. rewrite cache_put_ok by lia. cbn [bind]. eexists. split; [reflexivity|]. split; [exact V|]. cbn [fst snd].
  replace (S k - 1)%nat with k by lia. split; [exact E|]. split; [lia|]. intros j Hj.
  destruct (Z.eqb_spec j (- Z.of_nat k)) as [->|Q]; [|apply C; lia].
  unfold generated. rewrite (proj2 (Z.leb_gt _ _)) by lia. unfold negative_bits. rewrite Z.opp_involutive, <- E. reflexivity.
Qed.

Lemma start_ok : exists p5 c, big_of N (junk 0%nat) 1 = Ok p5 /\ get_upper_bits over P N p5 = Ok (generated P 0) /\
  cache_put min_k max_k (fun _ => 0) 0 (generated P 0) = Ok c /\ progress 1 0 (p5, c).
Proof.
  destruct (big_of_valid N (junk 0%nat) 1 one_word ltac:(lia)) as (p5 & Eb & V & E). exists p5. eexists. split; [exact Eb|].
  split; [|split; [apply cache_put_ok; lia|]].
  - rewrite (get_upper_bits_ok over P N p5 HP V) by (try lia; right; intros [L [L2 _]]; rewrite E in L2; change (nbits 1) with 1 in L2; lia). rewrite E. reflexivity.
  - split; [exact V|]. cbn [fst snd]. split; [exact E|]. split; [lia|]. intros j Hj. assert (j = 0) by lia. subst j. reflexivity.
Qed.

Lemma generate_cache_bitset_ok : (over <> None \/ forall k, 1 <= k <= max_k -> ~ exact_fill P (5 ^ k)) ->
  exists c, generate_cache_bitset over cfg junk P min_k max_k N = Ok c /\ forall j, min_k <= j <= max_k -> c j = generated P j.
Proof.
  intros Ho. unfold generate_cache_bitset. destruct start_ok as (p5 & c & -> & E & Ec & Pr). cbn [bind]. rewrite E. cbn [bind]. rewrite Ec. cbn [bind].
  destruct (up_loop_inv (fun k st => progress k (k - 1) st) (both_step over cfg junk P min_k max_k N) 1 (Z.to_nat (- min_k)) (p5, c) Pr) as (st1 & -> & P1).
  { intros j s Hj Hs. apply both_step_ok; [exact Hs | lia|]. destruct Ho as [Ho|Ho]; [left; exact Ho | right; apply Ho; lia]. }
  cbn [bind].
  destruct (up_loop_inv (fun k st => progress k (Z.to_nat (- min_k)) st) (positive_step over cfg junk P min_k max_k N) (S (Z.to_nat (- min_k))) (Z.to_nat (max_k + min_k)) st1) as (st2 & -> & P2).
  { destruct P1 as (A & B & C & D). split; [exact A|]. split; [exact B|]. split; [lia|]. intros j Hj. apply D. lia. }
  { intros j s Hj Hs. apply positive_step_ok; [exact Hs | lia|]. destruct Ho as [Ho|Ho]; [left; exact Ho | right; apply Ho; lia]. }
  cbn [bind]. eexists. split; [reflexivity|]. intros j Hj. apply (proj2 (proj2 (proj2 P2))). lia.
Qed.

(** the first power whose bits fill the result exactly makes the whole program undefined *)
Lemma up_loop_stops {A} (body : nat -> A -> outcome A) i n m s s' : up_loop body i n s = Ok s' -> body (i + n)%nat s' = Undefined ->
  up_loop body i (n + S m) s = Undefined.
Proof.
  revert i s. induction n as [|n IH]; intros i s H1 H2.
  - cbn in H1. injection H1 as <-. rewrite Nat.add_0_r in H2. cbn [Nat.add up_loop]. rewrite H2. reflexivity.
  - cbn [Nat.add up_loop] in *. destruct (body i s) as [s1| | |]; try discriminate. cbn [bind] in *. apply IH; [exact H1|]. rewrite <- H2. f_equal. lia.
Qed.

Lemma generate_cache_bitset_undefined (k : nat) : over = None -> (1 <= k)%nat -> Z.of_nat k <= - min_k -> exact_fill P (5 ^ Z.of_nat k) ->
  (forall j, 1 <= j < Z.of_nat k -> ~ exact_fill P (5 ^ j)) -> generate_cache_bitset over cfg junk P min_k max_k N = Undefined.
Proof.
  intros Ho K1 Km [X1 X2] Hb. unfold generate_cache_bitset. destruct start_ok as (p5 & c & -> & E & Ec & Pr). cbn [bind]. rewrite E. cbn [bind]. rewrite Ec. cbn [bind].
  destruct (up_loop_inv (fun k st => progress k (k - 1) st) (both_step over cfg junk P min_k max_k N) 1 (k - 1) (p5, c) Pr) as (st1 & E1 & P1).
  { intros j s Hj Hs. apply both_step_ok; [exact Hs | lia|]. right. apply Hb. lia. }
  replace (Z.to_nat (- min_k)) with (k - 1 + S (Z.to_nat (- min_k) - k))%nat at 1 by lia. rewrite (up_loop_stops _ _ _ _ _ _ E1); [reflexivity|].
  destruct P1 as (V & Ev & _ & _). destruct st1 as [q5 c1]. cbn [fst snd] in *. unfold both_step, positive_step. replace (1 + (k - 1))%nat with k in * by lia.
  assert (E5 : 5 * val q5 = 5 ^ Z.of_nat k) by (rewrite Ev, <- power_S; f_equal; lia).
  assert (P5 : 0 < val q5) by (rewrite Ev; apply Z.pow_pos_nonneg; lia).
  destruct (multiply_5_valid cfg N (junk k) q5 V P5 ltac:(rewrite E5; pose proof (power_le (Z.of_nat k) max_k ltac:(lia)); lia)) as (r5 & -> & Vr & Er). cbn [bind].
  rewrite E5 in Er. rewrite (get_upper_bits_undefined over P N r5 Vr); [reflexivity | rewrite Er; apply Z.pow_pos_nonneg; lia | exact Ho | exact X1 | rewrite Er; exact X2].
Qed.
End Generate.
