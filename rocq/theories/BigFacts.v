(** * Arrays of elements as numbers *)

From Coq Require Import ZArith List Lia Bool.
From Verif Require Import Machine Model Arith BigintModel BigSpec.
Open Scope Z_scope.

Notation W := (2 ^ 64).
Definition Wp (n : nat) : Z := 2 ^ (64 * Z.of_nat n).
Lemma Wp_eq n : Wp n = 2 ^ (64 * Z.of_nat n). Proof. reflexivity. Qed.
Lemma Wp_0 : Wp 0 = 1. Proof. reflexivity. Qed.
Lemma Wp_S n : Wp (S n) = Wp n * W.
Proof. unfold Wp. rewrite <- Z.pow_add_r by lia. f_equal. lia. Qed.
Lemma Wp_pos n : 0 < Wp n. Proof. apply Z.pow_pos_nonneg; lia. Qed.
Lemma Wp_add m n : Wp (m + n) = Wp m * Wp n.
Proof. unfold Wp. rewrite <- Z.pow_add_r by lia. f_equal. lia. Qed.
Lemma number_S a n : number a (S n) = number a n + a n * Wp n. Proof. reflexivity. Qed.
Global Opaque Wp.

Definition words (a : nat -> Z) (n : nat) : Prop := forall i, (i < n)%nat -> 0 <= a i < W.

Lemma number_ext a b n : (forall i, (i < n)%nat -> a i = b i) -> number a n = number b n.
Proof.
  induction n as [|n IH]; intros H; [reflexivity|]. rewrite !number_S, IH by (intros; apply H; lia). rewrite H by lia. reflexivity.
Qed.
Lemma number_bounds a n : words a n -> 0 <= number a n < Wp n.
Proof.
  induction n as [|n IH]; intros H; [cbn; rewrite Wp_0; lia|]. rewrite number_S, Wp_S.
  assert (0 <= number a n < Wp n) by (apply IH; intros i Hi; apply H; lia).
  pose proof (H n ltac:(lia)). pose proof (Wp_pos n). nia.
Qed.
Lemma number_zero a m n : (m <= n)%nat -> (forall i, (m <= i < n)%nat -> a i = 0) -> number a n = number a m.
Proof.
  intros L. induction n as [|n IH]; intros H.
  - assert (m = 0)%nat by lia. subst. reflexivity.
  - destruct (Nat.eq_dec m (S n)) as [->|]; [reflexivity|]. rewrite number_S, IH by (try lia; intros; apply H; lia).
    rewrite H by lia. lia.
Qed.
Lemma number_mono a m n : words a n -> (m <= n)%nat -> number a m <= number a n.
Proof.
  intros H L. induction n as [|n IH]; [replace m with 0%nat by lia; lia|].
  destruct (Nat.eq_dec m (S n)) as [->|]; [lia|]. rewrite number_S.
  assert (number a m <= number a n) by (apply IH; [intros i Hi; apply H; lia | lia]).
  pose proof (H n ltac:(lia)). pose proof (Wp_pos n). nia.
Qed.
Lemma number_pos_nonzero a n : words a n -> number a n = 0 -> forall i, (i < n)%nat -> a i = 0.
Proof.
  induction n as [|n IH]; intros H E i Hi; [lia|]. rewrite number_S in E.
  assert (Hn : words a n) by (intros j Hj; apply H; lia).
  pose proof (number_bounds a n Hn). pose proof (H n ltac:(lia)). pose proof (Wp_pos n).
  assert (a n = 0) by nia. destruct (Nat.eq_dec i n) as [->|]; [assumption|]. apply IH; try assumption; [nia|lia].
Qed.

Lemma put_same a i v : put a i v i = v.
Proof. unfold put. rewrite Nat.eqb_refl. reflexivity. Qed.
Lemma put_other a i v j : j <> i -> put a i v j = a j.
Proof. unfold put. intros H. apply Nat.eqb_neq in H. rewrite H. reflexivity. Qed.
Lemma sel_ok N a i : (i < N)%nat -> sel N a i = Ok (a i).
Proof. intros H. unfold sel. apply Nat.ltb_lt in H. rewrite H. reflexivity. Qed.
Lemma upd_ok N a i v : (i < N)%nat -> upd N a i v = Ok (put a i v).
Proof. intros H. unfold upd. apply Nat.ltb_lt in H. rewrite H. reflexivity. Qed.
Lemma cassert_ok cfg b : b = true -> cassert cfg b = Ok tt.
Proof. intros ->. unfold cassert. destruct (cfg_ndebug cfg); reflexivity. Qed.

Lemma up_loop_inv {A} (P : nat -> A -> Prop) body i n s : P i s ->
  (forall j s, (i <= j < i + n)%nat -> P j s -> exists s', body j s = Ok s' /\ P (S j) s') ->
  exists s', up_loop body i n s = Ok s' /\ P (i + n)%nat s'.
Proof.
  revert i s. induction n as [|n IH]; intros i s H0 Hs.
  - exists s. rewrite Nat.add_0_r. split; [reflexivity | exact H0].
  - destruct (Hs i s ltac:(lia) H0) as (s' & E & H1). cbn [up_loop]. rewrite E. cbn [bind].
    destruct (IH (S i) s' H1) as (s2 & E2 & H2); [intros j t Hj; apply Hs; lia|].
    exists s2. split; [exact E2|]. replace (i + S n)%nat with (S i + n)%nat by lia. exact H2.
Qed.
Lemma down_loop_inv {A} (P : nat -> A -> Prop) body n s : P n s ->
  (forall j s, (j < n)%nat -> P (S j) s -> exists s', body (S j) s = Ok s' /\ P j s') ->
  exists s', down_loop body n s = Ok s' /\ P 0%nat s'.
Proof.
  revert s. induction n as [|n IH]; intros s H0 Hs.
  - exists s. split; [reflexivity | exact H0].
  - destruct (Hs n s ltac:(lia) H0) as (s' & E & H1). cbn [down_loop]. rewrite E. cbn [bind].
    apply (IH s' H1). intros j t Hj. apply Hs. lia.
Qed.

Lemma fill_zero_ok N a i n : (i + n <= N)%nat -> exists a', fill_zero N a i n = Ok a' /\
  forall j, a' j = if ((i <=? j) && (j <? i + n))%nat then 0 else a j.
Proof.
  intros H. unfold fill_zero.
  destruct (up_loop_inv (fun k a' => forall j, a' j = if ((i <=? j) && (j <? k))%nat then 0 else a j)
    (fun j a => upd N a j 0) i n a) as (a' & E & P).
  - intros j. destruct (Nat.leb_spec i j), (Nat.ltb_spec j i); cbn; try reflexivity; lia.
  - intros k a' Hk P. rewrite upd_ok by lia. eexists. split; [reflexivity|]. intros j. unfold put.
    destruct (Nat.eqb_spec j k) as [->|Q]; [destruct (Nat.leb_spec i k), (Nat.ltb_spec k (S k)); cbn; try reflexivity; lia|].
    rewrite P. destruct (Nat.leb_spec i j), (Nat.ltb_spec j k), (Nat.ltb_spec j (S k)); cbn; try reflexivity; lia.
  - exists a'. split; [exact E | exact P].
Qed.

(** ** log2p1 is the number of bits *)
Definition nbits (x : Z) : Z := if x =? 0 then 0 else Z.log2 x + 1.
Lemma nbits_pos x : 0 < x -> nbits x = Z.log2 x + 1.
Proof. unfold nbits. intros H. destruct (Z.eqb_spec x 0); [lia | reflexivity]. Qed.
Lemma inspect_ok k x r : 0 < k -> 0 <= x < 2 ^ (2 * k) ->
  let '(x', r') := log2p1_inspect k (x, r) in 0 <= x' < 2 ^ k /\ r' + nbits x' = r + nbits x.
Proof.
  intros Hk Hx. unfold log2p1_inspect. rewrite shiftr_div by lia.
  destruct (Z.eqb_spec (x / 2 ^ k) 0) as [E|E]; cbn [negb].
  - split; [|reflexivity]. split; [lia|]. apply Z.div_small_iff in E; [lia|]. apply Z.pow_nonzero; lia.
  - assert (P : 0 < 2 ^ k) by (apply Z.pow_pos_nonneg; lia).
    assert (0 <= x / 2 ^ k < 2 ^ k).
    { split; [apply Z.div_pos; lia|]. apply Z.div_lt_upper_bound; [lia|]. rewrite <- Z.pow_add_r by lia. replace (k + k) with (2 * k) by ring. lia. }
    split; [assumption|]. assert (0 < x / 2 ^ k) by lia.
    assert (0 < x) by (destruct (Z.eq_dec x 0) as [->|]; [rewrite Z.div_0_l in E by lia; lia | lia]).
    rewrite !nbits_pos by assumption. rewrite <- Z.shiftr_div_pow2, Z.log2_shiftr by lia.
    assert (k <= Z.log2 x).
    { apply Z.log2_le_pow2; [assumption|]. destruct (Z_lt_le_dec x (2 ^ k)) as [L|]; [|assumption].
      rewrite Z.div_small in E by lia. lia. }
    lia.
Qed.
Lemma log2p1_ok x : 0 <= x < W -> log2p1 x = nbits x.
Proof.
  intros H. unfold log2p1.
  pose proof (inspect_ok 32 x 0 ltac:(lia) H) as S1. destruct (log2p1_inspect 32 (x, 0)) as [x1 r1].
  pose proof (inspect_ok 16 x1 r1 ltac:(lia) (proj1 S1)) as S2. destruct (log2p1_inspect 16 (x1, r1)) as [x2 r2].
  pose proof (inspect_ok 8 x2 r2 ltac:(lia) (proj1 S2)) as S3. destruct (log2p1_inspect 8 (x2, r2)) as [x3 r3].
  pose proof (inspect_ok 4 x3 r3 ltac:(lia) (proj1 S3)) as S4. destruct (log2p1_inspect 4 (x3, r3)) as [x4 r4].
  pose proof (inspect_ok 2 x4 r4 ltac:(lia) (proj1 S4)) as S5. destruct (log2p1_inspect 2 (x4, r4)) as [x5 r5].
  pose proof (inspect_ok 1 x5 r5 ltac:(lia) (proj1 S5)) as S6. destruct (log2p1_inspect 1 (x5, r5)) as [x6 r6].
  destruct S1 as [_ S1], S2 as [_ S2], S3 as [_ S3], S4 as [_ S4], S5 as [_ S5], S6 as [B S6].
  assert (nbits x6 = x6) by (destruct (Z.eq_dec x6 0) as [->|]; [reflexivity | replace x6 with 1 by (change (2 ^ 1) with 2 in B; lia); reflexivity]).
  lia.
Qed.
Lemma nbits_range x : 0 < x < W -> 1 <= nbits x <= 64.
Proof.
  intros H. rewrite nbits_pos by lia. pose proof (Z.log2_nonneg x). assert (Z.log2 x < 64) by (apply Z.log2_lt_pow2; lia). lia.
Qed.
Lemma nbits_bounds x : 0 < x -> 2 ^ (nbits x - 1) <= x < 2 ^ nbits x.
Proof. intros H. rewrite nbits_pos by lia. replace (Z.log2 x + 1 - 1) with (Z.log2 x) by ring. apply (Z.log2_spec x H). Qed.
Lemma nbits_unique x k : 0 < x -> 2 ^ (k - 1) <= x < 2 ^ k -> nbits x = k.
Proof.
  intros Hx H. rewrite nbits_pos by lia.
  assert (L : 1 <= k).
  { destruct (Z_lt_le_dec k 1) as [L|L]; [exfalso|exact L].
    assert (2 ^ k <= 1) by (destruct (Z.eq_dec k 0) as [->|]; [reflexivity | rewrite Z.pow_neg_r by lia; lia]). lia. }
  rewrite (Z.log2_unique x (k - 1)); [ring | lia |]. replace (Z.succ (k - 1)) with k by lia. exact H.
Qed.

(** ** The invariant in terms of elements *)
Record valid (N : nat) (b : big) : Prop := {
  v_words : words (elements b) N;
  v_pos : (element_pos b < N)%nat;
  v_above : forall i, (element_pos b < i < N)%nat -> elements b i = 0;
  v_bits : bit_pos b = nbits (elements b (element_pos b));
  v_top : element_pos b = 0%nat \/ elements b (element_pos b) <> 0
}.
Definition val (b : big) : Z := number (elements b) (S (element_pos b)).

Lemma val_number N b : valid N b -> number (elements b) N = val b.
Proof. intros [Hw Hp Ha _ _]. apply number_zero; [lia|]. intros i Hi. apply Ha. lia. Qed.

Lemma top_bits a p : words a (S p) -> a p <> 0 ->
  0 < number a (S p) /\ 64 * Z.of_nat p + nbits (a p) = nbits (number a (S p)).
Proof.
  intros Hw Hn. pose proof (Hw p ltac:(lia)) as Hp. assert (P0 : 0 < a p) by lia.
  pose proof (nbits_bounds (a p) P0) as B. pose proof (nbits_range (a p) ltac:(lia)) as R.
  assert (Hl : 0 <= number a p < Wp p) by (apply number_bounds; intros i Hi; apply Hw; lia).
  rewrite number_S. pose proof (Wp_pos p). assert (0 < number a p + a p * Wp p) by nia. split; [assumption|].
  symmetry. apply nbits_unique; [assumption|]. rewrite Wp_eq in *.
  rewrite <- !Z.add_sub_assoc, !Z.pow_add_r by lia. set (q := 2 ^ (64 * Z.of_nat p)) in *. nia.
Qed.

Lemma valid_represents N b : valid N b -> represents N b (val b).
Proof.
  intros V. pose proof (val_number N b V) as E. destruct V as [Hw Hp Ha Hb Ht].
  assert (Hws : words (elements b) (S (element_pos b))) by (intros i Hi; apply Hw; lia).
  split; try assumption.
  - intros Z0. unfold val in Z0. pose proof (number_pos_nonzero _ _ Hws Z0 (element_pos b) ltac:(lia)) as Q.
    destruct Ht as [T|T]; [|contradiction]. split; [exact T|]. rewrite Hb, Q. reflexivity.
  - intros P. destruct (Z.eq_dec (elements b (element_pos b)) 0) as [Q|Q].
    + destruct Ht as [T|T]; [|contradiction]. unfold val in P. rewrite T in *. cbn in P. rewrite Q in P. lia.
    + destruct (top_bits _ _ Hws Q) as [P1 B]. rewrite Hb. split.
      * apply nbits_range. pose proof (Hw (element_pos b) Hp). lia.
      * rewrite B. fold (val b). apply nbits_pos. exact P.
Qed.

Lemma represents_valid N b v : represents N b v -> valid N b /\ val b = v.
Proof.
  intros [Hw Hv Hp Hz Hb].
  assert (Z0 : 0 <= v) by (rewrite <- Hv; apply number_bounds; exact Hw).
  assert (V : valid N b); [|split; [exact V | rewrite <- (val_number N b V); exact Hv]].
  destruct (Z.eq_dec v 0) as [E|E].
  - destruct (Hz E) as [H1 H2]. rewrite E in Hv. pose proof (number_pos_nonzero _ _ Hw Hv) as A.
    split; try assumption; [intros i Hi; apply A; lia | rewrite H2, A by lia; reflexivity | left; exact H1].
  - destruct (Hb ltac:(lia)) as [B1 B2]. set (p := element_pos b) in *.
    (* the highest nonzero element *)
    assert (U : v < 2 ^ (64 * Z.of_nat p + bit_pos b)) by (rewrite B2; apply Z.log2_spec; lia).
    assert (L : 2 ^ (64 * Z.of_nat p + bit_pos b - 1) <= v).
    { replace (64 * Z.of_nat p + bit_pos b - 1) with (Z.log2 v) by lia. apply Z.log2_spec. lia. }
    assert (Ab : forall i, (p < i < N)%nat -> elements b i = 0).
    { intros i Hi. pose proof (Hw i ltac:(lia)) as Wi. destruct (Z.eq_dec (elements b i) 0) as [|Q]; [assumption|exfalso].
      assert (M : number (elements b) (S i) <= v) by (rewrite <- Hv; apply number_mono; [exact Hw | lia]).
      assert (0 <= number (elements b) i) by (apply number_bounds; intros j Hj; apply Hw; lia).
      rewrite number_S in M. pose proof (Wp_pos i).
      assert (Wp i <= v) by nia.
      assert (2 ^ (64 * Z.of_nat p + bit_pos b) <= Wp i) by (rewrite Wp_eq; apply Z.pow_le_mono_r; lia). lia. }
    assert (Ev : number (elements b) (S p) = v) by (rewrite <- Hv; symmetry; apply number_zero; [lia | intros i Hi; apply Ab; lia]).
    assert (Hws : words (elements b) (S p)) by (intros i Hi; apply Hw; lia).
    assert (Nz : elements b p <> 0).
    { intros Q. rewrite number_S, Q in Ev. assert (B : number (elements b) p < Wp p) by (apply number_bounds; intros i Hi; apply Hw; lia).
      assert (Wp p <= 2 ^ (64 * Z.of_nat p + bit_pos b - 1)) by (rewrite Wp_eq; apply Z.pow_le_mono_r; lia). lia. }
    destruct (top_bits _ _ Hws Nz) as [_ T]. rewrite Ev, (nbits_pos v) in T by lia.
    split; try assumption; [fold p; lia | right; exact Nz].
Qed.
