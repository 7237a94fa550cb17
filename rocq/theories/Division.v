(** * long_division, when it does not lose its place *)

From Coq Require Import ZArith List Lia Bool.
From Verif Require Import Machine Model Arith BigintModel BigSpec BigFacts Bigint BigintOps BigintMul DivModel DivSpec.
Open Scope Z_scope.

(** ** A shift to the right *)
Definition righted (s : nat -> Z) (k : Z) (p i : nat) : Z :=
  if (i <? p)%nat then s i / 2 ^ k + (s (S i) mod 2 ^ k) * 2 ^ (64 - k) else s i / 2 ^ k.
Lemma righted_words s k p : 0 <= k <= 64 -> words s (S p) -> words (righted s k p) (S p).
Proof.
  intros Hk Hw i Hi. unfold righted. pose proof (pow_ge1 k ltac:(lia)). pose proof (pow_ge1 (64 - k) ltac:(lia)). pose proof (pow_split k Hk) as P.
  pose proof (Hw i Hi) as Wi. assert (0 <= s i / 2 ^ k < 2 ^ (64 - k)) by (split; [apply Z.div_pos; lia | apply Z.div_lt_upper_bound; lia]).
  set (q := 2 ^ k) in *. set (r := 2 ^ (64 - k)) in *. destruct (Nat.ltb_spec i p).
  - pose proof (Z.mod_pos_bound (s (S i)) q ltac:(lia)). rewrite P. nia.
  - rewrite P. nia.
Qed.
Lemma righted_number s k p : 0 <= k <= 64 -> words s (S p) ->
  2 ^ k * number (righted s k p) (S p) = number s (S p) - s 0%nat mod 2 ^ k.
Proof.
  intros Hk Hw. pose proof (pow_ge1 k ltac:(lia)). pose proof (pow_split k Hk) as P.
  assert (A : forall n, (n <= p)%nat -> 2 ^ k * number (righted s k p) n = number s n - s 0%nat mod 2 ^ k + (s n mod 2 ^ k) * Wp n).
  { induction n as [|n IH]; intros Hn; [cbn [number]; rewrite Wp_0; ring|].
    rewrite !number_S, Z.mul_add_distr_l, IH, Wp_S by lia. unfold righted. rewrite (proj2 (Nat.ltb_lt n p)) by lia.
    pose proof (Z.div_mod (s n) (2 ^ k) ltac:(lia)) as D. set (q := 2 ^ k) in *. set (r := 2 ^ (64 - k)) in *. rewrite P.
    set (m := s n mod q) in *. set (m1 := s (S n) mod q) in *. set (h := s n / q) in *. rewrite D. ring. }
  rewrite !number_S, Z.mul_add_distr_l, A by lia. unfold righted. rewrite (proj2 (Nat.ltb_ge p p)) by lia.
  pose proof (Z.div_mod (s p) (2 ^ k) ltac:(lia)) as D. set (q := 2 ^ k) in *. set (m := s p mod q) in *. set (h := s p / q) in *. rewrite D. ring.
Qed.
(** an array from its element [B] on *)
Definition from (s : nat -> Z) (B i : nat) : Z := s (B + i)%nat.
Lemma number_from s B n : number s (B + n) = number s B + Wp B * number (from s B) n.
Proof.
  induction n as [|n IH]; [rewrite Nat.add_0_r; cbn [number]; ring|].
  rewrite Nat.add_succ_r, !number_S, IH, Wp_add. unfold from. ring.
Qed.
Lemma number_above s B n : (B <= n)%nat -> (forall i, (i < B)%nat -> s i = 0) -> number s n = Wp B * number (from s B) (n - B).
Proof.
  intros L Z0. replace n with (B + (n - B))%nat at 1 by lia. rewrite number_from.
  rewrite (number_zero s 0 B) by (try lia; intros i Hi; apply Z0; lia). cbn [number]. ring.
Qed.
Lemma from_words s B n : (B <= n)%nat -> words s n -> words (from s B) (n - B).
Proof. intros L H i Hi. apply H. lia. Qed.
Lemma righted_from s k B p i : (B <= p)%nat -> righted s k p (B + i) = righted (from s B) k (p - B) i.
Proof.
  intros L. unfold righted, from. rewrite Nat.add_succ_r. destruct (Nat.ltb_spec (B + i) p), (Nat.ltb_spec i (p - B)); try lia; reflexivity.
Qed.
Lemma shift_right_loop_ok N s B p k : 0 < k < 64 -> (B <= p < N)%nat -> words s (S p) ->
  exists s', (s <- up_loop (fun idx s =>
                 v <- sel N s idx ;; v <- shr 64 v k ;; s <- upd N s idx v ;;
                 high <- sel N s (S idx) ;; high <- shl 64 high (64 - k) ;;
                 v <- sel N s idx ;; upd N s idx (Z.lor v high)) B (p - B) s ;;
              v <- sel N s p ;; v <- shr 64 v k ;; upd N s p v) = Ok s' /\
    (forall i, (B <= i <= p)%nat -> s' i = righted s k p i) /\ (forall i, (i < B)%nat -> s' i = s i).
Proof.
  intros Hk Hp Hw. pose proof (pow_ge1 k ltac:(lia)) as P1. pose proof (pow_ge1 (64 - k) ltac:(lia)) as P2. pose proof (pow_split k ltac:(lia)) as PW.
  destruct (up_loop_inv (fun j s' => (forall i, (B <= i < j)%nat -> s' i = righted s k p i) /\ forall i, (j <= i \/ i < B)%nat -> s' i = s i)
    (fun idx s =>
       v <- sel N s idx ;; v <- shr 64 v k ;; s <- upd N s idx v ;;
       high <- sel N s (S idx) ;; high <- shl 64 high (64 - k) ;;
       v <- sel N s idx ;; upd N s idx (Z.lor v high)) B (p - B) s) as (s1 & E & H1 & H2).
  - split; [intros; lia | reflexivity].
  - intros j s1 Hj [H1 H2]. rewrite sel_ok by lia. cbn [bind]. rewrite shr_ok by lia. cbn [bind]. rewrite upd_ok by lia. cbn [bind].
    rewrite sel_ok by lia. cbn [bind]. rewrite shl_ok by lia. cbn [bind]. rewrite sel_ok by lia. cbn [bind]. rewrite upd_ok by lia.
    eexists. split; [reflexivity|]. rewrite put_same, put_other by lia. rewrite !H2 by lia.
    assert (El : Z.lor (s j / 2 ^ k) ((s (S j) * 2 ^ (64 - k)) mod W) = righted s k p j).
    { unfold righted. rewrite (proj2 (Nat.ltb_lt j p)) by lia. rewrite shl_parts by lia. replace (64 - (64 - k)) with k by ring.
      pose proof (Hw j ltac:(lia)). rewrite Z.lor_comm, lor_add; [ring | lia |]. split; [apply Z.div_pos; lia | apply Z.div_lt_upper_bound; lia]. }
    rewrite El. split; intros i Hi.
    + unfold put. destruct (Nat.eqb_spec i j) as [->|Q]; [reflexivity|]. apply H1. lia.
    + rewrite !put_other by lia. apply H2. lia.
  - replace (B + (p - B))%nat with p in * by lia. rewrite E. cbn [bind]. rewrite sel_ok by lia. cbn [bind]. rewrite shr_ok by lia. cbn [bind]. rewrite upd_ok by lia.
    eexists. split; [reflexivity|]. split; intros i Hi.
    + unfold put. destruct (Nat.eqb_spec i p) as [->|Q].
      * rewrite H2 by lia. unfold righted. rewrite (proj2 (Nat.ltb_ge p p)) by lia. reflexivity.
      * apply H1. lia.
    + rewrite put_other by lia. apply H2. lia.
Qed.
(** an exact one *)
Lemma shift_right_exact N s B p k x : 0 < k < 64 -> (B <= p < N)%nat -> words s (S p) -> (forall i, (i < B)%nat -> s i = 0) ->
  number s (S p) = x * 2 ^ k -> (Wp B | x) ->
  exists s', (s <- up_loop (fun idx s =>
                 v <- sel N s idx ;; v <- shr 64 v k ;; s <- upd N s idx v ;;
                 high <- sel N s (S idx) ;; high <- shl 64 high (64 - k) ;;
                 v <- sel N s idx ;; upd N s idx (Z.lor v high)) B (p - B) s ;;
              v <- sel N s p ;; v <- shr 64 v k ;; upd N s p v) = Ok s' /\
    words s' (S p) /\ number s' (S p) = x /\ forall i, (i < B)%nat -> s' i = 0.
Proof.
  intros Hk Hp Hw Z0 Hx [y ->]. destruct (shift_right_loop_ok N s B p k Hk Hp Hw) as (s' & E & H & H0). exists s'. split; [exact E|].
  pose proof (pow_ge1 k ltac:(lia)) as P. pose proof (Wp_pos B) as PB.
  assert (Z1 : forall i, (i < B)%nat -> s' i = 0) by (intros i Hi; rewrite H0 by exact Hi; apply Z0; exact Hi).
  split; [|split; [|exact Z1]].
  - intros i Hi. destruct (Nat.le_gt_cases B i) as [L|L]; [rewrite H by lia; apply (righted_words s k p); [lia | exact Hw | exact Hi] | rewrite Z1 by exact L; lia].
  - rewrite (number_above s B (S p)) in Hx by (try lia; exact Z0). rewrite (number_above s' B (S p)) by (try lia; exact Z1).
    replace (S p - B)%nat with (S (p - B)) in * by lia.
    rewrite (number_ext (from s' B) (righted (from s B) k (p - B))) by (intros i Hi; unfold from at 1; rewrite H by lia; apply righted_from; lia).
    pose proof (righted_number (from s B) k (p - B) ltac:(lia)) as R. replace (S (p - B)) with (S p - B)%nat in R at 1 by lia.
    specialize (R (from_words s B (S p) ltac:(lia) Hw)).
    pose proof (Z.mod_pos_bound (from s B 0) (2 ^ k) ltac:(lia)). set (q := 2 ^ k) in *.
    set (n := number (from s B) (S (p - B))) in *. set (n' := number (righted (from s B) k (p - B)) (S (p - B))) in *.
    assert (n = y * q) by nia. assert (q * (y - n') = from s B 0 mod q) by lia. assert (n' = y) by nia. nia.
Qed.

(** ** The subtraction *)
Lemma skip_zeros_ok N a i : (i < N)%nat -> exists p, skip_zeros N a i = Ok p /\ (p <= i)%nat /\ (p = 0%nat \/ a p <> 0) /\ forall k, (p < k <= i)%nat -> a k = 0.
Proof.
  induction i as [|i IH]; intros H; cbn [skip_zeros]; rewrite sel_ok by exact H; cbn [bind].
  - exists 0%nat. destruct (_ =? _); repeat apply conj; try lia; try reflexivity.
  - destruct (Z.eqb_spec (a (S i)) 0) as [E|E].
    + destruct (IH ltac:(lia)) as (p & E1 & H1 & H2 & H3). exists p. repeat apply conj; try lia; try assumption.
      intros k Hk. destruct (Nat.eq_dec k (S i)) as [->|]; [exact E | apply H3; lia].
    + exists (S i). repeat apply conj; try lia; try reflexivity.
Qed.
Lemma perform_subtraction_ok cfg N b x B c : valid N b -> (B <= element_pos b)%nat -> (c <= element_pos b)%nat -> words x (S (element_pos b)) ->
  (forall i, (i < B)%nat -> x i = 0) ->
  (forall i, (c < i <= element_pos b)%nat -> elements b i = x i) -> number x (S c) <= number (elements b) (S c) ->
  exists b', perform_subtraction cfg N b x B c = Ok b' /\ valid N b' /\ val b' = val b - number x (S (element_pos b)).
Proof.
  intros Vb HB Hc Wx Z0 Ha L. pose proof (v_pos _ _ Vb) as Pb. pose proof (v_words _ _ Vb) as Wb.
  unfold perform_subtraction. rewrite !sel_ok by lia. cbn [bind]. rewrite upd_ok by lia. cbn [bind].
  assert (A : exists a, up_loop (fun idx (st : (nat -> Z) * Z) => let '(a, carry) := st in
          w <- sel N x idx ;;
          let with_carry := wrap 64 (w + carry) in
          let first_carry := if with_carry <? carry then 1 else 0 in
          v <- sel N a idx ;;
          a <- upd N a idx (wrap 64 (v - with_carry)) ;;
          Ok (a, Z.lor first_carry (if v <? with_carry then 1 else 0))) (S B) (c - B)
        (put (elements b) B (wrap 64 (elements b B - x B)), if elements b B <? x B then 1 else 0) = Ok (a, 0) /\
      words a N /\ number a (S c) = number (elements b) (S c) - number x (S c) /\ (forall i, (c < i)%nat -> (B < i)%nat -> a i = elements b i) /\
      forall i, (c < i <= B)%nat -> a i = 0).
  { destruct (Nat.le_gt_cases B c) as [LB|LB].
    - assert (A0 : subtracted N (elements b) x (S B) (put (elements b) B (wrap 64 (elements b B - x B)),
                if elements b B <? x B then 1 else 0)).
      { pose proof (Wb B ltac:(lia)). pose proof (Wx B ltac:(lia)).
        pose proof (sub_twice (elements b B) (x B) 0 ltac:(lia) ltac:(lia) ltac:(lia)) as A. cbv zeta in A.
        rewrite Z.add_0_r, (wrap_small 64 (x B)) in A by lia.
        rewrite (proj2 (Z.ltb_ge (x B) 0)) in A by lia. cbn [Z.lor] in A. destruct A as (A1 & A2 & A3).
        assert (X0 : number x B = 0) by (rewrite (number_zero x 0 B); [reflexivity | lia | intros i Hi; apply Z0; lia]).
        unfold subtracted. cbn [fst snd]. rewrite !number_S, put_same, Wp_S, X0, number_put_above by lia.
        pose proof (Wp_pos B). set (s := wrap 64 _) in *. set (k := if _ <? _ then 1 else 0) in *.
        repeat apply conj; try lia; [apply words_put; assumption | intros j Hj; apply put_other; lia]. }
      destruct (up_loop_inv (subtracted N (elements b) x) (fun idx (st : (nat -> Z) * Z) => let '(a, carry) := st in
              w <- sel N x idx ;;
              let with_carry := wrap 64 (w + carry) in
              let first_carry := if with_carry <? carry then 1 else 0 in
              v <- sel N a idx ;;
              a <- upd N a idx (wrap 64 (v - with_carry)) ;;
              Ok (a, Z.lor first_carry (if v <? with_carry then 1 else 0))) (S B) (c - B) _ A0) as ([a k] & E1 & A1).
      { intros j [a k] Hj (I1 & I2 & I3 & I4). cbn [fst snd] in *. rewrite !sel_ok by lia. cbn [bind].
        pose proof (sub_twice (a j) (x j) k (I3 j ltac:(lia)) (Wx j ltac:(lia)) I2) as A. cbv zeta in A. destruct A as (A1 & A2 & A3).
        rewrite upd_ok by lia. cbn [bind]. eexists. split; [reflexivity|]. unfold subtracted. cbn [fst snd]. rewrite (I4 j) in * by lia.
        repeat apply conj; try lia.
        - rewrite (number_S (put _ _ _)), put_same, number_put_above, !number_S, Wp_S by lia.
          set (s := wrap 64 _) in *. set (c' := Z.lor _ _) in *. pose proof (Wp_pos j). replace (c' * (Wp j * W)) with ((c' * W) * Wp j) by ring. nia.
        - apply words_put; assumption.
        - intros i Hi. rewrite put_other by lia. apply I4. lia. }
      cbn [bind] in E1. exists a. destruct A1 as (I1 & I2 & I3 & I4). cbn [fst snd] in *.
      replace (S B + (c - B))%nat with (S c) in * by lia.
      pose proof (number_bounds a (S c) ltac:(apply (words_le a _ N I3); lia)) as Ba. pose proof (Wp_pos (S c)) as Pw.
      pose proof (number_bounds (elements b) (S c) ltac:(apply (words_le _ _ N Wb); lia)) as Bb.
      pose proof (number_bounds x (S c) ltac:(apply (words_le _ _ _ Wx); lia)) as Bx.
      assert (k = 0) by nia. subst k. split; [exact E1|]. split; [exact I3|]. split; [lia|]. split; [intros i Hi _; apply I4; lia | intros i Hi; lia].
    - replace (c - B)%nat with 0%nat by lia. cbn [up_loop]. rewrite (Ha B), Z.sub_diag, Z.ltb_irrefl by lia. change (wrap 64 0) with 0.
      eexists. split; [reflexivity|]. split; [apply words_put; [exact Wb | lia]|]. rewrite number_put_above by lia.
      rewrite (number_zero x 0 (S c)) by (try lia; intros i Hi; apply Z0; lia). cbn [number].
      split; [lia|]. split; [intros i Hi Hi2; apply put_other; lia|]. intros i Hi. unfold put. destruct (Nat.eqb_spec i B) as [|Q]; [reflexivity|].
      rewrite Ha, Z0 by lia. reflexivity. }
  destruct A as (a & E1 & I3 & I1 & I4 & I5). cbn [bind] in E1. rewrite E1. cbn [bind]. rewrite cassert_ok by reflexivity. cbn [bind].
  destruct (fill_zero_ok N a (S (Nat.max B c)) (S (element_pos b) - S (Nat.max B c)) ltac:(lia)) as (a2 & -> & H2). cbn [bind].
  destruct (skip_zeros_ok N a2 c ltac:(lia)) as (p & -> & P1 & P2 & P3). cbn [bind]. rewrite sel_ok by lia. cbn [bind].
  assert (L2 : forall i, (i <= c)%nat -> a2 i = a i).
  { intros i Hi. rewrite H2. destruct (Nat.leb_spec (S (Nat.max B c)) i); [lia | reflexivity]. }
  assert (Z2 : forall i, (c < i < N)%nat -> a2 i = 0).
  { intros i Hi. rewrite H2. destruct (Nat.leb_spec (S (Nat.max B c)) i), (Nat.ltb_spec i (S (Nat.max B c) + (S (element_pos b) - S (Nat.max B c)))); cbn [andb]; try lia.
    - rewrite I4 by lia. apply (above_zero N b i Vb). lia.
    - apply I5. lia. }
  assert (W2 : words a2 N).
  { intros i Hi. destruct (Nat.le_gt_cases i c); [rewrite L2 by lia; apply I3; lia | rewrite Z2 by lia; lia]. }
  assert (Zp : forall i, (p < i < N)%nat -> a2 i = 0).
  { intros i Hi. destruct (Nat.le_gt_cases i c); [apply P3; lia | apply Z2; lia]. }
  assert (Vr : number a2 (S p) = val b - number x (S (element_pos b))).
  { rewrite <- (number_zero a2 (S p) (S c)) by (try lia; intros i Hi; apply Zp; lia). rewrite (number_ext a2 a (S c)) by (intros i Hi; apply L2; lia).
    pose proof (number_tail (elements b) x (S c) (S (element_pos b)) ltac:(lia) ltac:(intros i Hi; apply Ha; lia)) as T. fold (val b) in T. lia. }
  eexists. split; [reflexivity|]. apply valid_make_top; try assumption; [lia|].
  destruct P2 as [P2|P2]; [left; exact P2 | right]. rewrite <- Vr, number_S. pose proof (W2 p ltac:(lia)).
  pose proof (number_bounds a2 p ltac:(apply (words_le a2 _ N W2); lia)). pose proof (Wp_pos p). nia.
Qed.

(** ** The comparison *)
Lemma compare_down_ok N stop a n k : (k <= N)%nat -> words a k -> words n k ->
  exists c, compare_down N stop a n k = Ok c /\
    match c with
    | N_larger => number a k < number n k
    | This_larger idx => (stop <= idx < k)%nat /\ (forall i, (idx < i < k)%nat -> a i = n i) /\ n idx < a idx
    | No_difference => forall i, (stop <= i < k)%nat -> a i = n i
    end.
Proof.
  induction k as [|k IH]; intros HN Ha Hn; cbn [compare_down].
  - exists No_difference. split; [destruct (_ <=? _)%nat; reflexivity | intros; lia].
  - destruct (Nat.leb_spec (S k) stop) as [Ls|Ls].
    + exists No_difference. split; [reflexivity | intros; lia].
    + rewrite !sel_ok by lia. cbn [bind]. destruct (Z.ltb_spec (a k) (n k)) as [L|L].
      * exists N_larger. split; [reflexivity | apply number_lt; assumption].
      * destruct (Z.ltb_spec (n k) (a k)) as [L2|L2].
        -- exists (This_larger k). split; [reflexivity|]. split; [lia|]. split; [intros; lia | exact L2].
        -- destruct (IH ltac:(lia) (words_S _ _ Ha) (words_S _ _ Hn)) as (c & E & H). exists c. split; [exact E|].
           assert (Ek : a k = n k) by lia. destruct c.
           ++ rewrite !number_S, Ek. lia.
           ++ destruct H as (H1 & H2 & H3). split; [lia|]. split; [|exact H3]. intros i Hi. destruct (Nat.eq_dec i k) as [->|]; [exact Ek | apply H2; lia].
           ++ intros i Hi. destruct (Nat.eq_dec i k) as [->|]; [exact Ek | apply H; lia].
Qed.

Lemma log2_shift w t : 0 < w -> 0 <= t -> Z.log2 (w * 2 ^ t) = Z.log2 w + t.
Proof. intros Hw H. rewrite Z.log2_mul_pow2 by lia. ring. Qed.
Lemma shifted_pos w t : 0 < w -> 0 <= t -> 0 < w * 2 ^ t.
Proof. intros Hw H. assert (0 < 2 ^ t) by (apply Z.pow_pos_nonneg; lia). nia. Qed.

(** ** The invariant: [v] is the quotient so far times [w] plus [*this] *)
Section Loop.
Variables (cfg : config) (N : nat) (v w : Z).
Hypothesis HN : 64 * Z.of_nat N < W.
Hypothesis Hw : 0 < w.

(** n_shifted is [w * 2^t], with its leading bit recorded *)
Definition holds (s : nat -> Z) (p : nat) (bits t : Z) : Prop :=
  (p < N)%nat /\ words s (S p) /\ number s (S p) = w * 2 ^ t /\ 1 <= bits <= 64 /\ 64 * Z.of_nat p + bits = Z.log2 w + t + 1.
Definition quotient_is (q : big) (Q : Z) : Prop := words (elements q) N /\ number (elements q) N = Q.
(** the recorded leading bit of the quotient is already the final one *)
Definition topped (q : big) : Prop :=
  exists t, t + 1 = 64 * Z.of_nat (element_pos q) + bit_pos q /\ 1 <= bit_pos q <= 64 /\ w * 2 ^ t <= v < w * 2 ^ (t + 1).
(** the last bit of [Q] that is 1 is that of [2^t] *)
Definition ends (Q t : Z) : Prop := exists h, Q = (2 * h + 1) * 2 ^ t.
Record state (d : division) (t Q r : Z) : Prop := {
  st_base : t = 64 * Z.of_nat (d_base_idx d) + d_zeros d;
  st_zeros : 0 <= d_zeros d < 64;
  st_total : d_total d = t;
  st_low : forall i, (i < d_base_idx d)%nat -> d_shifted d i = 0;
  st_valid : valid N (d_this d);
  st_val : val (d_this d) = r;
  st_pos : 0 < r;
  st_shifted : holds (d_shifted d) (d_element_pos d) (d_bit_pos d) t;
  st_quotient : quotient_is (d_quotient d) Q;
  st_nonneg : 0 <= Q;
  st_eq : v = Q * w + r
}.
Definition lined_up (d : division) : Prop := d_element_pos d = element_pos (d_this d) /\ d_bit_pos d = bit_pos (d_this d).
Record finished (d : division) : Prop := {
  fin_valid : valid N (d_this d);
  fin_quotient : exists Q, quotient_is (d_quotient d) Q /\ 0 <= Q /\ v = Q * w + val (d_this d);
  fin_small : 0 <= val (d_this d) < w
}.

(** adding the bit *)
Lemma quotient_bit e Q B z s : words e N -> number e N = Q -> (B < N)%nat -> 0 <= z < 64 -> 64 * Z.of_nat B + z < s -> (2 ^ s | Q) ->
  Z.lor (e B) (2 ^ z) = e B + 2 ^ z /\ 0 <= e B + 2 ^ z < W.
Proof.
  intros We Ne HB Hz Hs [h E]. pose proof (element_mod e N B We HB) as M. rewrite Ne, E in M.
  replace (h * 2 ^ s) with (h * 2 ^ (s - 64 * Z.of_nat B) * Wp B) in M.
  2: { rewrite Wp_eq, <- Z.mul_assoc, <- Z.pow_add_r by lia. f_equal. f_equal. lia. }
  rewrite Z.div_mul in M by (pose proof (Wp_pos B); lia).
  assert (D : exists u, e B = u * 2 ^ (z + 1)).
  { rewrite M, Z.mod_eq by lia. exists (h * 2 ^ (s - 64 * Z.of_nat B - (z + 1)) - 2 ^ (64 - (z + 1)) * (h * 2 ^ (s - 64 * Z.of_nat B) / W)).
    rewrite Z.mul_sub_distr_r, <- Z.mul_assoc, <- Z.pow_add_r by lia. rewrite (pow_split (z + 1)) at 1 by lia.
    replace (s - 64 * Z.of_nat B - (z + 1) + (z + 1)) with (s - 64 * Z.of_nat B) by ring. ring. }
  destruct D as [u D]. pose proof (We B HB) as Wb. assert (P : 0 < 2 ^ z < 2 ^ (z + 1)) by (split; [apply Z.pow_pos_nonneg | apply Z.pow_lt_mono_r]; lia).
  rewrite D in *. split; [apply lor_add; lia|]. pose proof (pow_split (z + 1) ltac:(lia)) as PW. pose proof (pow_ge1 (64 - (z + 1)) ltac:(lia)).
  set (q := 2 ^ (z + 1)) in *. set (m := 2 ^ (64 - (z + 1))) in *. assert (u < m) by nia. nia.
Qed.
Lemma ends_next Q t s : 0 <= t -> t < s -> (2 ^ s | Q) -> ends (Q + 2 ^ t) t.
Proof.
  intros Ht Hs [h ->]. exists (h * 2 ^ (s - (t + 1))). replace s with (s - (t + 1) + 1 + t) at 1 by ring. rewrite !Z.pow_add_r by lia.
  change (2 ^ 1) with 2. ring.
Qed.
Lemma ends_divides Q t : ends Q t -> (2 ^ t | Q).
Proof. intros [h ->]. exists (2 * h + 1). reflexivity. Qed.
(** what is left of [v] *)
Lemma rest Q t r : (2 ^ t | Q) -> 0 <= t -> 0 <= r < w * 2 ^ t -> v = Q * w + r -> v mod (w * 2 ^ t) = r.
Proof. intros [h ->] Ht Hr ->. symmetry. apply (Z.mod_unique_pos _ _ h); [exact Hr | ring]. Qed.
Lemma bit_set Q t r : ends Q t -> 0 <= t -> 0 <= r < w * 2 ^ t -> v = Q * w + r -> Z.testbit (v / w) t = true.
Proof.
  intros [h ->] Ht Hr ->. apply Z.testbit_true; [exact Ht|]. pose proof (pow_ge1 t Ht). rewrite Z.div_div by lia.
  rewrite <- (Z.div_unique_pos ((2 * h + 1) * 2 ^ t * w + r) (w * 2 ^ t) (2 * h + 1) r); [|exact Hr | ring].
  rewrite Z.add_comm, Z.mul_comm, Z.mod_add by lia. reflexivity.
Qed.

Lemma base_below d t Q r : state d t Q r -> w * 2 ^ t <= r -> (d_base_idx d <= element_pos (d_this d))%nat.
Proof.
  intros [S1 S2 S3 S4 S5 S6 S7 S8 S9 S10 S11] L. destruct (bits_of N (d_this d) S5 ltac:(lia)) as [Bb Eb]. rewrite S6 in Eb.
  apply Z.log2_le_mono in L. rewrite log2_shift in L by lia. pose proof (Z.log2_nonneg w). lia.
Qed.
Lemma subtract_here_some before d t Q r s c : state d t Q r -> t < s -> (2 ^ s | Q) -> w * 2 ^ t < r < 2 * (w * 2 ^ t) ->
  (c <= element_pos (d_this d))%nat ->
  words (d_shifted d) (S (element_pos (d_this d))) -> number (d_shifted d) (S (element_pos (d_this d))) = w * 2 ^ t ->
  (forall i, (c < i <= element_pos (d_this d))%nat -> elements (d_this d) i = d_shifted d i) ->
  number (d_shifted d) (S c) <= number (elements (d_this d)) (S c) ->
  (before = true -> Q = 0) -> (before = false -> topped (d_quotient d)) ->
  exists d', subtract_here cfg N before d (Some c) = Ok (true, d') /\ state d' t (Q + 2 ^ t) (r - w * 2 ^ t) /\
    ends (Q + 2 ^ t) t /\ topped (d_quotient d').
Proof.
  intros St Hs Hd B Hc Ws Ns Ha Hl Hb1 Hb2. pose proof (base_below d t Q r St ltac:(lia)) as Lb.
  destruct St as [S1 S2 S3 S4 S5 S6 S7 S8 S9 S10 S11]. unfold subtract_here.
  pose proof (v_pos _ _ S5) as Pp. assert (Ht : 0 <= t) by lia.
  destruct (if before then (d_base_idx d, d_zeros d + 1) else (element_pos (d_quotient d), bit_pos (d_quotient d))) as [qpos qbits] eqn:Eq.
  rewrite sel_ok by lia. cbn [bind]. rewrite shl_ok by lia. cbn [bind]. rewrite upd_ok by lia. cbn [bind].
  assert (Pt : 0 < 2 ^ d_zeros d < W) by (split; [apply Z.pow_pos_nonneg; lia | apply Z.pow_lt_mono_r; lia]).
  destruct S9 as [Qw Qn]. rewrite Z.mul_1_l, Z.mod_small by lia.
  destruct (quotient_bit (elements (d_quotient d)) Q (d_base_idx d) (d_zeros d) s Qw Qn ltac:(lia) S2 ltac:(lia) Hd) as [-> Q1].
  destruct (perform_subtraction_ok cfg N (d_this d) (d_shifted d) (d_base_idx d) c S5 Lb Hc Ws S4 Ha Hl) as (b' & -> & V' & E'). cbn [bind].
  eexists. split; [reflexivity|]. split; [|split].
  - split; cbn [d_base_idx d_zeros d_total d_this d_shifted d_element_pos d_bit_pos d_quotient]; try assumption; try lia.
    split; cbn [elements]; [apply words_put; assumption|]. rewrite number_put, Qn by lia.
    rewrite S1, Z.pow_add_r by lia. rewrite <- (Wp_eq (d_base_idx d)). ring.
  - apply (ends_next Q t s); assumption.
  - cbn [d_quotient]. unfold topped. cbn [element_pos bit_pos]. destruct before.
    + injection Eq as <- <-. exists t. rewrite (Hb1 eq_refl) in S11. rewrite Z.pow_add_r by lia.
      change (2 ^ 1) with 2. repeat apply conj; try lia.
    + injection Eq as <- <-. exact (Hb2 eq_refl).
Qed.

(** the step back by one bit *)
Lemma step_back d t Q r : state d t Q r -> 0 < t -> words (d_shifted d) (S (element_pos (d_this d))) ->
  number (d_shifted d) (S (element_pos (d_this d))) = w * 2 ^ t -> (d_base_idx d <= element_pos (d_this d))%nat ->
  (d_zeros d = 0 -> Z.even w = true) ->
  exists s base zeros, (if d_zeros d =? 0 then
           match d_base_idx d with
           | O => Undefined
           | S base' =>
               v <- sel N (d_shifted d) (d_base_idx d) ;; v <- shl 64 v (element_number_of_bits - 1) ;;
               s <- upd N (d_shifted d) base' v ;;
               Ok (s, base', element_number_of_bits - 1)
           end
         else Ok (d_shifted d, d_base_idx d, d_zeros d - 1)) = Ok (s, base, zeros) /\
    words s (S (element_pos (d_this d))) /\ number s (S (element_pos (d_this d))) = w * 2 ^ t /\
    (forall i, (i < base)%nat -> s i = 0) /\ t - 1 = 64 * Z.of_nat base + zeros /\ 0 <= zeros < 64 /\ (base <= element_pos (d_this d))%nat.
Proof.
  intros [S1 S2 S3 S4 S5 S6 S7 S8 S9 S10 S11] Ht Ws Ns Lb Hev. pose proof (v_pos _ _ S5) as Pp.
  destruct (Z.eqb_spec (d_zeros d) 0) as [Z0|Z0].
  - destruct (d_base_idx d) as [|B] eqn:EB; [lia|]. rewrite sel_ok by lia. unfold element_number_of_bits. cbn [bind]. rewrite shl_ok by lia. cbn [bind]. rewrite upd_ok by lia. cbn [bind].
    do 3 eexists. split; [reflexivity|].
    pose proof (Hev Z0) as Ev.
    assert (E0 : (d_shifted d (S B) * 2 ^ (64 - 1)) mod W = 0).
    { rewrite (element_mod (d_shifted d) (S (element_pos (d_this d))) (S B) Ws) by lia. rewrite Ns.
      replace t with (64 * Z.of_nat (S B)) by lia. rewrite Wp_eq. rewrite Z.div_mul by (pose proof (Wp_pos (S B)); rewrite Wp_eq in *; lia).
      rewrite Z.mul_mod_idemp_l by lia. apply Z.even_spec in Ev. destruct Ev as [u ->]. replace (2 * u * 2 ^ (64 - 1)) with (u * W) by (change W with (2 * 2 ^ (64 - 1)); ring).
      apply Z.mod_mul. lia. }
    rewrite E0. assert (Ex : forall i, put (d_shifted d) B 0 i = d_shifted d i).
    { intros i. unfold put. destruct (Nat.eqb_spec i B) as [->|]; [symmetry; apply S4; lia | reflexivity]. }
    split; [intros i Hi; rewrite Ex; apply Ws; exact Hi|]. split; [rewrite <- Ns; apply number_ext; intros i _; apply Ex|].
    split; [intros i Hi; rewrite Ex; apply S4; lia | lia].
  - do 3 eexists. split; [reflexivity|]. split; [exact Ws|]. split; [exact Ns|]. split; [exact S4 | lia].
Qed.
Lemma Wp_divides B t x : 64 * Z.of_nat B <= t -> (Wp B | x * 2 ^ t).
Proof.
  intros H. apply Z.divide_mul_r. exists (2 ^ (t - 64 * Z.of_nat B)). rewrite Wp_eq, <- Z.pow_add_r by lia. f_equal. lia.
Qed.

Lemma compare_and_subtract_ok before d t Q r s : state d t Q r -> lined_up d -> t <= s -> r < w * 2 ^ s -> (2 ^ s | Q) ->
  (0 < t -> (2 ^ t | Q) -> r < w * 2 ^ t -> d_zeros d = 0 -> Z.even w = true) ->
  (before = true -> 0 < t /\ Q = 0) -> (before = false -> topped (d_quotient d)) ->
  exists go d', compare_and_subtract cfg N before d = Ok (go, d') /\ topped (d_quotient d') /\
    (go = false -> finished d' /\ (t = 0 \/ r = w * 2 ^ t)) /\
    (go = true -> exists t', state d' t' (Q + 2 ^ t') (r - w * 2 ^ t') /\ t - 1 <= t' <= t /\ (r < w * 2 ^ t -> t' < t) /\
      r - w * 2 ^ t' < w * 2 ^ t' /\ ends (Q + 2 ^ t') t').
Proof.
  intros St [L1 L2] Hs Hr Hd Hev Hb1 Hb2. pose proof St as [S1 S2 S3 S4 S5 S6 S7 S8 S9 S10 S11].
  assert (Ht : 0 <= t) by lia. pose proof (v_pos _ _ S5) as Pp. pose proof (v_words _ _ S5) as Wb.
  destruct S8 as (Hp & Hws & Hn & Hbits & He). rewrite L1, L2 in *.
  destruct (bits_of N (d_this d) S5 ltac:(lia)) as [Bb Eb]. rewrite S6 in Eb.
  assert (El : Z.log2 r = Z.log2 w + t) by lia. pose proof (Z.log2_spec r S7) as [R1 R2]. rewrite El in R1, R2.
  pose proof (Z.log2_nonneg w) as Lw. pose proof (Z.log2_spec w Hw) as [W1 W2].
  assert (Lb : (d_base_idx d <= element_pos (d_this d))%nat) by lia.
  assert (X1 : 2 ^ (Z.log2 w + t) <= w * 2 ^ t) by (rewrite Z.pow_add_r by lia; apply Z.mul_le_mono_nonneg_r; [apply Z.pow_nonneg; lia | exact W1]).
  assert (X2 : w * 2 ^ t < 2 ^ Z.succ (Z.log2 w + t)).
  { replace (Z.succ (Z.log2 w + t)) with (Z.succ (Z.log2 w) + t) by lia. rewrite Z.pow_add_r by lia. apply Z.mul_lt_mono_pos_r; [apply Z.pow_pos_nonneg; lia | exact W2]. }
  assert (X3 : 2 ^ Z.succ (Z.log2 w + t) = 2 * 2 ^ (Z.log2 w + t)) by (apply Z.pow_succ_r; lia).
  assert (Ht2 : (2 ^ t | Q)).
  { apply Z.divide_trans with (2 ^ s); [|exact Hd]. exists (2 ^ (s - t)). rewrite <- Z.pow_add_r by lia. f_equal. lia. }
  unfold compare_and_subtract.
  destruct (compare_down_ok N 0 (elements (d_this d)) (d_shifted d) (S (element_pos (d_this d))) ltac:(lia) ltac:(apply (words_le _ _ N Wb); lia) Hws) as (c & -> & Hc).
  cbn [bind]. fold (val (d_this d)) in Hc. rewrite S6, Hn in Hc. destruct c as [|idx|].
  - (* n_shifted is larger *)
    destruct (Z.eq_dec t 0) as [T0|T0].
    + assert (B0 : d_base_idx d = 0%nat) by lia. assert (Z0 : d_zeros d = 0) by lia. unfold shift_back. rewrite B0, Z0.
      destruct before; [destruct (Hb1 eq_refl); lia|]. cbn [Z.eqb andb negb Nat.eqb bind]. exists false, d. split; [reflexivity|]. split; [apply Hb2; reflexivity|].
      split; [|discriminate]. intros _. split; [|left; exact T0]. rewrite T0, Z.pow_0_r, Z.mul_1_r in Hc. split; [exact S5 | exists Q; split; [exact S9 | split; [exact S10 | lia]] | lia].
    + destruct (step_back d t Q r St ltac:(lia) Hws Hn Lb (Hev ltac:(lia) Ht2 Hc)) as (s0 & base & zeros & E0 & Ws0 & N0 & Low0 & Eb0 & Hz0 & Lb0).
      unfold shift_back. replace ((d_zeros d =? 0) && (d_base_idx d =? 0)%nat && negb before) with false.
      2: { destruct (Z.eqb_spec (d_zeros d) 0), (Nat.eqb_spec (d_base_idx d) 0); cbn [andb]; try reflexivity. lia. }
      rewrite E0. cbn [andb bind].
      assert (Hhead : exists p' b', (if bit_pos (d_this d) =? 1 then ((element_pos (d_this d) - 1)%nat, element_number_of_bits)
                  else (element_pos (d_this d), bit_pos (d_this d) - 1)) = (p', b') /\
                1 <= b' <= 64 /\ 64 * Z.of_nat p' + b' = Z.log2 w + (t - 1) + 1 /\ (p' <= element_pos (d_this d))%nat).
      { unfold element_number_of_bits. destruct (Z.eqb_spec (bit_pos (d_this d)) 1) as [B1|B1]; eexists; eexists; (split; [reflexivity|]); lia. }
      rewrite L1, L2. destruct Hhead as (p' & b' & -> & Hb' & He' & Hp').
      assert (E2 : w * 2 ^ t = w * 2 ^ (t - 1) * 2 ^ 1).
      { rewrite <- Z.mul_assoc, <- Z.pow_add_r by lia. f_equal. f_equal. lia. }
      change (2 ^ 1) with 2 in E2.
      destruct (shift_right_exact N s0 base (element_pos (d_this d)) 1 (w * 2 ^ (t - 1)) ltac:(lia) ltac:(lia) Ws0 Low0 ltac:(rewrite N0; exact E2) ltac:(apply Wp_divides; lia)) as (s1 & E1 & Ws1 & N1 & Low1).
      unfold shift_right_one, element_number_of_bits. cbn [bind] in E1. cbn [bind]. rewrite E1. cbn [bind].
      set (d1 := mk_division (d_this d) s1 p' b' (d_quotient d) base zeros (wrap 64 (d_total d - 1))).
      assert (Pw : 0 < w * 2 ^ (t - 1)) by (apply shifted_pos; lia).
      assert (St1 : state d1 (t - 1) Q r).
      { split; cbn [d1 d_base_idx d_zeros d_total d_this d_shifted d_element_pos d_bit_pos d_quotient]; try assumption; try reflexivity; try lia.
        - rewrite S3. apply wrap_small. lia.
        - assert (Lt : w * 2 ^ (t - 1) < Wp (S p')).
          { apply Z.lt_le_trans with (2 ^ (Z.log2 w + t)); [lia|]. rewrite Wp_eq. apply Z.pow_le_mono_r; lia. }
          unfold holds. split; [lia|]. split; [apply (words_le _ _ _ Ws1); lia|]. split; [|split; lia].
          rewrite <- N1. symmetry. apply number_zero; [lia|]. apply (number_small s1); [exact Ws1 | lia | lia]. }
      destruct (subtract_here_some before d1 (t - 1) Q r s (element_pos (d_this d1)) St1 ltac:(lia) Hd) as (d' & E' & St' & D' & T').
      * cbn [d1 d_this]. lia.
      * lia.
      * exact Ws1.
      * exact N1.
      * intros i Hi. lia.
      * cbn [d1 d_this d_shifted]. fold (val (d_this d)). rewrite N1, S6. lia.
      * intros B. apply Hb1. exact B.
      * exact Hb2.
      * exists true, d'. split; [exact E'|]. split; [exact T'|]. split; [discriminate|]. intros _. exists (t - 1). split; [exact St'|].
        split; [lia|]. split; [lia|]. split; [lia | exact D'].
  - (* [*this] is larger *)
    destruct Hc as (Hi & Ha & Hlt).
    assert (Nl : number (d_shifted d) (S idx) < number (elements (d_this d)) (S idx)).
    { apply number_lt; [apply (words_le _ _ _ Hws); lia | apply (words_le _ _ N Wb); lia | exact Hlt]. }
    assert (Rl : w * 2 ^ t < r).
    { pose proof (number_tail (elements (d_this d)) (d_shifted d) (S idx) (S (element_pos (d_this d))) ltac:(lia) ltac:(intros i Hi2; apply Ha; lia)) as T.
      fold (val (d_this d)) in T. rewrite S6, Hn in T. lia. }
    assert (Ts : t < s).
    { destruct (Z_lt_le_dec t s); [assumption|]. replace s with t in Hr by lia. lia. }
    destruct (subtract_here_some before d t Q r s idx St Ts Hd) as (d' & E' & St' & D' & T'); try assumption; try lia.
    + intros i Hi2. apply Ha. lia.
    + intros B. apply Hb1. exact B.
    + exists true, d'. split; [exact E'|]. split; [exact T'|]. split; [discriminate|]. intros _. exists t. split; [exact St'|].
      split; [lia|]. split; [lia|]. split; [lia | exact D'].
  - (* equal *)
    assert (Re : r = w * 2 ^ t).
    { rewrite <- Hn, <- S6. unfold val. apply number_ext. intros i Hi. apply Hc. lia. }
    assert (Ts : t < s).
    { destruct (Z_lt_le_dec t s); [assumption|]. replace s with t in Hr by lia. lia. }
    unfold subtract_here.
    destruct (if before then (d_base_idx d, d_zeros d + 1) else (element_pos (d_quotient d), bit_pos (d_quotient d))) as [qpos qbits] eqn:Eq.
    rewrite sel_ok by lia. cbn [bind]. rewrite shl_ok by lia. cbn [bind]. rewrite upd_ok by lia. cbn [bind].
    assert (Pt : 0 < 2 ^ d_zeros d < W) by (split; [apply Z.pow_pos_nonneg; lia | apply Z.pow_lt_mono_r; lia]).
    destruct S9 as [Qw Qn]. rewrite Z.mul_1_l, Z.mod_small by lia.
    destruct (quotient_bit (elements (d_quotient d)) Q (d_base_idx d) (d_zeros d) s Qw Qn ltac:(lia) S2 ltac:(lia) Hd) as [-> Q1].
    destruct (fill_zero_ok N (elements (d_this d)) 0 (S (element_pos (d_this d))) ltac:(lia)) as (a & -> & Ha). cbn [bind].
    assert (Za : forall i, (i < N)%nat -> a i = 0).
    { intros i Hi. rewrite Ha. destruct (Nat.ltb_spec i (0 + S (element_pos (d_this d)))); cbn [andb Nat.leb]; [reflexivity|]. apply (above_zero N _ i S5). lia. }
    exists false. eexists. split; [reflexivity|]. split; [|split; [|discriminate]].
    + cbn [d_quotient]. unfold topped. cbn [element_pos bit_pos]. destruct before.
      * injection Eq as <- <-. exists t. destruct (Hb1 eq_refl) as [_ Q00]. rewrite Q00 in S11. rewrite Z.pow_add_r by lia.
        change (2 ^ 1) with 2. repeat apply conj; try lia.
      * injection Eq as <- <-. exact (Hb2 eq_refl).
    + intros _. split; [|right; exact Re]. assert (V0 : val (mk_big a 0 0) = 0) by (unfold val; cbn [elements element_pos]; rewrite number_S, Za by lia; cbn [number]; ring).
      assert (Nn : number (put (elements (d_quotient d)) (d_base_idx d) (elements (d_quotient d) (d_base_idx d) + 2 ^ d_zeros d)) N = Q + 2 ^ t).
      { rewrite number_put, Qn by lia. rewrite S1, Z.pow_add_r by lia. rewrite <- (Wp_eq (d_base_idx d)). ring. }
      assert (0 < 2 ^ t) by (apply Z.pow_pos_nonneg; lia).
      split; cbn [d_this d_quotient].
      * split; cbn [elements element_pos bit_pos]; [| lia | intros i Hi; apply Za; lia | rewrite Za by lia; reflexivity | left; reflexivity].
        intros i Hi. rewrite Za by exact Hi. lia.
      * exists (Q + 2 ^ t). rewrite V0. split; [|split; lia]. split; cbn [elements]; [apply words_put; assumption | exact Nn].
      * rewrite V0. lia.
Qed.

(** the move of n_shifted by whole elements *)
Lemma move_down s B es p : (forall i, (i < B + es)%nat -> s i = 0) -> (B <= p)%nat -> (0 < es)%nat -> (p + es < N)%nat ->
  exists s', up_loop (fun idx s => v <- sel N s (idx + es) ;; upd N s idx v) B (S p - B) s = Ok s' /\
    (forall i, (i <= p)%nat -> s' i = from s es i) /\ forall i, (p < i)%nat -> s' i = s i.
Proof.
  intros Z0 LB He Hp.
  destruct (up_loop_inv (fun j s' => (forall i, (i < j)%nat -> s' i = from s es i) /\ forall i, (j <= i)%nat -> s' i = s i)
    (fun idx s => v <- sel N s (idx + es) ;; upd N s idx v) B (S p - B) s) as (s' & E & H1 & H2).
  - split; [|reflexivity]. intros i Hi. unfold from. rewrite !Z0 by lia. reflexivity.
  - intros j s' Hj [H1 H2]. rewrite sel_ok by lia. cbn [bind]. rewrite upd_ok by lia. eexists. split; [reflexivity|]. split; intros i Hi.
    + unfold put. destruct (Nat.eqb_spec i j) as [->|Q]; [rewrite H2 by lia; unfold from; f_equal; lia | apply H1; lia].
    + rewrite put_other by lia. apply H2. lia.
  - exists s'. split; [exact E|]. split; intros i Hi; [apply H1 | apply H2]; lia.
Qed.
(** one element of a number, as far as its low bits are concerned *)
Lemma element_low s n i k : words s n -> 0 <= k < 64 -> (i < n)%nat -> (number s n / Wp i) mod 2 ^ k = s i mod 2 ^ k.
Proof.
  intros Ws Hk Hi. pose proof (Wp_pos i) as P. pose proof (pow_ge1 k ltac:(lia)) as Pk. replace n with (i + S (n - S i))%nat by lia. rewrite number_from.
  rewrite (Z.mul_comm (Wp i)), Z.div_add by lia.
  assert (Lo : 0 <= number s i < Wp i) by (apply number_bounds; apply (words_le _ _ _ Ws); lia). rewrite Z.div_small, Z.add_0_l by exact Lo.
  replace (S (n - S i)) with (1 + (n - S i))%nat by lia. rewrite number_from.
  assert (N1 : number (from s i) 1 = s i) by (rewrite number_S, Wp_0; unfold from; rewrite Nat.add_0_r; cbn [number]; ring). rewrite N1.
  assert (E : Wp 1 = 2 ^ (64 - k) * 2 ^ k) by (rewrite Wp_eq, <- Z.pow_add_r by lia; f_equal; lia). rewrite E.
  replace (s i + 2 ^ (64 - k) * 2 ^ k * number (from (from s i) 1) (n - S i)) with (s i + 2 ^ (64 - k) * number (from (from s i) 1) (n - S i) * 2 ^ k) by ring.
  apply Z.mod_add. lia.
Qed.
Lemma element_above s n i : words s n -> (n <= i)%nat -> number s n / Wp i = 0.
Proof.
  intros Ws Hi. apply Z.div_small. pose proof (number_bounds s n Ws). pose proof (Wp_le n i Hi). lia.
Qed.

Hypothesis Hleap : ~ leaps v w.
Lemma realign_ok d t Q r : state d t Q r -> r < w * 2 ^ t -> ends Q t -> topped (d_quotient d) ->
  (realign N d = Ok None /\ r < w) \/
  exists d' t', realign N d = Ok (Some d') /\ state d' t' Q r /\ lined_up d' /\ t' <= t /\ topped (d_quotient d').
Proof.
  intros [S1 S2 S3 S4 S5 S6 S7 S8 S9 S10 S11] Hr Hd Ht. pose proof (v_pos _ _ S5) as Pp.
  destruct S8 as (Hp & Hws & Hn & Hbits & He). destruct (bits_of N (d_this d) S5 ltac:(lia)) as [Bb Eb]. rewrite S6 in Eb.
  assert (El : Z.log2 r <= Z.log2 w + t) by (rewrite <- log2_shift by lia; apply Z.log2_le_mono; lia).
  pose proof (Z.log2_nonneg w) as Lw.
  unfold realign. assert (Eo : wrap 64 (Z.of_nat (d_element_pos d) - Z.of_nat (element_pos (d_this d))) = Z.of_nat (d_element_pos d) - Z.of_nat (element_pos (d_this d))).
  { apply wrap_small. lia. }
  rewrite Eo. unfold element_number_of_bits.
  set (D := Z.log2 w + t - Z.log2 r).
  assert (Hsh : exists es bs, (if bit_pos (d_this d) <? d_bit_pos d
      then (Z.of_nat (d_element_pos d) - Z.of_nat (element_pos (d_this d)), d_bit_pos d - bit_pos (d_this d))
      else if d_bit_pos d <? bit_pos (d_this d)
        then (wrap 64 (Z.of_nat (d_element_pos d) - Z.of_nat (element_pos (d_this d)) - 1), 64 + d_bit_pos d - bit_pos (d_this d))
        else (Z.of_nat (d_element_pos d) - Z.of_nat (element_pos (d_this d)), 0)) = (es, bs) /\ es * 64 + bs = D /\ 0 <= bs < 64 /\ 0 <= es).
  { unfold D. destruct (Z.ltb_spec (bit_pos (d_this d)) (d_bit_pos d)); [|destruct (Z.ltb_spec (d_bit_pos d) (bit_pos (d_this d)))];
      eexists; eexists; (split; [reflexivity|]); try lia. rewrite wrap_small by lia. lia. }
  destruct Hsh as (es & bs & -> & ED & Hbs & Hes). rewrite ED. rewrite (wrap_small 64 D) by (unfold D; lia). rewrite S3.
  destruct (Z.ltb_spec t D) as [LD|LD].
  { left. split; [reflexivity|]. destruct (Z_lt_le_dec r w) as [|G]; [assumption|]. pose proof (Z.log2_le_mono _ _ G). unfold D in LD. lia. }
  right. assert (Pl : (element_pos (d_this d) <= d_element_pos d)%nat) by (unfold D in *; lia).
  pose proof (Z.div_mod (t - D) 64 ltac:(lia)) as DM. pose proof (Z.mod_pos_bound (t - D) 64 ltac:(lia)) as MB.
  set (z' := (t - D) mod 64) in *. set (B' := Z.to_nat ((t - D) / 64)).
  assert (EB' : t - D = 64 * Z.of_nat B' + z') by (unfold B'; pose proof (Z.div_pos (t - D) 64 ltac:(lia) ltac:(lia)); rewrite Z2Nat.id by lia; lia).
  clearbody z' B'. clear DM.
  assert (E2 : w * 2 ^ t = w * 2 ^ (t - D) * 2 ^ D) by (rewrite <- Z.mul_assoc, <- Z.pow_add_r by lia; f_equal; f_equal; lia).
  assert (Pd : 0 < 2 ^ D) by (apply Z.pow_pos_nonneg; lia).
  assert (LB : (B' <= element_pos (d_this d))%nat) by (unfold D in *; lia).
  assert (Hs : exists s1, (s <- (if negb (es =? 0) then
          up_loop (fun idx s => v <- sel N s (idx + Z.to_nat es) ;; upd N s idx v)
            B' (S (element_pos (d_this d)) - B') (d_shifted d)
        else Ok (d_shifted d)) ;;
      if negb (bs =? 0) then
          s <- up_loop (fun idx s =>
                 v <- sel N s idx ;; v <- shr 64 v bs ;; s <- upd N s idx v ;;
                 high <- sel N s (S idx) ;; high <- shl 64 high (64 - bs) ;;
                 v <- sel N s idx ;; upd N s idx (Z.lor v high))
               B' (d_element_pos d - B') s ;;
          v <- sel N s (d_element_pos d) ;; v <- shr 64 v bs ;; upd N s (d_element_pos d) v
        else Ok s) = Ok s1 /\ words s1 (S (element_pos (d_this d))) /\ number s1 (S (element_pos (d_this d))) = w * 2 ^ (t - D) /\ forall i, (i < B')%nat -> s1 i = 0).
  { assert (Lt : w * 2 ^ (t - D) < Wp (S (element_pos (d_this d)))).
    { pose proof (shifted_pos w (t - D) Hw ltac:(lia)) as Ps. pose proof (proj2 (Z.log2_spec _ Ps)) as U. rewrite log2_shift in U by lia.
      apply Z.lt_le_trans with (1 := U). rewrite Wp_eq. apply Z.pow_le_mono_r; unfold D; lia. }
    destruct (Z.eqb_spec es 0) as [E0|E0]; cbn [negb bind].
    - assert (bs = D) by lia. subst bs. assert (Lo : forall i, (i < B')%nat -> d_shifted d i = 0) by (intros i Hi; apply S4; lia).
      assert (Hf : exists s1, (if negb (D =? 0) then
          s <- up_loop (fun idx s =>
                 v <- sel N s idx ;; v <- shr 64 v D ;; s <- upd N s idx v ;;
                 high <- sel N s (S idx) ;; high <- shl 64 high (64 - D) ;;
                 v <- sel N s idx ;; upd N s idx (Z.lor v high))
               B' (d_element_pos d - B') (d_shifted d) ;;
          v <- sel N s (d_element_pos d) ;; v <- shr 64 v D ;; upd N s (d_element_pos d) v
        else Ok (d_shifted d)) = Ok s1 /\ words s1 (S (d_element_pos d)) /\ number s1 (S (d_element_pos d)) = w * 2 ^ (t - D) /\ forall i, (i < B')%nat -> s1 i = 0).
      { destruct (Z.eqb_spec D 0) as [D0|D0]; cbn [negb].
        - exists (d_shifted d). split; [reflexivity|]. split; [exact Hws|]. rewrite D0, Z.sub_0_r. split; [exact Hn | exact Lo].
        - apply shift_right_exact; [lia | lia | exact Hws | exact Lo | rewrite Hn; exact E2 | apply Wp_divides; lia]. }
      destruct Hf as (s1 & E1 & Ws1 & N1 & Lo1). exists s1. split; [exact E1|]. split; [apply (words_le _ _ _ Ws1); lia|]. split; [|exact Lo1].
      rewrite <- N1. symmetry. apply number_zero; [lia|]. apply (number_small s1); [exact Ws1 | lia | lia].
    - set (n := Z.to_nat es) in *. assert (En : Z.of_nat n = es) by (unfold n; rewrite Z2Nat.id; lia).
      assert (Low : forall i, (i < B' + n)%nat -> d_shifted d i = 0) by (intros i Hi; apply S4; lia).
      destruct (Z.eq_dec bs 0) as [->|NB].
      2: {
        set (p := element_pos (d_this d)) in *. assert (Pn : (p + n <= d_element_pos d)%nat) by (unfold D in *; lia).
        set (m := (d_element_pos d - n)%nat). assert (Pm : m = p \/ m = S p) by (unfold m, D in *; lia).
        rewrite (proj2 (Z.eqb_neq bs 0) NB). cbn [negb].
        destruct (move_down (d_shifted d) B' n p Low LB ltac:(lia) ltac:(lia)) as (s1 & -> & H1 & H2). cbn [bind].
        assert (Ws1 : words s1 (S (d_element_pos d))).
        { intros i Hi. destruct (Nat.le_gt_cases i p) as [L|L]; [rewrite H1 by exact L; apply Hws | rewrite H2 by exact L; apply Hws]; lia. }
        destruct (shift_right_loop_ok N s1 B' (d_element_pos d) bs ltac:(lia) ltac:(lia) Ws1) as (s2 & E2' & F1 & F2). exists s2. split; [exact E2'|].
        assert (Wy : words (from (d_shifted d) n) (S m)) by (intros i Hi; apply Hws; unfold m in *; lia).
        assert (Ly : forall i, (i < B')%nat -> from (d_shifted d) n i = 0) by (intros i Hi; apply Low; lia).
        assert (Ny : number (from (d_shifted d) n) (S m) = w * 2 ^ (t - D) * 2 ^ bs).
        { replace (S (d_element_pos d)) with (n + S m)%nat in Hn by (unfold m; lia). rewrite number_from in Hn.
          rewrite (number_zero (d_shifted d) 0 n) in Hn by (try lia; intros i Hi; apply Low; lia). change (number (d_shifted d) 0) with 0 in Hn. rewrite E2 in Hn.
          assert (EW : 2 ^ D = Wp n * 2 ^ bs) by (rewrite Wp_eq, <- Z.pow_add_r by lia; f_equal; lia). rewrite EW in Hn. pose proof (Wp_pos n).
          apply (Z.mul_reg_l _ _ (Wp n)); lia. }
        destruct (shift_right_loop_ok N (from (d_shifted d) n) B' m bs ltac:(lia) ltac:(unfold m; lia) Wy) as (s3 & E3 & G1 & G2).
        destruct (shift_right_exact N (from (d_shifted d) n) B' m bs (w * 2 ^ (t - D)) ltac:(lia) ltac:(unfold m; lia) Wy Ly Ny ltac:(apply Wp_divides; lia)) as (s4 & E4 & Ws4 & N4 & Lo4).
        rewrite E3 in E4. injection E4 as <-.
        assert (Harmless : d_shifted d (S p) mod 2 ^ bs = if (m =? p)%nat then 0 else d_shifted d (n + S p)%nat mod 2 ^ bs).
        { destruct (Z.eq_dec (d_shifted d (S p) mod 2 ^ bs) (if (m =? p)%nat then 0 else d_shifted d (n + S p)%nat mod 2 ^ bs)) as [|Bad]; [assumption|]. exfalso. apply Hleap. exists t. split; [lia|].
          split; [apply (bit_set Q t r); [exact Hd | lia | lia | exact S11]|].
          rewrite (rest Q t r (ends_divides _ _ Hd) ltac:(lia) ltac:(lia) S11). split; [lia|]. cbv zeta. fold D.
          assert (Dm : D mod 64 = bs) by (rewrite <- ED, Z.add_comm, Z.mod_add, Z.mod_small by lia; reflexivity).
          assert (Dd : D / 64 = Z.of_nat n) by (rewrite <- ED, Z.add_comm, Z.div_add, Z.div_small by lia; lia).
          assert (Lp : Z.log2 r / 64 = Z.of_nat p) by (symmetry; apply (Z.div_unique _ _ _ (bit_pos (d_this d) - 1)); [left|]; unfold p in *; lia).
          rewrite Dm, Dd, Lp. split; [split; [lia | exact NB]|]. rewrite <- Hn.
          replace (2 ^ (64 * (Z.of_nat p + 1))) with (Wp (S p)) by (rewrite Wp_eq; f_equal; lia).
          replace (2 ^ (64 * (Z.of_nat p + 1 + Z.of_nat n))) with (Wp (n + S p)) by (rewrite Wp_eq; f_equal; lia).
          rewrite (element_low _ _ (S p)) by (try exact Hws; lia). intros Q1. apply Bad. rewrite Q1. destruct (Nat.eqb_spec m p) as [Em|Em].
          - rewrite element_above; [apply Z.mod_0_l; pose proof (pow_ge1 bs ltac:(lia)); lia | exact Hws | unfold m in Em; lia].
          - apply element_low; [exact Hws | lia | unfold m in *; lia]. }
        assert (Same : forall i, (i <= p)%nat -> s2 i = s3 i).
        { intros i Hi. destruct (Nat.le_gt_cases B' i) as [L|L].
          - rewrite F1, G1 by lia. unfold righted. rewrite (proj2 (Nat.ltb_lt i (d_element_pos d))) by lia. rewrite (H1 i Hi).
            destruct (Nat.eq_dec i p) as [->|Np].
            + rewrite (H2 (S p)) by lia. rewrite Harmless. destruct (Nat.eqb_spec m p) as [Em|Em].
              * rewrite (proj2 (Nat.ltb_ge p m)) by lia. ring.
              * rewrite (proj2 (Nat.ltb_lt p m)) by lia. reflexivity.
            + rewrite (H1 (S i)) by lia. rewrite (proj2 (Nat.ltb_lt i m)) by lia. reflexivity.
          - rewrite F2, G2 by exact L. apply H1. exact Hi. }
        split; [|split].
        - intros i Hi. rewrite Same by lia. apply Ws4. lia.
        - rewrite (number_ext s2 s3) by (intros i Hi; apply Same; lia). rewrite <- N4. symmetry. apply number_zero; [lia|].
          apply (number_small s3); [exact Ws4 | lia | lia].
        - intros i Hi. rewrite Same by lia. apply Lo4. exact Hi. }
      cbn [Z.eqb negb].
      assert (EBn : (d_base_idx d = B' + n)%nat) by lia. assert (Ep : (element_pos (d_this d) + n = d_element_pos d)%nat) by (unfold D in *; lia).
      destruct (move_down (d_shifted d) B' n (element_pos (d_this d)) Low LB ltac:(lia) ltac:(lia)) as (s1 & -> & H1 & _). cbn [bind].
      exists s1. split; [reflexivity|]. split; [|split].
      + intros i Hi. rewrite H1 by lia. apply Hws. lia.
      + rewrite (number_ext s1 (from (d_shifted d) n)) by (intros i Hi; apply H1; lia).
        replace (S (d_element_pos d)) with (n + S (element_pos (d_this d)))%nat in Hn by lia. rewrite number_from in Hn.
        rewrite (number_zero (d_shifted d) 0 n) in Hn by (try lia; intros i Hi; apply S4; lia). change (number (d_shifted d) 0) with 0 in Hn. rewrite E2 in Hn.
        assert (EW : Wp n = 2 ^ D) by (rewrite Wp_eq; f_equal; lia). rewrite EW in Hn. apply (Z.mul_reg_l _ _ (2 ^ D)); lia.
      + intros i Hi. rewrite H1 by lia. unfold from. apply S4. lia. }
  destruct Hs as (s1 & E1 & Ws1 & N1 & Lo1).
  exists (mk_division (d_this d) s1 (element_pos (d_this d)) (bit_pos (d_this d)) (d_quotient d) B' z' (t - D)), (t - D).
  split.
  { cbn [bind] in E1 |- *. destruct (if negb (es =? 0) then _ else _) as [s0| | |]; cbn [bind] in E1 |- *; try discriminate. rewrite E1. reflexivity. }
  split; [|split; [split; reflexivity | split; [unfold D; lia | exact Ht]]].
  split; cbn [d_base_idx d_zeros d_total d_this d_shifted d_element_pos d_bit_pos d_quotient]; try assumption; try reflexivity.
  unfold holds. split; [exact Pp|]. split; [exact Ws1|]. split; [exact N1|]. split; [exact Bb | unfold D; lia].
Qed.

Hypothesis Hcross : Z.even w = true \/ ~ crosses v w.
(** the step back over the border of an element *)
Lemma no_crossing d t Q r : state d t Q r -> lined_up d -> 0 < t -> (2 ^ t | Q) -> r < w * 2 ^ t -> d_zeros d = 0 -> Z.even w = true.
Proof.
  intros [S1 S2 S3 S4 S5 S6 S7 S8 S9 S10 S11] [L1 L2] Ht Hd Hr Z0. destruct Hcross as [|C]; [assumption|]. exfalso. apply C.
  exists (Z.of_nat (d_base_idx d)). split; [lia|]. replace (64 * Z.of_nat (d_base_idx d)) with t by lia. rewrite (rest Q t r Hd ltac:(lia) ltac:(lia) S11).
  destruct S8 as (Hp & Hws & Hn & Hbits & He). destruct (bits_of N (d_this d) S5 ltac:(lia)) as [Bb Eb]. rewrite S6 in Eb. rewrite L1, L2 in *. lia.
Qed.

Lemma division_loop_ok fuel d t Q r : state d t Q r -> r < w * 2 ^ t -> ends Q t -> topped (d_quotient d) -> t < Z.of_nat fuel ->
  exists d', division_loop cfg N fuel d = Ok d' /\ finished d' /\ topped (d_quotient d').
Proof.
  revert d t Q r. induction fuel as [|fuel IH]; intros d t Q r St Hr Hd Ht Hf; [pose proof (st_base _ _ _ _ St); pose proof (st_zeros _ _ _ _ St); lia|]. cbn [division_loop].
  destruct (realign_ok d t Q r St Hr Hd Ht) as [[-> L]|(d1 & t1 & -> & St1 & Li & T1 & Tp)]; cbn [bind].
  - exists d. split; [reflexivity|]. split; [|exact Ht]. destruct St as [S1 S2 S3 S4 S5 S6 S7 S8 S9 S10 S11].
    split; [exact S5 | exists Q; split; [exact S9 | split; [exact S10 | lia]] | lia].
  - destruct (compare_and_subtract_ok false d1 t1 Q r t St1 Li T1 Hr (ends_divides _ _ Hd) (no_crossing d1 t1 Q r St1 Li) ltac:(discriminate) ltac:(intros _; exact Tp)) as (go & d2 & -> & Tp2 & F & C).
    cbn [bind]. destruct go.
    + destruct (C eq_refl) as (t2 & St2 & T2 & T3 & Hr2 & Hd2). apply (IH d2 t2 _ _ St2 Hr2 Hd2 Tp2).
      destruct (Z_lt_le_dec t1 t); [lia|]. replace t1 with t in * by lia. specialize (T3 Hr). lia.
    + exists d2. split; [reflexivity|]. split; [exact (proj1 (F eq_refl)) | exact Tp2].
Qed.

Lemma finished_result d : finished d -> topped (d_quotient d) ->
  valid N (d_this d) /\ val (d_this d) = v mod w /\ valid N (d_quotient d) /\ val (d_quotient d) = v / w.
Proof.
  intros [F1 (Q & [Qw Qn] & Q0 & Qe) F3] (t & T1 & T2 & T3).
  assert (Ed : v / w = Q) by (symmetry; apply (Z.div_unique_pos v w Q (val (d_this d))); lia).
  assert (Em : v mod w = val (d_this d)) by (symmetry; apply (Z.mod_unique_pos v w Q); lia).
  split; [exact F1|]. split; [lia|]. rewrite Ed. destruct (d_quotient d) as [qe qp qb]. cbn [elements element_pos bit_pos] in *.
  assert (Pt : 0 < 2 ^ t) by (apply Z.pow_pos_nonneg; lia). rewrite Z.pow_add_r in T3 by lia. change (2 ^ 1) with 2 in T3.
  assert (B : 2 ^ t <= Q < 2 ^ t * 2) by nia.
  assert (Hp : (qp < N)%nat).
  { pose proof (number_bounds qe N Qw) as Bn. rewrite Qn, Wp_eq in Bn. assert (t < 64 * Z.of_nat N) by (apply pow_lt_inv; lia). lia. }
  assert (Lq : Q < Wp (S qp)).
  { apply Z.lt_le_trans with (2 ^ (t + 1)); [rewrite Z.pow_add_r by lia; change (2 ^ 1) with 2; lia|]. rewrite Wp_eq. apply Z.pow_le_mono_r; lia. }
  assert (Za : forall i, (S qp <= i < N)%nat -> qe i = 0) by (apply (number_small qe N); [exact Qw | lia | lia]).
  apply valid_make; try lia; try assumption.
  - rewrite <- Qn. symmetry. apply number_zero; [lia|]. intros i Hi. apply Za. lia.
  - rewrite <- T1. replace (t + 1 - 1) with t by ring. rewrite Z.pow_add_r by lia. change (2 ^ 1) with 2. lia.
Qed.

Lemma divide_aligned_ok d t : state d t 0 v -> lined_up d -> 0 < t ->
  exists r q, divide_aligned cfg N (S (64 * N)) d = Ok (r, q) /\ valid N r /\ val r = v mod w /\ valid N q /\ val q = v / w.
Proof.
  intros St Li T0. unfold divide_aligned.
  assert (Tt : t < 64 * Z.of_nat N /\ v < w * 2 ^ (t + 1)).
  { destruct St as [S1 S2 S3 S4 S5 S6 S7 S8 S9 S10 S11]. destruct Li as [L1 L2]. destruct S8 as (Hp & Hws & Hn & Hbits & He).
    pose proof (Z.log2_nonneg w). split; [lia|]. destruct (bits_of N (d_this d) S5 ltac:(lia)) as [Bb Eb].
    rewrite S6, <- L1, <- L2 in Eb. apply Z.log2_lt_cancel. rewrite log2_shift by lia. lia. }
  destruct (compare_and_subtract_ok true d t 0 v (t + 1) St Li ltac:(lia) ltac:(lia) ltac:(apply Z.divide_0_r) (no_crossing d t 0 v St Li) ltac:(intros _; split; [exact T0 | reflexivity]) ltac:(discriminate)) as (go & d2 & -> & Tp2 & F & C).
  cbn [bind]. destruct go.
  - destruct (C eq_refl) as (t2 & St2 & T2 & T3 & Hr2 & Hd2).
    destruct (division_loop_ok (S (64 * N)) d2 t2 _ _ St2 Hr2 Hd2 Tp2 ltac:(lia)) as (d3 & -> & F3 & Tp3). cbn [bind].
    exists (d_this d3), (d_quotient d3). split; [reflexivity|]. apply finished_result; assumption.
  - exists (d_this d2), (d_quotient d2). split; [reflexivity|]. apply finished_result; [exact (proj1 (F eq_refl)) | assumption].
Qed.
End Loop.

(** ** The starting position *)
Lemma shift_from_ok N s n p z : 0 < z < 64 -> (p < N)%nat -> words n (S p) ->
  exists s', shift_from N s n p z = Ok s' /\ forall i, (i <= p)%nat -> s' i = shifted n z i.
Proof.
  intros Hz Hp Hw. unfold shift_from, element_number_of_bits.
  destruct (down_loop_inv (fun k s' => forall i, (k < i <= p)%nat -> s' i = shifted n z i)
    (fun idx s => v <- sel N n idx ;; v <- shl 64 v z ;;
         low <- sel N n (idx - 1) ;; low <- shr 64 low (64 - z) ;;
         upd N s idx (Z.lor v low)) p s) as (s1 & E & H1).
  - intros i Hi. lia.
  - intros j s1 Hj H1. replace (S j - 1)%nat with j by lia. rewrite sel_ok by lia. cbn [bind]. rewrite shl_ok by lia. cbn [bind].
    rewrite sel_ok by lia. cbn [bind]. rewrite shr_ok by lia. cbn [bind]. rewrite upd_ok by lia. eexists. split; [reflexivity|].
    rewrite lor_shl by (try lia; apply Hw; lia). intros i Hi. unfold put. destruct (Nat.eqb_spec i (S j)) as [->|Q]; [reflexivity|]. apply H1. lia.
  - rewrite E. cbn [bind]. rewrite sel_ok by lia. cbn [bind]. rewrite shl_ok by lia. cbn [bind]. rewrite upd_ok by lia. eexists. split; [reflexivity|].
    intros i Hi. unfold put. destruct (Nat.eqb_spec i 0) as [->|Q]; [unfold shifted; ring | apply H1; lia].
Qed.

Lemma fill_low_ok N s B : (B <= N)%nat -> exists s', fill_zero N s 0 B = Ok s' /\ (forall i, (i < B)%nat -> s' i = 0) /\ forall i, (B <= i)%nat -> s' i = s i.
Proof.
  intros H. destruct (fill_zero_ok N s 0 B ltac:(lia)) as (s' & E & H1). exists s'. split; [exact E|]. split; intros i Hi; rewrite H1;
    destruct (Nat.ltb_spec i (0 + B)); cbn [Nat.leb andb]; try lia; reflexivity.
Qed.
Lemma shift_from_base_ok N s n np p B z : 0 <= z < 64 -> (p < N)%nat -> (B + np <= p)%nat -> words n (S np) -> (forall i, (B + np < i <= p)%nat -> s i = 0) ->
  exists s', shift_from_base N s n np p B z = Ok s' /\ (forall i, (i < B)%nat -> s' i = 0) /\
    forall i, (B + i <= p)%nat -> s' (B + i)%nat = shifted (fun i => if (i <=? np)%nat then n i else 0) z i.
Proof.
  intros Hz Hp Hnp Hw Hs. unfold shift_from_base, element_number_of_bits.
  destruct (fill_low_ok N s B ltac:(lia)) as (s0 & -> & F0 & F1). cbn [bind].
  set (m := fun i => if (i <=? np)%nat then n i else 0).
  destruct (up_loop_inv (fun k s' => (forall i, (i < k)%nat -> s' (B + i)%nat = n i) /\ forall i, (B + k <= i \/ i < B)%nat -> s' i = s0 i)
    (fun idx s => v <- sel N n idx ;; upd N s (B + idx) v) 0 (S np) s0) as (s1 & E & H1 & H2).
  { split; [intros; lia | reflexivity]. }
  { intros j s1 Hj [H1 H2]. rewrite sel_ok by lia. cbn [bind]. rewrite upd_ok by lia. eexists. split; [reflexivity|]. split; intros i Hi.
    - unfold put. destruct (Nat.eqb_spec (B + i) (B + j)) as [Q|Q]; [f_equal; lia | apply H1; lia].
    - rewrite put_other by lia. apply H2. lia. }
  cbn [bind] in E |- *. rewrite E. cbn [bind Nat.add] in H1, H2 |- *.
  assert (M1 : forall i, (B + i <= p)%nat -> s1 (B + i)%nat = m i).
  { intros i Hi. unfold m. destruct (Nat.leb_spec i np); [apply H1; lia | rewrite H2, F1 by lia; apply Hs; lia]. }
  assert (M0 : forall i, (i < B)%nat -> s1 i = 0) by (intros i Hi; rewrite H2 by lia; apply F0; exact Hi).
  assert (Wm : forall i, 0 <= m i < W) by (intros i; unfold m; destruct (Nat.leb_spec i np); [apply Hw; lia | lia]).
  destruct (Z.eqb_spec z 0) as [->|Z0]; cbn [negb].
  { exists s1. split; [reflexivity|]. split; [exact M0|]. intros i Hi. rewrite M1 by exact Hi. unfold shifted. rewrite Z.pow_0_r, Z.mul_1_r.
    rewrite Z.mod_small by apply Wm. destruct i as [|i]; [ring|]. change (2 ^ (64 - 0)) with W. rewrite (Z.div_small (m i)) by apply Wm. ring. }
  destruct (down_loop_inv (fun k s' => (forall i, (k < i <= p - B)%nat -> s' (B + i)%nat = shifted m z i) /\ (forall i, (i <= k)%nat -> (B + i <= p)%nat -> s' (B + i)%nat = m i) /\
      forall i, (i < B)%nat -> s' i = 0)
    (fun k s => let idx := (B + k)%nat in
           v <- sel N s idx ;; v <- shl 64 v z ;; s <- upd N s idx v ;;
           low <- sel N s (idx - 1) ;; low <- shr 64 low (64 - z) ;;
           v <- sel N s idx ;; upd N s idx (Z.lor v low)) (p - B) s1) as (s2 & E2 & H3 & H4 & H5).
  { split; [intros; lia | split; [intros i _ Hi; apply M1; exact Hi | exact M0]]. }
  { intros j s2 Hj (H3 & H4 & H5). cbv zeta. replace (B + S j - 1)%nat with (B + j)%nat by lia. rewrite sel_ok by lia. cbn [bind]. rewrite shl_ok by lia. cbn [bind].
    rewrite upd_ok by lia. cbn [bind]. rewrite sel_ok by lia. cbn [bind]. rewrite shr_ok by lia. cbn [bind]. rewrite sel_ok by lia. cbn [bind].
    rewrite put_same, put_other by lia. rewrite upd_ok by lia. eexists. split; [reflexivity|]. rewrite (H4 j), (H4 (S j)) by lia.
    rewrite lor_shl by (try lia; apply Wm). split; [|split]; intros i Hi.
    - unfold put. destruct (Nat.eqb_spec (B + i) (B + S j)) as [Q|Q]; [replace i with (S j) by lia; reflexivity | apply H3; lia].
    - intros Hi2. rewrite !put_other by lia. apply H4; lia.
    - rewrite !put_other by lia. apply H5. exact Hi. }
  cbv zeta in E2 |- *. cbn [bind] in E2. rewrite E2. cbn [bind]. rewrite sel_ok by lia. cbn [bind]. rewrite shl_ok by lia. cbn [bind]. rewrite upd_ok by lia.
  eexists. split; [reflexivity|]. split; intros i Hi.
  - rewrite put_other by lia. apply H5. exact Hi.
  - unfold put. destruct (Nat.eqb_spec (B + i) B) as [Q|Q].
    + replace i with 0%nat by lia. pose proof (H4 0%nat ltac:(lia) ltac:(lia)) as H40. rewrite Nat.add_0_r in H40. rewrite H40. unfold shifted. ring.
    + apply H3. lia.
Qed.

Lemma zero_big N q : valid N q -> val q = 0 -> element_pos q = 0%nat /\ forall i, (i < N)%nat -> elements q i = 0.
Proof.
  intros V E. pose proof (valid_represents N q V) as R. rewrite E in R. split; [apply (rep_zero _ _ _ R); reflexivity|].
  apply number_pos_nonzero; [apply V | apply (rep_value _ _ _ R)].
Qed.
Lemma one_big N a : (0 < N)%nat -> (forall i, (i < N)%nat -> a i = 0) -> valid N (mk_big (put a 0 1) 0 1) /\ val (mk_big (put a 0 1) 0 1) = 1.
Proof.
  intros HN Ha. apply valid_make; try lia.
  - apply words_put; [intros i Hi; rewrite Ha by exact Hi; lia | lia].
  - intros i Hi. rewrite put_other by lia. apply Ha. lia.
  - rewrite number_S, Wp_0, put_same. cbn [number]. ring.
Qed.

Definition divided (N : nat) (v w : Z) (r q : big) : Prop := valid N r /\ val r = v mod w /\ valid N q /\ val q = v / w.
Lemma long_division_from cfg N js jq b n (P : big -> big -> Prop) : 64 * Z.of_nat N < W -> valid N b -> valid N n -> 0 < val n ->
  (Z.log2 (val b) <= Z.log2 (val n) -> forall r q, divided N (val b) (val n) r q -> P r q) ->
  (forall d t, state N (val b) (val n) d t 0 (val b) -> lined_up d -> 0 < t -> exists r q, divide_aligned cfg N (S (64 * N)) d = Ok (r, q) /\ P r q) ->
  exists r q, long_division cfg N js jq b n = Ok (r, q) /\ P r q.
Proof.
  intros HN Vb Vn Pn Hdone Hgo. pose proof (v_pos _ _ Vb) as Pb. pose proof (v_pos _ _ Vn) as Pp. pose proof (v_words _ _ Vb) as Wb. pose proof (v_words _ _ Vn) as Wn.
  unfold long_division, long_division_within. destruct (big_of_valid N jq 0 ltac:(lia) ltac:(lia)) as (q & -> & Vq & Eq). cbn [bind].
  destruct (zero_big N q Vq Eq) as [Zq Zi]. pose proof (val_bounds N b Vb) as B0.
  assert (Zero : quotient_is N q 0) by (split; [apply Vq | rewrite (val_number N q Vq); exact Eq]).
  assert (Small : val b < val n -> exists r q0, Ok (b, q) = Ok (r, q0) /\ P r q0).
  { intros L. exists b, q. split; [reflexivity|]. apply Hdone; [apply Z.log2_le_mono; lia|]. unfold divided. rewrite Z.mod_small, Z.div_small by lia. repeat apply conj; try assumption; reflexivity. }
  destruct (bits_of N n Vn Pn) as [Bn En].
  assert (Hb : val b < val n \/ (0 < val b /\ 1 <= bit_pos b <= 64 /\ 64 * Z.of_nat (element_pos b) + bit_pos b = Z.log2 (val b) + 1)).
  { destruct (Z.eq_dec (val b) 0); [left; lia | right; split; [lia | apply (bits_of N b Vb); lia]]. }
  destruct (Nat.ltb_spec (element_pos b) (element_pos n)) as [L|L].
  { apply Small. pose proof (val_pos_bound _ _ Vb). pose proof (val_pos_lower _ _ Vn ltac:(lia)).
    pose proof (Wp_le (S (element_pos b)) (element_pos n) L). lia. }
  destruct (Nat.eqb_spec (element_pos b) (element_pos n)) as [E|E].
  - destruct (Z.ltb_spec (bit_pos b) (bit_pos n)) as [Lb|Lb].
    { apply Small. destruct Hb as [|(P0 & Bb & Eb)]; [assumption|]. apply Z.log2_lt_cancel. lia. }
    assert (P0 : 0 < val b).
    { destruct (Z.eq_dec (val b) 0) as [Z0|]; [|lia]. pose proof (valid_represents N b Vb) as R. destruct (rep_zero _ _ _ R Z0) as [_ Z1]. lia. }
    destruct (bits_of N b Vb P0) as [Bb Eb].
    destruct (Z.eqb_spec (bit_pos b) (bit_pos n)) as [Eb2|Eb2].
    + (* as many bits *)
      assert (Lg : Z.log2 (val b) = Z.log2 (val n)) by lia.
      assert (Two : val b < 2 * val n).
      { pose proof (proj2 (Z.log2_spec (val b) P0)) as U. pose proof (proj1 (Z.log2_spec (val n) Pn)) as U2. pose proof (Z.log2_nonneg (val n)).
        rewrite Lg, Z.pow_succ_r in U by lia. lia. }
      destruct (compare_down_ok N 1 (elements b) (elements n) (S (element_pos b)) ltac:(lia) ltac:(apply (words_le _ _ N Wb); lia) ltac:(apply (words_le _ _ N Wn); lia)) as (c & -> & Hc).
      cbn [bind]. assert (Vn2 : number (elements n) (S (element_pos b)) = val n) by (unfold val; rewrite E; reflexivity).
      destruct c as [|idx|].
      * apply Small. fold (val b) in Hc. lia.
      * destruct Hc as (Hi & Ha & Hlt).
        assert (Nl : number (elements n) (S idx) < number (elements b) (S idx)).
        { apply number_lt; [apply (words_le _ _ N Wn); lia | apply (words_le _ _ N Wb); lia | exact Hlt]. }
        destruct (perform_subtraction_ok cfg N b (elements n) 0 idx Vb ltac:(lia) ltac:(lia) ltac:(apply (words_le _ _ N Wn); lia) ltac:(intros; lia) ltac:(intros i Hi2; apply Ha; lia) ltac:(lia)) as (b' & -> & V' & E').
        cbn [bind]. rewrite upd_ok by lia. cbn [bind]. rewrite Zq. destruct (one_big N (elements q) ltac:(lia) Zi) as [V1 E1].
        eexists. eexists. split; [reflexivity|]. apply Hdone; [lia|]. unfold divided. rewrite E', Vn2, E1. pose proof (val_bounds N b' V') as B'.
        repeat apply conj; try assumption; [apply (Z.mod_unique_pos _ _ 1); lia | apply (Z.div_unique_pos _ _ 1 (val b - val n)); lia].
      * rewrite !sel_ok by lia. cbn [bind].
        assert (Dn : val b - elements b 0%nat = val n - elements n 0%nat).
        { pose proof (number_tail (elements b) (elements n) 1 (S (element_pos b)) ltac:(lia) ltac:(intros i Hi; apply Hc; lia)) as T.
          fold (val b) in T. rewrite Vn2 in T. rewrite !(number_S _ 0), Wp_0 in T. cbn [number] in T. lia. }
        pose proof (Wb 0%nat ltac:(lia)) as W0. pose proof (Wn 0%nat ltac:(lia)) as Wn0.
        destruct (Z.ltb_spec (elements b 0%nat) (elements n 0%nat)) as [L0|L0]; [apply Small; lia|].
        rewrite upd_ok by lia. cbn [bind]. rewrite wrap_small by lia.
        destruct (fill_zero_ok N (put (elements b) 0 (elements b 0%nat - elements n 0%nat)) 1 (element_pos b) ltac:(lia)) as (a & -> & Ha). cbn [bind].
        rewrite sel_ok by lia. cbn [bind]. rewrite upd_ok by lia. cbn [bind]. rewrite Zq. destruct (one_big N (elements q) ltac:(lia) Zi) as [V1 E1].
        eexists. eexists. split; [reflexivity|]. apply Hdone; [lia|]. unfold divided. rewrite E1.
        assert (A0 : a 0%nat = elements b 0%nat - elements n 0%nat) by (rewrite Ha; reflexivity).
        assert (A1 : forall i, (0 < i < N)%nat -> a i = 0).
        { intros i Hi. rewrite Ha. destruct (Nat.leb_spec 1 i), (Nat.ltb_spec i (1 + element_pos b)); cbn [andb]; try lia.
          rewrite put_other by lia. apply (above_zero N b i Vb). lia. }
        destruct (valid_make_top N a 0 (val b - val n)) as [Vr Er].
        { intros i Hi. destruct (Nat.eq_dec i 0) as [->|]; [rewrite A0; lia | rewrite A1 by lia; lia]. }
        { lia. } { exact A1. } { rewrite number_S, Wp_0, A0. cbn [number]. lia. } { left. reflexivity. }
        rewrite Er. repeat apply conj; try assumption; [apply (Z.mod_unique_pos _ _ 1); lia | apply (Z.div_unique_pos _ _ 1 (val b - val n)); lia].
    + (* more bits in the same element *)
      set (z := bit_pos b - bit_pos n) in *. assert (Hz : 0 < z < 64) by (unfold z; lia).
      destruct (shift_from_ok N js (elements n) (element_pos b) z Hz Pb ltac:(apply (words_le _ _ N Wn); lia)) as (s & -> & Hs). cbn [bind].
      assert (Ex : val n * 2 ^ z < Wp (S (element_pos b))).
      { pose proof (shifted_pos (val n) z Pn ltac:(lia)) as Ps. pose proof (proj2 (Z.log2_spec _ Ps)) as U. rewrite log2_shift in U by lia.
        apply Z.lt_le_trans with (1 := U). rewrite Wp_eq. apply Z.pow_le_mono_r; unfold z; lia. }
      apply (Hgo _ z); [|split; reflexivity | lia].
      split; cbn [d_base_idx d_zeros d_total d_this d_shifted d_element_pos d_bit_pos d_quotient]; try assumption; try reflexivity; try lia.
      unfold holds. split; [exact Pb|]. split; [|split; [|split; [exact Bb | unfold z; lia]]].
        -- intros i Hi. rewrite Hs by lia. apply (shifted_words (elements n) z N); [lia | exact Wn | lia].
        -- rewrite (number_ext s (shifted (elements n) z)) by (intros i Hi; apply Hs; lia).
           assert (Vn2 : number (elements n) (S (element_pos b)) = val n) by (unfold val; rewrite E; reflexivity).
           rewrite shifted_exact; [rewrite Vn2; ring | lia | apply (words_le _ _ N Wn); lia | rewrite Vn2; lia].
  - (* more elements *)
    assert (P0 : 0 < val b) by (pose proof (val_pos_lower _ _ Vb ltac:(lia)); pose proof (Wp_pos (element_pos b)); lia).
    destruct (bits_of N b Vb P0) as [Bb Eb].
    assert (Start : exists s B z, (if bit_pos n <? bit_pos b then Ok (js, (element_pos b - element_pos n)%nat, bit_pos b - bit_pos n)
           else if bit_pos b <? bit_pos n then
             s <- upd N js (element_pos b) 0 ;;
             Ok (s, (element_pos b - element_pos n - 1)%nat, element_number_of_bits + bit_pos b - bit_pos n)
           else Ok (js, (element_pos b - element_pos n)%nat, 0)) = Ok (s, B, z) /\ 0 <= z < 64 /\ (B + element_pos n <= element_pos b)%nat /\
           64 * Z.of_nat B + z = Z.log2 (val b) - Z.log2 (val n) /\ (forall i, (B + element_pos n < i <= element_pos b)%nat -> s i = 0)).
    { unfold element_number_of_bits. destruct (Z.ltb_spec (bit_pos n) (bit_pos b)); [|destruct (Z.ltb_spec (bit_pos b) (bit_pos n))].
      - do 3 eexists. split; [reflexivity|]. repeat apply conj; try lia.
      - rewrite upd_ok by lia. cbn [bind]. do 3 eexists. split; [reflexivity|]. repeat apply conj; try lia.
        intros i Hi. replace i with (element_pos b) by lia. apply put_same.
      - do 3 eexists. split; [reflexivity|]. repeat apply conj; try lia. }
    destruct Start as (s0 & B & z & Est & Hz & LB & Ez & Hs0). cbv zeta. rewrite Est. cbn [bind].
    assert (Pos : 0 < 64 * Z.of_nat B + z) by lia.
    destruct (shift_from_base_ok N s0 (elements n) (element_pos n) (element_pos b) B z Hz Pb LB ltac:(apply (words_le _ _ N Wn); lia) Hs0) as (s & -> & Lo & Hs).
    cbn [bind]. unfold element_number_of_bits. rewrite (wrap_small 64 (Z.of_nat B * 64 + z)) by lia. set (t := 64 * Z.of_nat B + z) in *.
    assert (Ex : val n * 2 ^ t < Wp (S (element_pos b))).
    { pose proof (shifted_pos (val n) t Pn ltac:(lia)) as Ps. pose proof (proj2 (Z.log2_spec _ Ps)) as U. rewrite log2_shift in U by lia.
      apply Z.lt_le_trans with (1 := U). rewrite Wp_eq. apply Z.pow_le_mono_r; lia. }
    set (m := fun i => if (i <=? element_pos n)%nat then elements n i else 0) in *.
    assert (Wm : words m N) by (intros i Hi; unfold m; destruct (Nat.leb_spec i (element_pos n)); [apply Wn; lia | lia]).
    assert (Vm : number m (S (element_pos b - B)) = val n).
    { rewrite (number_zero m (S (element_pos n))) by (try lia; intros i Hi; unfold m; destruct (Nat.leb_spec i (element_pos n)); lia).
      apply number_ext. intros i Hi. unfold m. destruct (Nat.leb_spec i (element_pos n)); [reflexivity | lia]. }
    apply (Hgo _ t); [|split; reflexivity | lia].
    split; cbn [d_base_idx d_zeros d_total d_this d_shifted d_element_pos d_bit_pos d_quotient]; try assumption; try reflexivity; try lia.
    unfold holds. split; [exact Pb|]. split; [|split; [|split; [exact Bb | lia]]].
      * intros i Hi. destruct (Nat.le_gt_cases B i); [|rewrite Lo by assumption; lia]. replace i with (B + (i - B))%nat by lia. rewrite Hs by lia.
        apply (shifted_words m z N); [lia | exact Wm | lia].
      * rewrite (number_above s B) by (try lia; exact Lo). replace (S (element_pos b) - B)%nat with (S (element_pos b - B)) by lia.
        rewrite (number_ext (from s B) (shifted m z)) by (intros i Hi; unfold from; apply Hs; lia).
        assert (E2 : 2 ^ t = Wp B * 2 ^ z) by (unfold t; rewrite Z.pow_add_r, Wp_eq by lia; reflexivity).
        rewrite shifted_exact; [rewrite Vm, E2; ring | lia | apply (words_le _ _ N Wm); lia |]. rewrite Vm.
        replace (S (element_pos b)) with (B + S (element_pos b - B))%nat in Ex by lia. rewrite Wp_add, E2 in Ex. pose proof (Wp_pos B). nia.
Qed.

Lemma long_division_safe cfg N js jq b n : 64 * Z.of_nat N < W -> valid N b -> valid N n -> 0 < val n ->
  safe (val b) (val n) ->
  exists r q, long_division cfg N js jq b n = Ok (r, q) /\ valid N r /\ val r = val b mod val n /\ valid N q /\ val q = val b / val n.
Proof.
  intros HN Vb Vn Pn [Hcross Hleap]. apply (long_division_from cfg N js jq b n (divided N (val b) (val n))); try assumption; [intros _ r q D; exact D|].
  intros d t St Li T. exact (divide_aligned_ok cfg N (val b) (val n) HN Pn Hleap Hcross d t St Li T).
Qed.

(** with leading bits fewer than 64 places apart, neither situation arises *)
Lemma log2_rest v w x : 0 <= v -> 0 < x -> Z.log2 (v mod (w * x)) <= Z.log2 v.
Proof.
  intros Hv Hx. destruct (Z_lt_le_dec 0 w) as [Hw|Hw].
  - apply Z.log2_le_mono. apply Z.mod_le; [exact Hv | nia].
  - destruct (Z.eq_dec (w * x) 0) as [E|E]; [rewrite E, Zmod_0_r; lia|]. pose proof (Z.mod_neg_bound v (w * x) ltac:(nia)).
    rewrite Z.log2_nonpos by lia. apply Z.log2_nonneg.
Qed.
Lemma near_safe v w : 0 <= v -> 0 < w -> Z.log2 v - Z.log2 w < 64 -> safe v w.
Proof.
  intros Hv Hw H. split.
  - right. intros (k & Hk & E). pose proof (log2_rest v w (2 ^ (64 * k)) Hv ltac:(apply Z.pow_pos_nonneg; lia)). lia.
  - intros (t & T0 & T1 & T2 & T3). cbv zeta in T3. destruct T3 as [T3 T4].
    destruct (Z_lt_le_dec t 64) as [L|L]; [lia|]. assert (F : v / w < 2 ^ 64).
    { apply Z.div_lt_upper_bound; [lia|]. apply Z.log2_lt_cancel. rewrite log2_shift by lia. lia. }
    pose proof (Z.div_pos v w Hv Hw) as P. destruct (Z.eq_dec (v / w) 0) as [E0|E0]; [rewrite E0, Z.bits_0 in T1; discriminate|].
    rewrite Z.bits_above_log2 in T1; [discriminate | exact P |]. apply Z.log2_lt_pow2; [lia|]. apply Z.lt_le_trans with (1 := F). apply Z.pow_le_mono_r; lia.
Qed.
Lemma long_division_valid cfg N js jq b n : 64 * Z.of_nat N < W -> valid N b -> valid N n -> 0 < val n ->
  Z.log2 (val b) - Z.log2 (val n) < 64 ->
  exists r q, long_division cfg N js jq b n = Ok (r, q) /\ valid N r /\ val r = val b mod val n /\ valid N q /\ val q = val b / val n.
Proof.
  intros HN Vb Vn Pn Hd. apply long_division_safe; try assumption. apply near_safe; [apply (val_bounds N b Vb) | exact Pn | exact Hd].
Qed.

(** a division by an even number whose quotient has no 60 zeros in a row between ones *)
Definition dense (q : Z) : Prop := forall t, 60 <= t -> Z.testbit q t = true -> exists s, t - 60 <= s < t /\ Z.testbit q s = true.
Lemma dense_safe v w : 0 <= v -> 0 < w -> Z.even w = true -> dense (v / w) -> safe v w.
Proof.
  intros Hv Hw He Hq. split; [left; exact He|]. intros (t & T0 & T1 & T2 & T3). cbv zeta in T3. destruct T3 as [T3 _].
  destruct (Hq t ltac:(lia) T1) as (s & Hs & Bs).
  assert (P : 0 < 2 ^ t) by (apply Z.pow_pos_nonneg; lia). assert (Ps : 0 < 2 ^ s) by (apply Z.pow_pos_nonneg; lia).
  assert (B1 : Z.testbit ((v / w) mod 2 ^ t) s = true) by (rewrite Z.mod_pow2_bits_low by lia; exact Bs).
  pose proof (Z.mod_pos_bound (v / w) (2 ^ t) P) as MB.
  assert (G : 2 ^ s <= (v / w) mod 2 ^ t).
  { destruct (Z_lt_le_dec ((v / w) mod 2 ^ t) (2 ^ s)) as [L|L]; [exfalso|exact L].
    destruct (Z.eq_dec ((v / w) mod 2 ^ t) 0) as [E0|E0]; [rewrite E0, Z.bits_0 in B1; discriminate|].
    rewrite Z.bits_above_log2 in B1; [discriminate | lia |]. apply Z.log2_lt_pow2; lia. }
  assert (R : v mod (w * 2 ^ t) = v mod w + w * ((v / w) mod 2 ^ t)) by (apply Z.rem_mul_r; lia).
  pose proof (Z.mod_pos_bound v w Hw). assert (Ge : w * 2 ^ s <= v mod (w * 2 ^ t)) by nia.
  apply Z.log2_le_mono in Ge. rewrite log2_shift in Ge by lia. lia.
Qed.
