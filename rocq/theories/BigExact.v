(** * Exactly when the bigint operations leave proper numbers *)

From Coq Require Import ZArith List Lia Bool.
From Verif Require Import Machine Model Arith BigintModel BigSpec BigFacts Bigint BigintOps BigintMul BigClaims.
Open Scope Z_scope.

Lemma zero_elements N b : represents N b 0 -> element_pos b = 0%nat /\ bit_pos b = 0.
Proof. intros R. apply (rep_zero _ _ _ R eq_refl). Qed.

(** ** Times an element *)
Lemma times_element_exact cfg N b v x : represents N b v -> 0 <= x < 2 ^ 64 -> fits N (v * x) ->
  exists r, mul_assign_element cfg N b x = Ok r /\ (forall i, (i < N)%nat -> 0 <= elements r i < 2 ^ 64) /\ number (elements r) N = v * x /\
    (represents N r (v * x) <-> 0 < x \/ v < 2 ^ 64).
Proof.
  intros R X F. destruct (Z_lt_le_dec 0 x) as [P|P]; [|destruct (Z_lt_le_dec v (2 ^ 64)) as [Q|Q]].
  - destruct (times_element cfg N b v x R X (or_introl P) F) as (r & E & R'). exists r. split; [exact E|].
    split; [apply (rep_words _ _ _ R')|]. split; [apply (rep_value _ _ _ R')|]. split; [intros _; left; exact P | intros _; exact R'].
  - destruct (times_element cfg N b v x R X (or_intror Q) F) as (r & E & R'). exists r. split; [exact E|].
    split; [apply (rep_words _ _ _ R')|]. split; [apply (rep_value _ _ _ R')|]. split; [intros _; right; exact Q | intros _; exact R'].
  - assert (x = 0) by lia. subst x. apply rep in R. destruct R as [V Ev].
    pose proof (v_pos _ _ V) as Pp. pose proof (v_words _ _ V) as Wb. unfold mul_assign_element.
    destruct (up_loop_inv (fun k (st : (nat -> Z) * Z) => snd st = 0 /\ (forall j, (j < k)%nat -> fst st j = 0) /\ forall j, (k <= j)%nat -> fst st j = elements b j)
      (fun idx (st : (nat -> Z) * Z) => let '(a, carry) := st in
            v <- sel N a idx ;;
            let mul := umul128 cfg v 0 in
            let s := wrap 64 (u128_low mul + carry) in
            a <- upd N a idx s ;;
            Ok (a, wrap 64 (u128_high mul + (if s <? u128_low mul then 1 else 0)))) 0 (S (element_pos b)) (elements b, 0)) as ([a c] & E1 & I1 & I2 & I3).
    + cbn [fst snd]. split; [reflexivity|]. split; [intros; lia | reflexivity].
    + intros k [a c] Hk (I1 & I2 & I3). cbn [fst snd] in *. subst c. rewrite sel_ok by lia. cbn [bind].
      assert (Ak : 0 <= a k < W) by (rewrite I3 by lia; apply Wb; lia).
      destruct (umul128_exact cfg (a k) 0 Ak ltac:(lia)) as [-> ->]. rewrite Z.mul_0_r. rewrite upd_ok by lia. cbn [bind].
      eexists. split; [reflexivity|]. cbn [fst snd]. split; [reflexivity|]. split.
      * intros j Hj. unfold put. destruct (Nat.eqb_spec j k); [reflexivity | apply I2; lia].
      * intros j Hj. rewrite put_other by lia. apply I3. lia.
    + cbn [bind fst snd] in *. rewrite E1. cbn [bind]. subst c. cbn [negb Z.eqb]. rewrite sel_ok by exact Pp. cbn [bind].
      change (0 + S (element_pos b))%nat with (S (element_pos b)) in *.
      assert (Z0 : forall i, (i < N)%nat -> a i = 0).
      { intros i Hi. destruct (le_gt_dec i (element_pos b)); [apply I2; lia|]. rewrite I3 by lia. apply (above_zero N b i V). lia. }
      eexists. split; [reflexivity|]. cbn [elements]. split; [intros i Hi; rewrite Z0 by exact Hi; lia|].
      split; [rewrite Z.mul_0_r; rewrite (number_zero a 0 N) by (try lia; intros i Hi; apply Z0; lia); reflexivity|].
      split; [|lia]. intros R. rewrite Z.mul_0_r in R. destruct (zero_elements _ _ R) as [E _]. cbn [element_pos] in E. exfalso.
      pose proof (val_pos_bound N b V) as B. rewrite E, Ev, Wp_S, Wp_0 in B. lia.
Qed.

(** ** Plus an element *)
Lemma add_element_position cfg N b x r : add_element cfg N b x = Ok r ->
  (element_pos r = element_pos b /\ bit_pos r = bit_pos b) \/ (element_pos r = S (element_pos b) /\ bit_pos r = 1 /\ elements r (S (element_pos b)) = 1).
Proof.
  unfold add_element. destruct (sel N (elements b) 0) as [v| | |]; cbn [bind]; try discriminate.
  destruct (upd N (elements b) 0 (wrap 64 (v + x))) as [a| | |]; cbn [bind]; try discriminate.
  match goal with |- context [up_loop ?f ?i ?n ?s] => destruct (up_loop f i n s) as [[a' c]| | |] end; cbn [bind]; try discriminate.
  destruct (Z.eqb_spec c 0); cbn [negb].
  - intros [= <-]. left. split; reflexivity.
  - destruct (cassert cfg (S (element_pos b) <? N)%nat) as [t| | |]; cbn [bind]; try discriminate. unfold upd.
    destruct (S (element_pos b) <? N)%nat; cbn [bind]; try discriminate. intros [= <-]. right. cbn [elements element_pos bit_pos].
    split; [reflexivity|]. split; [reflexivity | apply put_same].
Qed.
Lemma plus_element_exact cfg N b v x : represents N b v -> 0 <= x < 2 ^ 64 -> fits N (v + x) ->
  exists r, add_element cfg N b x = Ok r /\ (forall i, (i < N)%nat -> 0 <= elements r i < 2 ^ 64) /\ number (elements r) N = v + x /\
    (represents N r (v + x) \/ (element_pos r = element_pos b /\ bit_pos r = bit_pos b)) /\
    (represents N r (v + x) <-> v + x = 0 \/ 0 < v /\ (Z.log2 (v + x) = Z.log2 v \/ 2 ^ (64 * size v) <= v + x)).
Proof.
  intros R X F. destruct (plus_element cfg N b v x R X F) as (r & E & A & B & C). exists r. split; [exact E|]. split; [exact A|]. split; [exact B|].
  assert (V0 : 0 <= v) by (pose proof (rep _ _ _ R) as [V <-]; apply (val_bounds N b V)).
  assert (Over : element_pos r = S (element_pos b) -> elements r (S (element_pos b)) = 1 -> (S (element_pos b) < N)%nat ->
    0 < v /\ 2 ^ (64 * size v) <= v + x).
  { intros P1 P2 P3. pose proof (rep _ _ _ R) as [V Ev]. assert (G : Wp (S (element_pos b)) <= v + x).
    { rewrite <- B. assert (M := number_mono (elements r) (S (S (element_pos b))) N A ltac:(lia)). rewrite number_S, P2 in M.
      pose proof (number_bounds (elements r) (S (element_pos b)) ltac:(apply (words_le _ _ N A); lia)). lia. }
    assert (P : 0 < v).
    { destruct (Z.eq_dec v 0) as [Q|]; [exfalso|lia]. rewrite Q in *. pose proof (Wp_le 1 (S (element_pos b)) ltac:(lia)). rewrite (Wp_S 0), Wp_0 in *. lia. }
    split; [exact P|]. rewrite <- Ev in *. rewrite (size_pos N b V P). exact G. }
  assert (Bound : (S (element_pos b) < N)%nat \/ element_pos r <> S (element_pos b)).
  { destruct (Nat.lt_ge_cases (S (element_pos b)) N) as [|G]; [left; assumption | right]. intros P. revert E. unfold add_element.
    destruct (sel N (elements b) 0) as [v0| | |]; cbn [bind]; try discriminate.
    destruct (upd N (elements b) 0 (wrap 64 (v0 + x))) as [a| | |]; cbn [bind]; try discriminate.
    match goal with |- context [up_loop ?f ?i ?n ?s] => destruct (up_loop f i n s) as [[a' c]| | |] end; cbn [bind]; try discriminate.
    destruct (Z.eqb_spec c 0); cbn [negb].
    - intros [= <-]. cbn [element_pos] in P. lia.
    - destruct (cassert cfg (S (element_pos b) <? N)%nat) as [t| | |]; cbn [bind]; try discriminate. unfold upd.
      destruct (Nat.ltb_spec (S (element_pos b)) N); [lia | cbn [bind]; discriminate]. }
  pose proof (add_element_position cfg N b x r E) as Pos.
  assert (Iff : represents N r (v + x) <-> v + x = 0 \/ 0 < v /\ (Z.log2 (v + x) = Z.log2 v \/ 2 ^ (64 * size v) <= v + x)).
  { split.
    - intros Rr. destruct (Z.eq_dec (v + x) 0) as [|Q]; [left; assumption | right]. destruct (rep_bits _ _ _ Rr ltac:(lia)) as [B1 B2].
      destruct Pos as [[P1 P2]|(P1 & P2 & P3)].
      + rewrite P1, P2 in *. destruct (Z.eq_dec v 0) as [Z|Z].
        * exfalso. destruct (rep_zero _ _ _ R Z) as [_ Q2]. lia.
        * split; [lia|]. left. destruct (rep_bits _ _ _ R ltac:(lia)) as [_ B4]. lia.
      + destruct Bound as [Bd|Bd]; [|contradiction]. destruct (Over P1 P3 Bd) as [G1 G2]. split; [exact G1 | right; exact G2].
    - intros [Z|[P H]]; [|apply C; assumption]. assert (v = 0) by lia. assert (x = 0) by lia. subst v x.
      destruct (rep_zero _ _ _ R eq_refl) as [Q1 Q2]. pose proof (rep_pos _ _ _ R) as Q3.
      destruct Pos as [[P1 P2]|(P1 & P2 & P3)].
      + rewrite Z. split; try assumption; try lia.
      + destruct Bound as [Bd|Bd]; [|contradiction]. destruct (Over P1 P3 Bd) as [G1 _]. lia. }
  split; [|exact Iff]. destruct Pos as [P|(P1 & P2 & P3)]; [right; exact P | left]. destruct Bound as [Bd|Bd]; [|contradiction].
  apply Iff. right. destruct (Over P1 P3 Bd) as [G1 G2]. split; [exact G1 | right; exact G2].
Qed.

(** ** Minus one *)
Lemma rep_iff N a p k u : words a N -> number a N = u -> (p < N)%nat -> 0 < u ->
  (represents N (mk_big a p k) u <-> 1 <= k <= 64 /\ 64 * Z.of_nat p + k = Z.log2 u + 1).
Proof.
  intros Hw Hv Hp P. split.
  - intros R. apply (rep_bits _ _ _ R P).
  - intros H. split; cbn [elements element_pos bit_pos]; try assumption; [lia | intros _; exact H].
Qed.
Lemma minus_one_exact cfg N b v : represents N b v -> 0 < v ->
  exists r, decrement cfg N b = Ok r /\ (forall i, (i < N)%nat -> 0 <= elements r i < 2 ^ 64) /\ number (elements r) N = v - 1 /\
    (forall i d, 0 <= i -> 0 < d < 2 ^ 64 -> v mod 2 ^ (64 * (i + 1)) = d * 2 ^ (64 * i) ->
      (represents N r (v - 1) <-> v = d * 2 ^ (64 * i) \/ 1 < d /\ Z.log2 (d - 1) = Z.log2 v mod 64)).
Proof.
  intros R P. apply rep in R. destruct R as [V <-]. pose proof (v_pos _ _ V) as Pp. pose proof (v_words _ _ V) as Wb.
  destruct (lowest_nonzero (elements b) (S (element_pos b)) ltac:(fold (val b); lia)) as (j & Hj & Nz & Hz).
  destruct (dec_borrow_ok cfg N (element_pos b) j (S N) (elements b) 0 Wb ltac:(lia) ltac:(lia) Pp Nz ltac:(intros k Hk; apply Hz; lia) ltac:(lia))
    as (a & E & Wa & Na & Ja & Ra).
  rewrite (val_number N b V), Wp_0 in Na.
  assert (D : exists r, decrement cfg N b = Ok r /\ elements r = a /\
    ((elements b j = 1 /\ j = 0%nat /\ element_pos r = element_pos b /\ bit_pos r = 0) \/
     (elements b j = 1 /\ (0 < j)%nat /\ element_pos r = (element_pos b - 1)%nat /\ bit_pos r = 64) \/
     (1 < elements b j /\ element_pos r = element_pos b /\ bit_pos r = nbits (elements b j - 1)))).
  { unfold decrement. rewrite E. cbn [bind]. rewrite sel_ok by lia. cbn [bind]. pose proof (Wb j ltac:(lia)) as Bj.
    destruct (Z.eqb_spec (a j) 0) as [Q|Q].
    - destruct (Nat.eqb_spec j 0) as [J|J]; eexists; (split; [reflexivity|]); (split; [reflexivity|]); cbn [element_pos bit_pos].
      + left. split; [lia|]. split; [exact J|]. split; reflexivity.
      + right. left. split; [lia|]. split; [lia|]. split; reflexivity.
    - eexists. split; [reflexivity|]. split; [reflexivity|]. right. right. cbn [element_pos bit_pos]. split; [lia|]. split; [reflexivity|].
      rewrite Ja. apply log2p1_ok. lia. }
  destruct D as (r & Er & Ea & Dr). exists r. split; [exact Er|]. rewrite Ea. split; [exact Wa|]. split; [exact Na|].
  intros i d Hi Hd Hm.
  assert (Id : i = Z.of_nat j /\ d = elements b j).
  { set (i' := Z.to_nat i). assert (Ei : i = Z.of_nat i') by (unfold i'; lia). rewrite Ei in *. clearbody i'. clear i Hi Ei.
    replace (64 * (Z.of_nat i' + 1)) with (64 * Z.of_nat (S i')) in Hm by lia. rewrite <- !Wp_eq in Hm. pose proof (Wp_pos i') as Pi.
    assert (Li : (i' < N)%nat).
    { apply Wp_lt_inv. pose proof (val_bounds N b V) as B. pose proof (Z.mod_le (val b) (Wp (S i')) ltac:(lia) ltac:(apply Wp_pos)). nia. }
    pose proof (number_mod (elements b) N (S i') Wb ltac:(lia)) as M1. rewrite (val_number N b V), Hm in M1.
    rewrite number_S in M1. pose proof (number_bounds (elements b) i' ltac:(apply (words_le _ _ N Wb); lia)) as B.
    assert (Q : elements b i' = d /\ number (elements b) i' = 0).
    { pose proof (Wb i' Li). assert (elements b i' = d); [|split; [assumption | nia]]. nia. }
    destruct Q as [Q1 Q2]. pose proof (number_pos_nonzero _ _ (words_le _ i' N Wb ltac:(lia)) Q2) as Z0.
    assert (i' = j). { destruct (Nat.lt_trichotomy i' j) as [L|[L|L]]; [rewrite (Hz i' L) in Q1; lia | exact L | exfalso; apply Nz, Z0, L]. }
    subst i'. split; [reflexivity | symmetry; exact Q1]. }
  destruct Id as [-> ->]. rewrite <- Wp_eq. clear Hm Hi.
  destruct (bits_of N b V P) as [Bp Ep].
  assert (Lg : Z.log2 (val b) mod 64 = bit_pos b - 1).
  { replace (Z.log2 (val b)) with ((bit_pos b - 1) + Z.of_nat (element_pos b) * 64) by lia. rewrite Z.mod_add, Z.mod_small by lia. reflexivity. }
  rewrite Lg. pose proof (Wp_pos j) as Pj.
  assert (Lowest : (j < element_pos b)%nat -> Wp (element_pos b) + Wp j <= val b /\ val b <> elements b j * Wp j).
  { intros L. unfold val. rewrite number_S. assert (T : elements b (element_pos b) <> 0) by (destruct (v_top _ _ V); [lia | assumption]).
    pose proof (Wb (element_pos b) Pp) as B1. pose proof (Wp_pos (element_pos b)) as B2.
    pose proof (number_mono (elements b) (S j) (element_pos b) ltac:(apply (words_le _ _ N Wb); lia) ltac:(lia)) as B3. rewrite number_S in B3.
    pose proof (number_bounds (elements b) j ltac:(apply (words_le _ _ N Wb); lia)) as B4. pose proof (Wb j ltac:(lia)) as B5.
    pose proof (Wp_le (S j) (element_pos b) ltac:(lia)) as B6. rewrite Wp_S in B6. split; nia. }
  assert (Top : j = element_pos b -> val b = elements b j * Wp j).
  { intros ->. unfold val. rewrite number_S, (number_zero _ 0 (element_pos b)) by (try lia; intros k Hk; apply Hz; lia). reflexivity. }
  assert (Zr : forall k, (element_pos b < k < N)%nat -> a k = 0) by (intros k Hk; rewrite Ra by lia; apply (above_zero N b k V); lia).
  assert (Nr : number a (S (element_pos b)) = val b - 1) by (rewrite <- Na; symmetry; apply number_zero; [lia|]; intros k Hk; apply Zr; lia).
  assert (Er' : r = mk_big a (element_pos r) (bit_pos r)) by (rewrite <- Ea; destruct r; reflexivity).
  destruct Dr as [(D1 & D2 & D3 & D4)|[(D1 & D2 & D3 & D4)|(D1 & D3 & D4)]]; rewrite D3, D4 in Er'; rewrite Er'; clear Er'.
  - (* the element becomes 0 and is the lowest *)
    rewrite D1, D2, Wp_0 in *. destruct (Nat.eq_dec (element_pos b) 0) as [Q|Q].
    + assert (V1 : val b = 1 * 1) by (apply Top; lia). split; [intros _; left; lia | intros _]. rewrite V1. rewrite Q.
      split; cbn [elements element_pos bit_pos]; try assumption; try lia.
    + destruct (Lowest ltac:(lia)) as [L1 L2]. pose proof (Wp_le 1 (element_pos b) ltac:(lia)) as L3. rewrite Wp_S, Wp_0 in L3.
      rewrite (rep_iff N a (element_pos b) 0 (val b - 1) Wa Na Pp ltac:(lia)). lia.
  - (* it becomes 0 and is not the lowest *)
    rewrite D1 in *. destruct (Nat.eq_dec j (element_pos b)) as [Q|Q].
    + pose proof (Top Q) as V1. split; [intros _; left; lia | intros _]. rewrite <- Q in *. pose proof (Wp_le 1 j ltac:(lia)) as L3. rewrite (Wp_S 0), Wp_0 in L3.
      apply rep_iff; try assumption; try lia. split; [lia|]. rewrite (Z.log2_unique (val b - 1) (64 * Z.of_nat j - 1)); [lia | lia|].
      rewrite V1. replace (Z.succ (64 * Z.of_nat j - 1)) with (64 * Z.of_nat j) by lia. rewrite <- Wp_eq. split; [|lia].
      assert (Wp j = 2 * 2 ^ (64 * Z.of_nat j - 1)); [|assert (0 < 2 ^ (64 * Z.of_nat j - 1)) by (apply Z.pow_pos_nonneg; lia); lia].
      rewrite Wp_eq. rewrite <- Z.pow_succ_r by lia. f_equal. lia.
    + destruct (Lowest ltac:(lia)) as [L1 L2]. pose proof (Wp_pos (element_pos b)) as L3.
      rewrite (rep_iff N a (element_pos b - 1) 64 (val b - 1) Wa Na ltac:(lia) ltac:(lia)).
      assert (64 * Z.of_nat (element_pos b) <= Z.log2 (val b - 1)) by (apply Z.log2_le_pow2; [lia|]; rewrite <- Wp_eq; lia). lia.
  - pose proof (Wb j ltac:(lia)) as Bj. rewrite nbits_pos by lia. destruct (Nat.eq_dec j (element_pos b)) as [Q|Q].
    + pose proof (Top Q) as V1. split; [intros _; left; exact V1 | intros _].
      assert (X : valid N (mk_big a (element_pos b) (log2p1 (a (element_pos b)))) /\ val (mk_big a (element_pos b) (log2p1 (a (element_pos b)))) = val b - 1).
      { apply valid_make_top; try assumption. right. rewrite V1, <- Q. nia. }
      rewrite <- Q, Ja in X. rewrite <- Q. rewrite log2p1_ok, nbits_pos in X by lia. destruct X as [X1 X2]. apply rep_of; assumption.
    + destruct (Lowest ltac:(lia)) as [L1 L2]. pose proof (Wp_pos (element_pos b)) as L3.
      rewrite (rep_iff N a (element_pos b) _ (val b - 1) Wa Na ltac:(lia) ltac:(lia)).
      assert (T : elements b (element_pos b) <> 0) by (destruct (v_top _ _ V); [lia | assumption]).
      assert (Ta : a (element_pos b) = elements b (element_pos b)) by (apply Ra; lia).
      destruct (top_bits a (element_pos b) (words_le a (S (element_pos b)) N Wa ltac:(lia)) ltac:(rewrite Ta; exact T)) as [_ TB]. rewrite Nr, Ta in TB.
      rewrite <- (v_bits _ _ V), (nbits_pos (val b - 1)) in TB by lia.
      pose proof (nbits_range (elements b j - 1) ltac:(lia)) as NR. rewrite nbits_pos in NR by lia. split; [intros [_ G]; right; lia | intros [G|[_ G]]; [contradiction | lia]].
Qed.

(** ** Products with a lost carry, without assertions; products with 0 *)
Lemma big_mul_any cfg N jt jr x y : valid N x -> valid N y -> val x * val y < Wp N -> cfg_ndebug cfg = true \/ val x * val y = 0 ->
  exists R p, big_mul cfg N jt jr x y = Ok (mk_big R (element_pos y + p) (log2p1 (R (element_pos y + p)%nat))) /\ words R N /\
    number R N <= val x * val y /\ ((p = S (element_pos x) /\ 0 < val x * val y) \/ p = element_pos x) /\ (element_pos y + p < N)%nat /\
    ((exists i, (1 <= i)%nat /\ lost_row (val x) (val y) (S (element_pos x)) i) -> number R N < val x * val y).
Proof.
  intros Vx Vy F Hc. pose proof (v_pos _ _ Vx) as Lx. pose proof (v_pos _ _ Vy) as Ly.
  pose proof (v_words _ _ Vx) as Wx. pose proof (v_words _ _ Vy) as Wy.
  pose proof (val_bounds N x Vx) as X0. pose proof (val_bounds N y Vy) as Y0.
  assert (Zx : val x = 0 -> element_pos x = 0%nat) by (intros Q; apply (rep_zero _ _ _ (valid_represents N x Vx) Q)).
  assert (Zy : val y = 0 -> element_pos y = 0%nat) by (intros Q; apply (rep_zero _ _ _ (valid_represents N y Vy) Q)).
  set (px := element_pos x) in *. set (py := element_pos y) in *. set (X := val x) in *. set (Y := val y) in *.
  assert (Xlo : X = 0 \/ Wp px <= X) by (destruct (Nat.eq_dec px 0) as [->|]; [rewrite Wp_0; lia | right; apply (val_pos_lower N x Vx); fold px; lia]).
  assert (Ylo : Y = 0 \/ Wp py <= Y) by (destruct (Nat.eq_dec py 0) as [->|]; [rewrite Wp_0; lia | right; apply (val_pos_lower N y Vy); fold py; lia]).
  assert (Xhi : X < Wp (S px)) by apply (val_pos_bound N x Vx).
  assert (PN : (px + py < N)%nat).
  { destruct Xlo as [Q|Xlo]; [rewrite (Zx Q); lia|]. destruct Ylo as [Q|Ylo]; [rewrite (Zy Q); lia|].
    apply Wp_lt_inv. rewrite Wp_add. pose proof (Wp_pos px). pose proof (Wp_pos py). nia. }
  assert (YN : number (elements y) N = Y) by apply (val_number N y Vy).
  assert (Ym : forall k, (k <= N)%nat -> number (elements y) k = Y mod Wp k) by (intros k Hk; rewrite <- YN; apply number_mod; assumption).
  assert (Yi : forall k, (k < N)%nat -> elements y k = Y / Wp k mod W) by (intros k Hk; rewrite <- YN; apply element_mod; assumption).
  assert (Yb : forall k, (k <= N)%nat -> 0 <= number (elements y) k <= Y).
  { intros k Hk. split; [apply number_bounds; apply (words_le _ _ N Wy Hk)|]. rewrite <- YN. apply number_mono; assumption. }
  assert (Row : forall i, (i < N)%nat -> Wp (S px) <= X * elements y i -> (i + S px < N)%nat /\ 0 < X * Y).
  { intros i Hi G. pose proof (Wp_pos i). pose proof (Wp_pos (S px)). pose proof (Yb (S i) ltac:(lia)) as B. rewrite number_S in B.
    pose proof (Yb i ltac:(lia)). assert (Q : X * (elements y i * Wp i) <= X * Y) by (apply Z.mul_le_mono_nonneg_l; lia).
    split; [apply Wp_lt_inv; rewrite Wp_add; nia | nia]. }
  unfold big_mul. fold px py. rewrite cassert_ok by (apply Nat.ltb_lt; lia). cbn [bind]. rewrite sel_ok by lia. cbn [bind].
  destruct (calculate_single_ok cfg N x (elements y 0%nat) jr Vx (Wy 0%nat ltac:(lia))) as (r0 & p0 & E0 & W0 & N0 & S0).
  { intros G. pose proof (Row 0%nat ltac:(lia) G). fold px. lia. }
  rewrite E0. cbn [bind]. fold px X in N0, S0.
  assert (P0 : (p0 < N)%nat) by (destruct S0 as [[-> G]|[-> G]]; [pose proof (Row 0%nat ltac:(lia) G); lia | lia]).
  destruct (fill_zero_ok N r0 (S p0) (N - S p0) ltac:(lia)) as (R0 & ER & HR). rewrite ER. cbn [bind].
  assert (HR1 : forall i, (i <= p0)%nat -> R0 i = r0 i) by (intros i Hi; rewrite HR; destruct (Nat.leb_spec (S p0) i); cbn [andb]; [lia | reflexivity]).
  assert (HR2 : forall i, (p0 < i < N)%nat -> R0 i = 0).
  { intros i Hi. rewrite HR. destruct (Nat.leb_spec (S p0) i), (Nat.ltb_spec i (S p0 + (N - S p0))); cbn [andb]; lia. }
  assert (WR : words R0 N) by (intros i Hi; destruct (Nat.le_gt_cases i p0); [rewrite HR1 by lia; apply W0; lia | rewrite HR2 by lia; lia]).
  assert (NR : number R0 N = X * elements y 0%nat).
  { rewrite (number_zero R0 (S p0) N) by (try lia; intros i Hi; apply HR2; lia). rewrite (number_ext R0 r0) by (intros i Hi; apply HR1; lia). exact N0. }
  set (last_row := fun (i p : nat) => (p = S px /\ (i - 1 + S px < N)%nat /\ 0 < X * Y) \/ p = px).
  match goal with |- exists R p, bind (up_loop ?body _ _ _) _ = _ /\ _ =>
    destruct (up_loop_inv (fun i (st : (nat -> Z) * (nat -> Z) * nat) => let '(R, _, p) := st in
        words R N /\ number R N <= X * number (elements y) i /\ last_row i p /\
        (number R N = X * number (elements y) i -> forall k, (1 <= k < i)%nat -> ~ lost_row X Y (S px) k))
      body 1 py (R0, jt, p0)) as ([[R t] p] & E & (I1 & I2 & I3 & I4)) end.
  - repeat apply conj; try assumption.
    + rewrite NR, number_S, Wp_0. cbn [number]. lia.
    + destruct S0 as [[-> G]|[-> G]]; [left | right; reflexivity]. destruct (Row 0%nat ltac:(lia) G). split; [reflexivity|]. split; [lia | assumption].
    + intros _ k Hk. lia.
  - intros i [[R t] p] Hi (I1 & I2 & _ & I4). rewrite sel_ok by lia. cbn [bind].
    destruct (calculate_single_ok cfg N x (elements y i) t Vx (Wy i ltac:(lia))) as (t' & q & Eq & Wq & Nq & Sq).
    { intros G. pose proof (Row i ltac:(lia) G). fold px. lia. }
    rewrite Eq. cbn [bind]. fold px X in Nq, Sq.
    assert (Lq : (i + q < N)%nat) by (destruct Sq as [[-> G]|[-> G]]; [apply Row; [lia | exact G] | lia]).
    destruct (accumulate_ok N R t' q i Lq I1 Wq) as (R' & c & Ea & Wa & Ca & Na & Ka).
    assert (T : X * number (elements y) (S i) = X * number (elements y) i + Wp i * number t' (S q)) by (rewrite number_S, Nq; ring).
    assert (B1 : X * number (elements y) i < Wp (i + S q)).
    { pose proof (number_bounds (elements y) i ltac:(apply (words_le _ _ N Wy); lia)) as B. rewrite Wp_add. pose proof (Wp_le (S px) (S q) ltac:(lia)). pose proof (Wp_pos i). pose proof (Wp_pos (S q)). nia. }
    assert (RZ : number R (i + S q) = number R N).
    { symmetry. apply number_zero; [lia|]. apply number_small; [exact I1 | lia | lia]. }
    assert (KZ : forall k, (i + S q <= k < N)%nat -> R' k = 0).
    { intros k Hk. rewrite Ka by lia. apply (number_small R N (i + S q)); [exact I1 | lia | lia | exact Hk]. }
    assert (NR' : number R' N = number R' (i + S q)) by (apply number_zero; [lia | exact KZ]).
    cbv zeta in Ea. rewrite RZ, <- NR' in Na. pose proof (Wp_pos (i + S q)) as PW.
    pose proof (number_bounds R' (i + S q) ltac:(apply (words_le R' _ N Wa); lia)) as BR. rewrite <- NR' in BR.
    assert (CA : cassert cfg (c =? 0) = Ok tt).
    { unfold cassert. destruct Hc as [->|Hc]; [reflexivity|]. assert (c = 0); [|subst c; destruct (cfg_ndebug cfg); reflexivity].
      assert (X * number (elements y) (S i) <= 0).
      { pose proof (Yb (S i) ltac:(lia)) as B. rewrite <- Hc. apply Z.mul_le_mono_nonneg_l; lia. }
      nia. }
    match goal with |- context [bind ?e _] => idtac end.
    repeat rewrite sel_ok in Ea by lia. cbn [bind] in Ea. rewrite upd_ok in Ea by lia. cbn [bind] in Ea.
    rewrite !sel_ok by lia. cbn [bind]. rewrite upd_ok by lia. cbn [bind]. rewrite Ea. cbn [bind]. rewrite CA. cbn [bind].
    eexists. split; [reflexivity|]. split; [exact Wa|]. split; [nia|]. split.
    + destruct Sq as [[-> G]|[-> G]]; [left | right; reflexivity]. destruct (Row i ltac:(lia) G). split; [reflexivity|]. split; [lia | assumption].
    + intros EQ. assert (C0 : c = 0) by nia. subst c. intros k Hk. destruct (Nat.eq_dec k i) as [->|]; [|apply I4; [lia|]; lia].
      intros [G1 G2]. rewrite <- Yi in G1 by lia. rewrite <- Ym in G2 by lia. destruct Sq as [[-> G]|[-> G]]; [lia|].
      replace (i + S px)%nat with (S px + i)%nat in * by lia. lia.
  - rewrite E. cbn [bind]. change (1 + py)%nat with (S py) in *. assert (EY : number (elements y) (S py) = Y) by reflexivity. rewrite EY in *.
    assert (Lp : (py + p < N)%nat) by (destruct I3 as [(-> & G & _)| ->]; lia).
    rewrite sel_ok by exact Lp. cbn [bind]. exists R, p. split; [reflexivity|]. split; [exact I1|]. split; [exact I2|]. split.
    + destruct I3 as [(-> & _ & G)| ->]; [left; split; [reflexivity | exact G] | right; reflexivity].
    + split; [exact Lp|]. intros (i & Hi & Lr). assert (number R N <> X * Y); [|lia]. intros EQ. apply (I4 EQ i); [|exact Lr].
      split; [lia|]. destruct (le_gt_dec i py) as [|Q]; [lia|exfalso]. destruct Lr as [_ G].
      pose proof (val_pos_bound N y Vy) as B. fold py Y in B. pose proof (Wp_le (S py) i ltac:(lia)) as L. pose proof (Wp_le (S py) (S i) ltac:(lia)) as L'.
      rewrite Z.mod_small in G by lia. rewrite Wp_add in G. pose proof (Wp_pos (S px)). nia.
Qed.
Lemma product_wrong cfg N jt jr b c v w : cfg_ndebug cfg = true -> represents N b v -> represents N c w -> fits N (v * w) ->
  0 < v -> carry_lost v w -> exists r, big_mul cfg N jt jr b c = Ok r /\ number (elements r) N < v * w.
Proof.
  intros D R S F P L. apply rep in R, S. destruct R as [Vb <-], S as [Vc <-]. apply fits_Wp in F. rewrite (lost_iff N b _ Vb P) in L.
  destruct (big_mul_any cfg N jt jr b c Vb Vc ltac:(lia) (or_introl D)) as (R & p & E & _ & _ & _ & _ & G).
  eexists. split; [exact E | exact (G L)].
Qed.
Lemma product_zero cfg N jt jr b c v w : represents N b v -> represents N c w -> v * w = 0 ->
  exists r, big_mul cfg N jt jr b c = Ok r /\ number (elements r) N = 0 /\ (represents N r (v * w) <-> v < 2 ^ 64 /\ w < 2 ^ 64).
Proof.
  intros R S Z0. apply rep in R, S. destruct R as [Vb <-], S as [Vc <-].
  destruct (big_mul_any cfg N jt jr b c Vb Vc ltac:(rewrite Z0; apply Wp_pos) (or_intror Z0)) as (R & p & E & G1 & G2 & G3 & G4 & _).
  rewrite Z0 in *. assert (p = element_pos b) by lia. subst p. clear G3.
  pose proof (number_bounds R N G1) as B. assert (NZ : number R N = 0) by lia. pose proof (number_pos_nonzero R N G1 NZ) as A.
  eexists. split; [exact E|]. cbn [elements]. split; [exact NZ|].
  assert (Small : forall d, valid N d -> (val d < 2 ^ 64 <-> element_pos d = 0%nat)).
  { intros d Vd. split.
    - intros L. destruct (Nat.eq_dec (element_pos d) 0) as [|Q]; [assumption|exfalso]. pose proof (val_pos_lower N d Vd ltac:(lia)).
      pose proof (Wp_le 1 (element_pos d) ltac:(lia)) as L3. rewrite (Wp_S 0), Wp_0 in L3. lia.
    - intros Q. pose proof (val_pos_bound N d Vd) as L. rewrite Q, Wp_S, Wp_0 in L. lia. }
  rewrite (Small b Vb), (Small c Vc). split.
  - intros Rr. destruct (rep_zero _ _ _ Rr eq_refl) as [Q _]. cbn [element_pos] in Q. lia.
  - intros [Q1 Q2]. rewrite Q1, Q2. rewrite Q1, Q2 in G4. split; cbn [elements element_pos bit_pos]; try assumption; try lia.
    intros _. split; [reflexivity|]. cbn [Nat.add]. rewrite A by lia. reflexivity.
Qed.
