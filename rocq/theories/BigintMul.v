(** * The operations of tests/bigint.h: full products and decrements *)

From Coq Require Import ZArith List Lia Bool.
From Verif Require Import Machine Model Arith BigintModel BigSpec BigFacts Bigint BigintOps.
Open Scope Z_scope.

Lemma number_mod a n k : words a n -> (k <= n)%nat -> number a k = number a n mod Wp k.
Proof.
  intros Hw L. assert (G : exists q, number a n = number a k + q * Wp k).
  { induction n as [|n IH]; [exists 0; replace k with 0%nat by lia; ring|]. destruct (Nat.eq_dec k (S n)) as [->|Q]; [exists 0; ring|].
    destruct (IH (words_S _ _ Hw) ltac:(lia)) as [q E]. exists (q + a n * Wp (n - k)). rewrite number_S, E.
    replace (Wp n) with (Wp (n - k) * Wp k) by (rewrite <- Wp_add; f_equal; lia). ring. }
  destruct G as [q E]. apply (Z.mod_unique_pos _ _ q); [|rewrite E; ring]. apply number_bounds. apply (words_le a k n Hw L).
Qed.
Lemma element_mod a n i : words a n -> (i < n)%nat -> a i = number a n / Wp i mod W.
Proof.
  intros Hw L. pose proof (Wp_pos i) as P. pose proof (number_mod a n (S i) Hw L) as E1. pose proof (number_mod a n i Hw ltac:(lia)) as E2.
  rewrite number_S in E1. rewrite Wp_S, Z.rem_mul_r in E1 by lia. rewrite <- E2 in E1. nia.
Qed.
Lemma number_small a n k : words a n -> (k <= n)%nat -> number a n < Wp k -> forall i, (k <= i < n)%nat -> a i = 0.
Proof.
  intros Hw L F i Hi. rewrite (element_mod a n i Hw) by lia. pose proof (Wp_le k i ltac:(lia)). pose proof (number_bounds a n Hw).
  rewrite Z.div_small by lia. apply Z.mod_0_l. lia.
Qed.

Lemma calculate_single_ok cfg N x y r : valid N x -> 0 <= y < W -> (Wp (S (element_pos x)) <= val x * y -> (S (element_pos x) < N)%nat) ->
  exists r' p, calculate_single cfg N x y r = Ok (r', p) /\ words r' (S p) /\ number r' (S p) = val x * y /\
    ((p = S (element_pos x) /\ Wp (S (element_pos x)) <= val x * y) \/ (p = element_pos x /\ val x * y < Wp (S (element_pos x)))).
Proof.
  intros V Hy Hn. pose proof (v_pos _ _ V) as Pp. pose proof (v_words _ _ V) as Wx. unfold calculate_single.
  destruct (up_loop_inv (fun k st => multiplied N (elements x) y k st /\ words (fst st) k)
    (fun idx (st : (nat -> Z) * Z) => let '(r, mul_carry) := st in
          v <- sel N (elements x) idx ;;
          let mul := umul128 cfg v y in
          let s := wrap 64 (u128_low mul + mul_carry) in
          r <- upd N r idx s ;;
          Ok (r, wrap 64 (u128_high mul + (if s <? u128_low mul then 1 else 0)))) 0 (S (element_pos x)) (r, 0)) as ([a c] & E1 & (I1 & I2) & I3).
  - unfold multiplied. cbn [fst snd number]. rewrite Wp_0. split; [lia|]. intros i Hi. lia.
  - intros k [a c] Hk ((I1 & I2) & I3). cbn [fst snd] in *. rewrite sel_ok by lia. cbn [bind].
    pose proof (mul_once cfg (elements x k) y c (Wx k ltac:(lia)) Hy I2) as A. cbv zeta in A. destruct A as (A1 & A2 & A3).
    rewrite upd_ok by lia. cbn [bind]. eexists. split; [reflexivity|]. unfold multiplied. cbn [fst snd].
    split; [split|].
    + rewrite (number_S (put _ _ _)), put_same, number_put_above, number_S, Wp_S by lia.
      set (s := wrap 64 _) in *. set (c' := wrap 64 (u128_high _ + _)) in *. pose proof (Wp_pos k). replace (c' * (Wp k * W)) with ((c' * W) * Wp k) by ring. nia.
    + exact A3.
    + intros i Hi. unfold put. destruct (Nat.eqb_spec i k); [exact A2 | apply I3; lia].
  - cbn [bind fst snd] in *. rewrite E1. cbn [bind]. change (0 + S (element_pos x))%nat with (S (element_pos x)) in *. fold (val x) in I1.
    pose proof (number_bounds a _ I3) as Ba. pose proof (Wp_pos (S (element_pos x))).
    destruct (Z.eqb_spec c 0) as [C|C]; cbn [negb].
    + subst c. exists a, (element_pos x). repeat apply conj; try assumption; try reflexivity; [lia|]. right. split; [reflexivity | lia].
    + assert (G : Wp (S (element_pos x)) <= val x * y) by nia. rewrite upd_ok by (apply Hn; exact G). cbn [bind].
      eexists. exists (S (element_pos x)). split; [reflexivity|]. repeat apply conj.
      * intros i Hi. unfold put. destruct (Nat.eqb_spec i (S (element_pos x))); [lia | apply I3; lia].
      * rewrite number_S, put_same, number_put_above by lia. lia.
      * left. split; [reflexivity | exact G].
Qed.

Lemma add_twice' v w c : 0 <= v < W -> 0 <= w < W -> 0 <= c <= 1 ->
  let wc := wrap 64 (w + c) in let s := wrap 64 (v + wc) in
  let c' := Z.lor (if wc <? w then 1 else 0) (if s <? wc then 1 else 0) in s + c' * W = v + w + c /\ 0 <= s < W /\ 0 <= c' <= 1.
Proof.
  intros Hv Hw Hc. cbv zeta. pose proof (add_once c w ltac:(lia) Hw) as A. cbv zeta in A. rewrite (Z.add_comm c w) in A.
  set (wc := wrap 64 (w + c)) in *. destruct A as (A1 & A2 & A3).
  pose proof (add_once v wc Hv A2) as B. cbv zeta in B. set (s := wrap 64 (v + wc)) in *. destruct B as (B1 & B2 & B3).
  destruct (wc <? w) eqn:E1, (s <? wc) eqn:E2; cbn [Z.lor Pos.lor]; lia.
Qed.

Lemma accumulate_ok N R t p i : (i + p < N)%nat -> words R N -> words t (S p) ->
  exists R' c, (v <- sel N R i ;; t0 <- sel N t 0 ;;
     let s := wrap 64 (v + t0) in
     R <- upd N R i s ;;
     up_loop (fun j (rc : (nat -> Z) * Z) => let '(result, add_carry) := rc in
                  t <- sel N t j ;;
                  let with_carry := wrap 64 (t + add_carry) in
                  let first_carry := if with_carry <? t then 1 else 0 in
                  v <- sel N result (i + j) ;;
                  let s := wrap 64 (v + with_carry) in
                  result <- upd N result (i + j) s ;;
                  Ok (result, Z.lor first_carry (if s <? with_carry then 1 else 0)))
                1 p (R, if s <? t0 then 1 else 0)) = Ok (R', c) /\
    words R' N /\ 0 <= c <= 1 /\ number R' (i + S p) + c * Wp (i + S p) = number R (i + S p) + Wp i * number t (S p) /\
    (forall k, (i + S p <= k)%nat -> R' k = R k).
Proof.
  intros HN HR Ht. rewrite !sel_ok by lia. cbn [bind]. rewrite upd_ok by lia. cbn [bind].
  pose proof (add_once (R i) (t 0%nat) (HR i ltac:(lia)) (Ht 0%nat ltac:(lia))) as A. cbv zeta in A. set (s := wrap 64 (R i + t 0%nat)) in *. destruct A as (A1 & A2 & A3).
  destruct (up_loop_inv (fun j rc => number (fst rc) (i + j) + snd rc * Wp (i + j) = number R (i + j) + Wp i * number t j /\
      0 <= snd rc <= 1 /\ words (fst rc) N /\ forall k, (i + j <= k)%nat -> fst rc k = R k)
    (fun j (rc : (nat -> Z) * Z) => let '(result, add_carry) := rc in
                  t <- sel N t j ;;
                  let with_carry := wrap 64 (t + add_carry) in
                  let first_carry := if with_carry <? t then 1 else 0 in
                  v <- sel N result (i + j) ;;
                  let s := wrap 64 (v + with_carry) in
                  result <- upd N result (i + j) s ;;
                  Ok (result, Z.lor first_carry (if s <? with_carry then 1 else 0))) 1 p (put R i s, if s <? t 0%nat then 1 else 0)) as ([R' c] & E & I1 & I2 & I3 & I4).
  - cbn [fst snd]. replace (i + 1)%nat with (S i) by lia. repeat apply conj; try lia.
    + rewrite !number_S, put_same, number_put_above, Wp_S, Wp_0 by lia. cbn [number]. pose proof (Wp_pos i). set (c := if s <? t 0%nat then 1 else 0) in *.
      replace (c * (Wp i * W)) with ((c * W) * Wp i) by ring. nia.
    + apply words_put; assumption.
    + intros k Hk. apply put_other. lia.
  - intros j [a c] Hj (I1 & I2 & I3 & I4). cbn [fst snd] in *. rewrite !sel_ok by lia. cbn [bind].
    pose proof (add_twice' (a (i + j)%nat) (t j) c (I3 (i + j)%nat ltac:(lia)) (Ht j ltac:(lia)) I2) as B. cbv zeta in B. destruct B as (B1 & B2 & B3).
    rewrite upd_ok by lia. cbn [bind]. eexists. split; [reflexivity|]. cbn [fst snd]. rewrite (I4 (i + j)%nat) in * by lia.
    replace (i + S j)%nat with (S (i + j)) by lia. repeat apply conj; try lia.
    + rewrite (number_S (put _ _ _)), put_same, number_put_above, !number_S, Wp_S, !Wp_add by lia. rewrite !Wp_add in I1.
      set (s' := wrap 64 (R (i + j)%nat + _)) in *. set (c' := Z.lor _ _) in *. pose proof (Wp_pos i). pose proof (Wp_pos j).
      replace (c' * (Wp i * Wp j * W)) with ((c' * W) * (Wp i * Wp j)) by ring. set (q := Wp i * Wp j) in *.
      replace (Wp i * (number t j + t j * Wp j)) with (Wp i * number t j + t j * q) by (unfold q; ring). nia.
    + apply words_put; assumption.
    + intros k Hk. rewrite put_other by lia. apply I4. lia.
  - cbn [bind fst snd] in *. exists R', c. rewrite E. replace (i + (1 + p))%nat with (i + S p)%nat in * by lia. repeat apply conj; try reflexivity; try lia; assumption.
Qed.

(** a row of the product that ends in the top element of the sum, although the sum needs one more element *)
Definition lost_row (x y : Z) (s i : nat) : Prop :=
  x * (y / Wp i mod W) < Wp s /\ Wp (s + i) <= x * (y mod Wp (S i)).

Lemma up_loop_or {A} (P : nat -> A -> Prop) (F : nat -> Prop) body i n s : P i s ->
  (forall j s, (i <= j < i + n)%nat -> P j s -> (exists s', body j s = Ok s' /\ P (S j) s') \/ (F j /\ body j s = AssertFailed)) ->
  (exists s', up_loop body i n s = Ok s' /\ P (i + n)%nat s') \/ (exists j, (i <= j < i + n)%nat /\ F j /\ up_loop body i n s = AssertFailed).
Proof.
  revert i s. induction n as [|n IH]; intros i s H0 Hs.
  - left. exists s. rewrite Nat.add_0_r. split; [reflexivity | exact H0].
  - destruct (Hs i s ltac:(lia) H0) as [(s' & E & H1)|[Fi E]]; cbn [up_loop]; rewrite E; cbn [bind].
    + destruct (IH (S i) s' H1) as [(s2 & E2 & H2)|(j & Hj & Fj & E2)]; [intros j t Hj; apply Hs; lia | left | right].
      * exists s2. split; [exact E2|]. replace (i + S n)%nat with (S i + n)%nat by lia. exact H2.
      * exists j. repeat apply conj; try lia; assumption.
    + right. exists i. repeat apply conj; try lia; try assumption. reflexivity.
Qed.

Lemma big_mul_valid cfg N jt jr x y : valid N x -> valid N y -> 0 < val x -> 0 < val y -> val x * val y < Wp N ->
  (cfg_ndebug cfg = false \/ forall i, (1 <= i)%nat -> ~ lost_row (val x) (val y) (S (element_pos x)) i) ->
  (exists b, big_mul cfg N jt jr x y = Ok b /\ valid N b /\ val b = val x * val y /\
     forall i, (1 <= i)%nat -> ~ lost_row (val x) (val y) (S (element_pos x)) i) \/
  (exists i, (1 <= i)%nat /\ lost_row (val x) (val y) (S (element_pos x)) i /\ big_mul cfg N jt jr x y = AssertFailed).
Proof.
  intros Vx Vy Px Py F Hc. pose proof (v_pos _ _ Vx) as Lx. pose proof (v_pos _ _ Vy) as Ly.
  pose proof (v_words _ _ Vx) as Wx. pose proof (v_words _ _ Vy) as Wy.
  set (px := element_pos x) in *. set (py := element_pos y) in *. set (X := val x) in *. set (Y := val y) in *.
  assert (Xlo : Wp px <= X) by (destruct (Nat.eq_dec px 0) as [->|]; [rewrite Wp_0; lia | apply (val_pos_lower N x Vx); fold px; lia]).
  assert (Ylo : Wp py <= Y) by (destruct (Nat.eq_dec py 0) as [->|]; [rewrite Wp_0; lia | apply (val_pos_lower N y Vy); fold py; lia]).
  assert (Xhi : X < Wp (S px)) by apply (val_pos_bound N x Vx).
  assert (PN : (px + py < N)%nat).
  { apply Wp_lt_inv. rewrite Wp_add. pose proof (Wp_pos px). pose proof (Wp_pos py). nia. }
  assert (YN : number (elements y) N = Y) by apply (val_number N y Vy).
  assert (Ym : forall k, (k <= N)%nat -> number (elements y) k = Y mod Wp k) by (intros k Hk; rewrite <- YN; apply number_mod; assumption).
  assert (Yi : forall k, (k < N)%nat -> elements y k = Y / Wp k mod W) by (intros k Hk; rewrite <- YN; apply element_mod; assumption).
  assert (Yb : forall k, (k <= N)%nat -> 0 <= number (elements y) k <= Y).
  { intros k Hk. split; [apply number_bounds; apply (words_le _ _ N Wy Hk)|]. rewrite <- YN. apply number_mono; assumption. }
  (* the top row fits in the array when it needs another element *)
  assert (Row : forall i, (i < N)%nat -> Wp (S px) <= X * elements y i -> (i + S px < N)%nat).
  { intros i Hi G. apply Wp_lt_inv. rewrite Wp_add. pose proof (Wp_pos i). pose proof (Yb (S i) ltac:(lia)) as B. rewrite number_S in B.
    pose proof (Yb i ltac:(lia)). assert (X * (elements y i * Wp i) <= X * Y) by (apply Z.mul_le_mono_nonneg_l; lia). nia. }
  unfold big_mul. fold px py. rewrite cassert_ok by (apply Nat.ltb_lt; lia). cbn [bind]. rewrite sel_ok by lia. cbn [bind].
  destruct (calculate_single_ok cfg N x (elements y 0%nat) jr Vx (Wy 0%nat ltac:(lia))) as (r0 & p0 & E0 & W0 & N0 & S0).
  { intros G. pose proof (Row 0%nat ltac:(lia) G). fold px. lia. }
  rewrite E0. cbn [bind]. fold px X in N0, S0.
  assert (P0 : (p0 < N)%nat) by (destruct S0 as [[-> G]|[-> G]]; [pose proof (Row 0%nat ltac:(lia) G); lia | lia]).
  destruct (fill_zero_ok N r0 (S p0) (N - S p0) ltac:(lia)) as (R0 & ER & HR). rewrite ER. cbn [bind].
  assert (HR1 : forall i, (i <= p0)%nat -> R0 i = r0 i) by (intros i Hi; rewrite HR; destruct (Nat.leb_spec (S p0) i); cbn [andb]; [lia | reflexivity]).
  assert (HR2 : forall i, (p0 < i < N)%nat -> R0 i = 0).
  { intros i Hi. rewrite HR. destruct (Nat.leb_spec (S p0) i), (Nat.ltb_spec i (S p0 + (N - S p0))); cbn [andb]; lia. }
  assert (WR : words R0 N) by (intros i Hi; destruct (Nat.le_gt_cases i p0); [rewrite HR1 by lia; apply W0; lia | rewrite HR2 by lia; lia]).
  assert (NR : number R0 N = X * elements y 0%nat).
  { rewrite (number_zero R0 (S p0) N) by (try lia; intros i Hi; apply HR2; lia). rewrite (number_ext R0 r0) by (intros i Hi; apply HR1; lia). exact N0. }
  (* what the last row said *)
  set (single_ok := fun (i p : nat) => (p = S px /\ Wp (S px) <= X * elements y (i - 1)%nat) \/ (p = px /\ X * number (elements y) i < Wp (S px + (i - 1)))).
  match goal with |- (exists b, bind (up_loop ?body _ _ _) _ = _ /\ _) \/ _ =>
    destruct (up_loop_or (fun i (st : (nat -> Z) * (nat -> Z) * nat) => let '(R, _, p) := st in
        words R N /\ number R N = X * number (elements y) i /\ single_ok i p /\ forall k, (1 <= k < i)%nat -> ~ lost_row X Y (S px) k)
      (fun i => lost_row X Y (S px) i) body 1 py (R0, jt, p0)) as [([[R t] p] & E & (I1 & I2 & I3 & I4))|(i & Hi & Fi & E)] end.
  - repeat apply conj; try assumption.
    + rewrite NR, number_S, Wp_0. cbn [number]. ring.
    + unfold single_ok. cbn [Nat.sub]. rewrite number_S, Wp_0, Nat.add_0_r. cbn [number]. rewrite Z.add_0_l, Z.mul_1_r. exact S0.
    + intros k Hk. lia.
  - intros i [[R t] p] Hi (I1 & I2 & _ & I4). rewrite sel_ok by lia. cbn [bind].
    destruct (calculate_single_ok cfg N x (elements y i) t Vx (Wy i ltac:(lia))) as (t' & q & Eq & Wq & Nq & Sq).
    { intros G. pose proof (Row i ltac:(lia) G). fold px. lia. }
    rewrite Eq. cbn [bind]. fold px X in Nq, Sq.
    assert (Lq : (i + q < N)%nat) by (destruct Sq as [[-> G]|[-> G]]; [apply Row; [lia | exact G] | lia]).
    destruct (accumulate_ok N R t' q i Lq I1 Wq) as (R' & c & Ea & Wa & Ca & Na & Ka).
    assert (T : X * number (elements y) (S i) = X * number (elements y) i + Wp i * number t' (S q)) by (rewrite number_S, Nq; ring).
    assert (B1 : X * number (elements y) i < Wp (i + S q)).
    { pose proof (number_bounds (elements y) i ltac:(apply (words_le _ _ N Wy); lia)) as B. rewrite Wp_add. pose proof (Wp_le (S px) (S q) ltac:(lia)). pose proof (Wp_pos i). nia. }
    assert (RZ : number R (i + S q) = X * number (elements y) i).
    { rewrite <- I2. symmetry. apply number_zero; [lia|]. apply number_small; [exact I1 | lia | lia]. }
    assert (KZ : forall k, (i + S q <= k < N)%nat -> R' k = 0).
    { intros k Hk. rewrite Ka by lia. apply (number_small R N (i + S q)); [exact I1 | lia | lia | exact Hk]. }
    cbv zeta in Ea. rewrite RZ, <- T in Na.
    pose proof (number_bounds R' (i + S q) ltac:(apply (words_le R' _ N Wa); lia)) as BR.
    (* the carry leaves the row exactly when the row is lost *)
    assert (CZ : c = 0 \/ (c = 1 /\ lost_row X Y (S px) i)).
    { destruct (Z.eq_dec c 0) as [|Q]; [left; assumption|right]. assert (c = 1) by lia. subst c. split; [reflexivity|].
      assert (G : Wp (i + S q) <= X * number (elements y) (S i)) by lia.
      destruct Sq as [[-> G2]|[-> G2]].
      - exfalso. pose proof (number_bounds (elements y) (S i) ltac:(apply (words_le _ _ N Wy); lia)) as B.
        replace (i + S (S px))%nat with (S i + S px)%nat in G by lia. rewrite Wp_add in G. pose proof (Wp_pos (S i)). nia.
      - split; [rewrite <- Yi by lia; exact G2|]. rewrite <- Ym by lia. replace (S px + i)%nat with (i + S px)%nat by lia. exact G. }
    match goal with |- context [bind ?e _] => idtac end.
    repeat rewrite sel_ok in Ea by lia. cbn [bind] in Ea. rewrite upd_ok in Ea by lia. cbn [bind] in Ea.
    rewrite !sel_ok by lia. cbn [bind]. rewrite upd_ok by lia. cbn [bind]. rewrite Ea. cbn [bind].
    destruct CZ as [->|[-> Lr]].
    + left. rewrite cassert_ok by reflexivity. cbn [bind]. eexists. split; [reflexivity|]. split; [exact Wa|].
      rewrite Z.mul_0_l, Z.add_0_r in Na. split.
      * rewrite (number_zero R' (i + S q) N) by (try lia; exact KZ). exact Na.
      * split; [|intros k Hk; destruct (Nat.eq_dec k i) as [->|]; [|apply I4; lia]; intros [G1 G2]; rewrite <- Yi in G1 by lia; rewrite <- Ym in G2 by lia;
          destruct Sq as [[-> G]|[-> G]]; [lia|]; replace (i + S px)%nat with (S px + i)%nat in * by lia; lia].
        unfold single_ok. replace (S i - 1)%nat with i by lia. destruct Sq as [[-> G]|[-> G]]; [left; split; [reflexivity | exact G] | right].
        split; [reflexivity|]. replace (S px + i)%nat with (i + S px)%nat by lia. lia.
    + destruct Hc as [Hd|Hd]; [|exfalso; apply (Hd i); [lia | exact Lr]]. right. split; [exact Lr|].
      unfold cassert. rewrite Hd. reflexivity.
  - left. rewrite E. cbn [bind]. change (1 + py)%nat with (S py) in *.
    assert (EY : number (elements y) (S py) = Y) by reflexivity. rewrite EY in I2.
    assert (Lp : (py + p < N)%nat /\ X * Y < Wp (S (py + p)) /\ Wp (py + p) <= X * Y).
    { unfold single_ok in I3. replace (S py - 1)%nat with py in I3 by lia. rewrite EY in I3. destruct I3 as [[-> G]|[-> G]].
      - pose proof (Row py ltac:(lia) G). split; [lia|]. split.
        + replace (S (py + S px)) with (S py + S px)%nat by lia. rewrite Wp_add. pose proof (val_pos_bound N y Vy) as B. fold py Y in B. pose proof (Wp_pos (S py)). nia.
        + rewrite Wp_add. pose proof (Wp_pos py). pose proof (Yb py ltac:(lia)). unfold Y, val. fold py. rewrite number_S. nia.
      - split; [lia|]. split; [replace (S (py + px)) with (S px + py)%nat by lia; exact G|]. rewrite Wp_add. pose proof (Wp_pos px). pose proof (Wp_pos py). nia. }
    destruct Lp as (L1 & L2 & L3). rewrite sel_ok by exact L1. cbn [bind]. eexists. split; [reflexivity|].
    assert (I5 : forall i, (1 <= i)%nat -> ~ lost_row X Y (S px) i).
    { intros i Hi. destruct (le_gt_dec i py) as [Q|Q]; [apply I4; lia|]. intros [_ G].
      pose proof (val_pos_bound N y Vy) as B. fold py Y in B. pose proof (Wp_le (S py) i ltac:(lia)) as L. pose proof (Wp_le (S py) (S i) ltac:(lia)) as L'.
      rewrite Z.mod_small in G by lia. rewrite Wp_add in G. pose proof (Wp_pos (S px)). nia. }
    assert (Z1 : forall i, (py + p < i < N)%nat -> R i = 0) by (intros i Hi; apply (number_small R N (S (py + p))); [exact I1 | lia | lia | lia]).
    assert (M : valid N (mk_big R (py + p) (log2p1 (R (py + p)%nat))) /\ val (mk_big R (py + p) (log2p1 (R (py + p)%nat))) = X * Y).
    { apply valid_make_top; try assumption; [|right; exact L3]. rewrite <- I2. symmetry. apply number_zero; [lia|]. intros i Hi. apply Z1. lia. }
    split; [apply M|]. split; [apply M | exact I5].
  - right. exists i. split; [lia|]. split; [exact Fi|]. rewrite E. reflexivity.
Qed.

(** ** Minus one *)
Lemma dec_borrow_ok cfg N p j fuel a i : words a N -> (i <= j)%nat -> (j <= p)%nat -> (p < N)%nat -> a j <> 0 -> (forall k, (i <= k < j)%nat -> a k = 0) -> (j - i < fuel)%nat ->
  exists a', dec_borrow cfg N p fuel a i = Ok (a', j) /\ words a' N /\ number a' N = number a N - Wp i /\ a' j = a j - 1 /\ (forall k, (k < i)%nat \/ (j < k)%nat -> a' k = a k).
Proof.
  revert a i. induction fuel as [|fuel IH]; intros a i Hw Hj Hp HN Nz Hz Hf; [lia|]. cbn [dec_borrow]. rewrite sel_ok by lia. cbn [bind].
  destruct (Nat.eq_dec i j) as [->|Q].
  - apply Z.eqb_neq in Nz as Nz'. rewrite Nz'. rewrite upd_ok by lia. cbn [bind]. pose proof (Hw j ltac:(lia)). rewrite wrap_small by lia.
    eexists. split; [reflexivity|]. repeat apply conj.
    + apply words_put; [exact Hw | lia].
    + rewrite number_put by lia. ring.
    + apply put_same.
    + intros k Hk. apply put_other. lia.
  - assert (E : a i = 0) by (apply Hz; lia). rewrite E, Z.eqb_refl. rewrite upd_ok by lia. cbn [bind]. rewrite cassert_ok by (apply Nat.leb_le; lia). cbn [bind].
    destruct (IH (put a i (2 ^ 64 - 1)) (S i)) as (a' & E' & W' & N' & J' & R'); try lia.
    + apply words_put; [exact Hw | lia].
    + rewrite put_other by lia. exact Nz.
    + intros k Hk. rewrite put_other by lia. apply Hz. lia.
    + exists a'. split; [exact E'|]. split; [exact W'|]. split; [rewrite N', number_put, E, Wp_S by lia; ring|].
      split; [rewrite J'; rewrite put_other by lia; reflexivity|]. intros k Hk. rewrite R' by lia. apply put_other. lia.
Qed.
Lemma lowest_nonzero a n : number a n <> 0 -> exists j, (j < n)%nat /\ a j <> 0 /\ forall k, (k < j)%nat -> a k = 0.
Proof.
  induction n as [|n IH]; intros H; [cbn in H; lia|]. destruct (Z.eq_dec (number a n) 0) as [E|E].
  - destruct (Z.eq_dec (a n) 0) as [Q|Q]; [exfalso; apply H; rewrite number_S, E, Q; ring|].
    (* the lowest nonzero element of a list whose first n vanish, or an earlier one *)
    assert (D : forall m, (m <= n)%nat -> (forall k, (k < m)%nat -> a k = 0) \/ exists j, (j < m)%nat /\ a j <> 0 /\ forall k, (k < j)%nat -> a k = 0).
    { induction m as [|m IHm]; intros Hm; [left; intros; lia|]. destruct (IHm ltac:(lia)) as [G|(j & G1 & G2 & G3)].
      - destruct (Z.eq_dec (a m) 0) as [M|M].
        + left. intros k Hk. destruct (Nat.eq_dec k m) as [->|]; [exact M | apply G; lia].
        + right. exists m. repeat apply conj; [lia | exact M | exact G].
      - right. exists j. repeat apply conj; [lia | exact G2 | exact G3]. }
    destruct (D n (le_n n)) as [G|(j & G1 & G2 & G3)].
    + exists n. repeat apply conj; [lia | exact Q | exact G].
    + exists j. repeat apply conj; [lia | exact G2 | exact G3].
  - destruct (IH E) as (j & H1 & H2 & H3). exists j. repeat apply conj; [lia | exact H2 | exact H3].
Qed.

(** the elements are always those of the number minus one; the position of the leading bit is right for
    numbers of one element *)
Lemma decrement_elements cfg N b : valid N b -> 0 < val b ->
  exists b', decrement cfg N b = Ok b' /\ words (elements b') N /\ number (elements b') N = val b - 1 /\
    (val b < W -> valid N b' /\ val b' = val b - 1).
Proof.
  intros V P. pose proof (v_pos _ _ V) as Pp. pose proof (v_words _ _ V) as Wb.
  destruct (lowest_nonzero (elements b) (S (element_pos b)) ltac:(fold (val b); lia)) as (j & Hj & Nz & Hz).
  destruct (dec_borrow_ok cfg N (element_pos b) j (S N) (elements b) 0 Wb ltac:(lia) ltac:(lia) Pp Nz ltac:(intros k Hk; apply Hz; lia) ltac:(lia))
    as (a & E & Wa & Na & Ja & Ra).
  unfold decrement. rewrite E. cbn [bind]. rewrite sel_ok by lia. cbn [bind].
  rewrite (val_number N b V), Wp_0 in Na.
  assert (Sm : val b < W -> element_pos b = 0%nat /\ j = 0%nat).
  { intros L. assert (element_pos b = 0)%nat; [|lia]. destruct (Nat.eq_dec (element_pos b) 0) as [|Q]; [assumption|exfalso].
    pose proof (val_pos_lower N b V ltac:(lia)). pose proof (Wp_le 1 (element_pos b) ltac:(lia)). rewrite Wp_S, Wp_0 in *. lia. }
  assert (Fin : val b < W -> forall bp, bp = nbits (a 0%nat) -> valid N (mk_big a (element_pos b) bp) /\ val (mk_big a (element_pos b) bp) = val b - 1).
  { intros L bp ->. destruct (Sm L) as [E0 _]. rewrite E0.
    assert (Za : forall i, (0 < i < N)%nat -> a i = 0) by (intros i Hi; apply (number_small a N 1); [exact Wa | lia | rewrite Wp_S, Wp_0; lia | lia]).
    rewrite <- (log2p1_ok (a 0%nat)) by (apply Wa; lia). apply valid_make_top; try assumption; [lia | | left; reflexivity].
    rewrite <- Na. symmetry. apply number_zero; [lia|]. intros i Hi. apply Za. lia. }
  destruct (Z.eqb_spec (a j) 0) as [Q|Q].
  - destruct (Nat.eqb_spec j 0) as [->|J].
    + eexists. split; [reflexivity|]. split; [exact Wa|]. split; [exact Na|]. intros L. apply Fin; [exact L | rewrite Q; reflexivity].
    + eexists. split; [reflexivity|]. split; [exact Wa|]. split; [exact Na|]. intros L. destruct (Sm L) as [_ ?]. contradiction.
  - eexists. split; [reflexivity|]. split; [exact Wa|]. split; [exact Na|]. intros L. destruct (Sm L) as [_ ->].
    apply Fin; [exact L|]. apply log2p1_ok. apply Wa. lia.
Qed.
