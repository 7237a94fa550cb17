(** * Extreme residues from certificates

    [extremes] decides from two multipliers, or by following the algorithm, which residues minmax_euclid
    returns; [extremes_ok] relates its answer to [least] and [greatest] and to the model. *)

From Coq Require Import ZArith Znumtheory List Bool Lia.
From Verif Require Import Machine Model Arith BigintModel BigSpec BigFacts Bigint BigintOps BigintMul BigClaims DivModel Division EuclidModel EuclidSpec EuclidNum Euclid DivClaims LengthCerts.
Import ListNotations.
Open Scope Z_scope.

(** ** Two multipliers s and u of the residues m and b - d, with s + u > N *)
Record pair (a b N s u t w m d : Z) : Prop := {
  pr_s : 1 <= s <= N; pr_u : 1 <= u <= N; pr_sum : N < s + u; pr_det : s * w - u * t = 1;
  pr_m : m = s * a - t * b; pr_d : d = w * b - u * a; pr_m0 : 0 < m; pr_d0 : 0 < d
}.
Lemma pair_b a b N s u t w m d : pair a b N s u t w m d -> d * s + m * u = b.
Proof. intros P. rewrite (pr_m _ _ _ _ _ _ _ _ _ P), (pr_d _ _ _ _ _ _ _ _ _ P). pose proof (pr_det _ _ _ _ _ _ _ _ _ P) as D.
  transitivity ((s * w - u * t) * b); [ring | rewrite D; ring].
Qed.
Lemma pair_above a b N s u t w m d : pair a b N s u t w m d -> N < b /\ d <= b /\ m < b /\ d < b.
Proof.
  intros P. pose proof (pair_b _ _ _ _ _ _ _ _ _ P). pose proof (pr_s _ _ _ _ _ _ _ _ _ P). pose proof (pr_u _ _ _ _ _ _ _ _ _ P).
  pose proof (pr_sum _ _ _ _ _ _ _ _ _ P). pose proof (pr_m0 _ _ _ _ _ _ _ _ _ P). pose proof (pr_d0 _ _ _ _ _ _ _ _ _ P). nia.
Qed.
Lemma pair_state a b N s u t w m d : pair a b N s u t w m d -> state a b N m d s u.
Proof.
  intros P. pose proof (pair_b _ _ _ _ _ _ _ _ _ P) as D. destruct (pair_above _ _ _ _ _ _ _ _ _ P) as (_ & L & Lm & _).
  destruct P as [Hs Hu _ _ Em Ed M0 D0]. split; try lia; [exists t; lia | exists w; lia].
Qed.
Lemma pair_extremes a b N s u t w m d : pair a b N s u t w m d ->
  residue a b s = m /\ residue a b u = b - d /\ least a b N m /\ greatest a b N (b - d).
Proof.
  intros P. pose proof (pair_state _ _ _ _ _ _ _ _ _ P) as S. destruct (pair_above _ _ _ _ _ _ _ _ _ P) as (L & Ld & Lm & Ld').
  destruct P as [Hs Hu Hsum Hdet Em Ed M0 D0].
  assert (R1 : residue a b s = m) by (apply (residue_unique _ _ _ _ t); lia).
  assert (R2 : residue a b u = b - d) by (apply (residue_unique _ _ _ _ (w - 1)); lia).
  split; [exact R1|]. split; [exact R2|]. split; split; [exists s; split; [lia | exact R1] | | exists u; split; [lia | exact R2] |].
  - intros n Hn. pose proof (residue_bounds a b n ltac:(lia)) as R. destruct (residue_lattice _ _ _ _ _ _ _ n S) as (x & z & Hx & Hy). rewrite Hy in R |- *.
    destruct (Z_le_gt_dec x 0) as [X|X]; [exfalso; destruct (Z_le_gt_dec z 0); nia|].
    destruct (Z_le_gt_dec z 0) as [Y|Y]; nia.
  - intros n Hn. pose proof (residue_bounds a b n ltac:(lia)) as R. destruct (minus_lattice _ _ _ _ _ _ _ n S) as (x & z & Hx & Hy).
    assert (D : 0 < z * d - x * m <= b) by lia. enough (d <= z * d - x * m) by lia.
    destruct (Z_le_gt_dec z 0) as [Y|Y]; [exfalso; destruct (Z_le_gt_dec x 0); nia|].
    destruct (Z_le_gt_dec x 0) as [X|X]; nia.
Qed.

(** ** Factors that make big_mul lose a carry *)
Fixpoint words_of (fuel : nat) (y : Z) : list Z :=
  match fuel with
  | O => []
  | S fuel' => if y =? 0 then [] else Z.land y 0xffffffffffffffff :: words_of fuel' (Z.shiftr y 64)
  end.
Lemma words_of_in fuel y i : 0 <= y < 2 ^ (64 * Z.of_nat fuel) -> 0 <= i -> y / 2 ^ (64 * i) mod 2 ^ 64 <> 0 ->
  In (y / 2 ^ (64 * i) mod 2 ^ 64) (words_of fuel y).
Proof.
  revert y i. induction fuel as [|fuel IH]; intros y i Y Hi Z0.
  { exfalso. apply Z0. change (2 ^ (64 * Z.of_nat 0)) with 1 in Y. replace y with 0 by lia. rewrite Z.div_0_l by (apply Z.pow_nonzero; lia). apply Z.mod_0_l. lia. }
  cbn [words_of]. destruct (Z.eqb_spec y 0) as [->|Yz].
  { exfalso. apply Z0. rewrite Z.div_0_l by (apply Z.pow_nonzero; lia). apply Z.mod_0_l. lia. }
  change 0xffffffffffffffff with (Z.ones 64). rewrite Z.land_ones, Z.shiftr_div_pow2 by lia.
  destruct (Z.eq_dec i 0) as [->|Hi0].
  - left. change (64 * 0) with 0. rewrite Z.pow_0_r, Z.div_1_r. reflexivity.
  - right. assert (E : y / 2 ^ (64 * i) = y / 2 ^ 64 / 2 ^ (64 * (i - 1))).
    { rewrite Z.div_div by (try apply Z.pow_pos_nonneg; lia). rewrite <- Z.pow_add_r by lia. f_equal. f_equal. lia. }
    rewrite E in Z0 |- *. apply IH; [|lia|exact Z0]. split; [apply Z.div_pos; lia|]. apply Z.div_lt_upper_bound; [lia|].
    rewrite <- Z.pow_add_r by lia. replace (64 + 64 * Z.of_nat fuel) with (64 * Z.of_nat (S fuel)) by lia. lia.
Qed.

(** [l] is 2^64/k, 2^64/(k+1), ...; for every such k with sum = k s up to u, the quotient is not among [ws] *)
Fixpoint avoids (l : list Z) (ws : list Z) (s u sum : Z) : bool :=
  if u <? sum then true else
  match l with
  | [] => false
  | v :: l' => forallb (fun w => negb (w =? v)) ws && avoids l' ws s u (sum + s)
  end.
Fixpoint quotients (l : list Z) (k : Z) : bool :=
  match l with
  | [] => true
  | v :: l' => (v * k <=? 2 ^ 64) && (2 ^ 64 <? (v + 1) * k) && quotients l' (k + 1)
  end.
Lemma parts_ok : quotients parts 1 = true.
Proof. vm_cast_no_check (eq_refl true). Qed.

Lemma lost_word k y : 0 < k < 2 ^ 64 -> 0 <= y -> carry_lost k y ->
  exists i, 0 <= i /\ let w := y / 2 ^ (64 * i) mod 2 ^ 64 in w <> 0 /\ k * w < 2 ^ 64 /\ 2 ^ 64 < k * (w + 1).
Proof.
  intros K Y (i & Hi & A & B). exists i. split; [lia|]. cbv zeta.
  assert (Sz : size k = 1).
  { unfold size. rewrite Z.div_small; [reflexivity|]. split; [apply Z.log2_nonneg | apply Z.log2_lt_pow2; lia]. }
  rewrite Sz, Z.mul_1_r in A. rewrite Sz in B. set (w := y / 2 ^ (64 * i) mod 2 ^ 64) in *.
  assert (P : 0 < 2 ^ (64 * i)) by (apply Z.pow_pos_nonneg; lia).
  assert (E : y mod 2 ^ (64 * (i + 1)) = y mod 2 ^ (64 * i) + 2 ^ (64 * i) * w).
  { replace (64 * (i + 1)) with (64 * i + 64) by lia. rewrite Z.pow_add_r by lia. apply Z.rem_mul_r; lia. }
  rewrite E in B. replace (64 * (1 + i)) with (64 + 64 * i) in B by lia. rewrite Z.pow_add_r in B by lia.
  pose proof (Z.mod_pos_bound y (2 ^ (64 * i)) P) as L. assert (W0 : 0 <= w) by (apply Z.mod_pos_bound; lia).
  assert (H : 2 ^ 64 < k * (w + 1)).
  { apply (Z.mul_lt_mono_pos_r (2 ^ (64 * i))); [exact P|]. eapply Z.le_lt_trans; [exact B|]. replace (k * (w + 1) * 2 ^ (64 * i)) with (k * (2 ^ (64 * i) + 2 ^ (64 * i) * w)) by ring.
    apply Z.mul_lt_mono_pos_l; lia. }
  split; [|split; assumption]. intros E0. rewrite E0 in H. lia.
Qed.

Lemma avoids_ok fuel y s u : 0 < s -> 0 <= y < 2 ^ (64 * Z.of_nat fuel) -> forall l k0 k, quotients l k0 = true -> avoids l (words_of fuel y) s u (k0 * s) = true ->
  0 < k0 <= k -> k < 2 ^ 64 -> k * s <= u -> ~ carry_lost k y.
Proof.
  intros Hs Y. induction l as [|v l IH]; intros k0 k Q A K0 K Ku; cbn [avoids] in A.
  { destruct (Z.ltb_spec u (k0 * s)); [nia | discriminate]. }
  destruct (Z.ltb_spec u (k0 * s)); [nia|]. apply andb_prop in A. destruct A as [A1 A2]. cbn [quotients] in Q. apply andb_prop in Q. destruct Q as [Q Q3].
  apply andb_prop in Q. destruct Q as [Q1 Q2]. apply Z.leb_le in Q1. apply Z.ltb_lt in Q2.
  destruct (Z.eq_dec k k0) as [->|Kn].
  - intros C. destruct (lost_word k0 y ltac:(lia) ltac:(lia) C) as (i & Hi & W0 & W1 & W2).
    pose proof (words_of_in fuel y i Y Hi W0) as I. rewrite forallb_forall in A1. specialize (A1 _ I). apply negb_true_iff, Z.eqb_neq in A1. apply A1. nia.
  - apply (IH (k0 + 1)); try lia; [exact Q3|]. replace ((k0 + 1) * s) with (k0 * s + s) by ring. exact A2.
Qed.
(** for every factor k with k s <= u *)
Definition no_carry (s u y : Z) : bool := (0 <=? y) && (y <? 2 ^ 1024) && avoids parts (words_of 16 y) s u s.
Lemma no_carry_ok s u y k : 0 < s -> no_carry s u y = true -> 0 < k < 2 ^ 64 -> k * s <= u -> ~ carry_lost k y.
Proof.
  intros Hs H K Ku. unfold no_carry in H. apply andb_prop in H. destruct H as [H A]. apply andb_prop in H. destruct H as [H1 H2]. apply Z.leb_le in H1. apply Z.ltb_lt in H2.
  apply (avoids_ok 16 y s u Hs (conj H1 H2) parts 1 k parts_ok); try lia. rewrite Z.mul_1_l. exact A.
Qed.
Lemma no_carry_one y : 0 <= y -> ~ carry_lost 1 y.
Proof. intros Y C. destruct (lost_word 1 y ltac:(lia) Y C) as (i & _ & _ & A & B). lia. Qed.

(** ** Coprime numbers: different multipliers have different residues *)
Lemma residues_differ a b x y : rel_prime a b -> 0 < b -> Z.abs (x - y) < b -> residue a b x = residue a b y -> x = y.
Proof.
  intros G B L E. unfold residue in E. assert (D : (b | a * (x - y))).
  { exists (a * x / b - a * y / b). pose proof (Z.div_mod (a * x) b ltac:(lia)). pose proof (Z.div_mod (a * y) b ltac:(lia)). nia. }
  apply Gauss in D; [|apply rel_prime_sym, G]. destruct D as [q D].
  assert (q = 0) as -> by (clear - L D B; apply Z.abs_lt in L; nia). lia.
Qed.

(** ** Division by subtraction of shifted divisors; the quotient is only used when the remainder is in range *)
Fixpoint div_loop (n : nat) (ys x q : Z) : Z * Z :=
  match n with
  | O => (q, x)
  | S n' => match x - ys with
            | Zneg _ => div_loop n' (Z.div2 ys) x (Z.double q)
            | d => div_loop n' (Z.div2 ys) d (Z.succ_double q)
            end
  end.
Lemma div_loop_ok y n : forall ys x q, ys = y * 2 ^ Z.of_nat n / 2 ->
  let r := div_loop n ys x q in fst r * y + snd r = q * y * 2 ^ Z.of_nat n + x.
Proof.
  induction n as [|n IH]; intros ys x q E; cbn [div_loop]; cbv zeta.
  { cbn [fst snd]. change (2 ^ Z.of_nat 0) with 1. lia. }
  rewrite Nat2Z.inj_succ, Z.pow_succ_r in E |- * by lia. replace (y * (2 * 2 ^ Z.of_nat n)) with (y * 2 ^ Z.of_nat n * 2) in E by ring. rewrite Z.div_mul in E by lia.
  assert (E2 : Z.div2 ys = y * 2 ^ Z.of_nat n / 2) by (rewrite Z.div2_div, E; reflexivity).
  pose proof (IH (Z.div2 ys)) as IH'.
  destruct (x - ys) as [|d|d] eqn:X.
  - rewrite (IH' 0 (Z.succ_double q) E2), Z.succ_double_spec. lia.
  - rewrite (IH' (Z.pos d) (Z.succ_double q) E2), Z.succ_double_spec. lia.
  - rewrite (IH' x (Z.double q) E2), Z.double_spec. lia.
Qed.
Definition quick_div (x y : Z) : Z * Z :=
  match Z.log2 x - Z.log2 y with
  | Zneg _ => (0, x)
  | n => div_loop (S (Z.to_nat n)) (Z.shiftl y n) x 0
  end.
Lemma quick_div_ok x y : let r := quick_div x y in fst r * y + snd r = x.
Proof.
  unfold quick_div. cbv zeta. assert (G : forall n, 0 <= n -> let r := div_loop (S (Z.to_nat n)) (Z.shiftl y n) x 0 in fst r * y + snd r = x).
  { intros n Hn. pose proof (div_loop_ok y (S (Z.to_nat n)) (Z.shiftl y n) x 0) as H. cbv zeta in *. rewrite H; [lia|].
    rewrite Z.shiftl_mul_pow2, Nat2Z.inj_succ, Z2Nat.id, Z.pow_succ_r by lia. replace (y * (2 * 2 ^ n)) with (y * 2 ^ n * 2) by ring. rewrite Z.div_mul by lia. reflexivity. }
  destruct (Z.log2 x - Z.log2 y) as [|n|n]; [apply G; lia | apply G; lia | cbn [fst snd]; lia].
Qed.
Definition proper (x y : Z) (qr : Z * Z) : bool := (0 <=? snd qr) && (snd qr <? y) && near x y.
Lemma proper_ok x y : let r := quick_div (x - 1) y in proper x y r = true -> 0 < y -> fst r = (x - 1) / y /\ snd r + 1 = x - (x - 1) / y * y /\ near x y = true /\ 0 < snd r + 1.
Proof.
  pose proof (quick_div_ok (x - 1) y) as E. cbv zeta in *. unfold proper. intros H Y. apply andb_prop in H. destruct H as [H H3]. apply andb_prop in H. destruct H as [H1 H2].
  apply Z.leb_le in H1. apply Z.ltb_lt in H2. set (r := quick_div (x - 1) y) in *.
  assert (Q : fst r = (x - 1) / y) by (apply (Z.div_unique_pos _ _ _ (snd r)); lia). rewrite <- Q. repeat apply conj; try lia. exact H3.
Qed.

(** the algorithm of [EuclidNum] with this division *)
Fixpoint quick (fuel : nat) (b N ai bi si ui : Z) : option answer :=
  match fuel with
  | O => None
  | S fuel' =>
      let qr := quick_div (bi - 1) ai in
      if negb (proper bi ai qr) then None else
      let q := fst qr in
      let b' := snd qr + 1 in
      let u' := q * si + ui in
      if N <? u' then let k := (N - ui) / si in Some (mk_answer ai (b - bi + k * ai) si (ui + k * si) k ai)
      else
      let qr := quick_div (ai - 1) b' in
      if negb (proper ai b' qr) then None else
      let p := fst qr in
      let a' := snd qr + 1 in
      let s' := p * u' + si in
      if N <? s' then let k := (N - si) / u' in Some (mk_answer (ai - k * b') (b - b') (si + k * u') u' k b')
      else if (b' =? bi) && (a' =? ai) then
        Some (if N <? s' + u' then mk_answer a' (b - b') s' u' 0 1 else mk_answer 0 (b - b') (s' + u') u' 0 1)
      else quick fuel' b N a' b' s' u'
  end.
Lemma quick_ok b N fuel : forall ai bi si ui r, 0 < ai -> quick fuel b N ai bi si ui = Some r -> euclid fuel true b N ai bi si ui = Some (true, r).
Proof.
  induction fuel as [|fuel IH]; intros ai bi si ui r A E; [discriminate|]. cbn [quick] in E. cbn [euclid].
  destruct (proper bi ai (quick_div (bi - 1) ai)) eqn:P; cbn [negb] in E; [|discriminate].
  destruct (proper_ok bi ai P A) as (Q1 & Q2 & Q3 & Q4). rewrite Q1 in E. rewrite Q2 in E. rewrite Q2 in Q4. rewrite Q3. cbn [andb].
  set (q := (bi - 1) / ai) in *. set (b' := bi - q * ai) in *.
  destruct (N <? q * si + ui); [injection E as <-; reflexivity|].
  destruct (proper ai b' (quick_div (ai - 1) b')) eqn:P2; cbn [negb] in E; [|discriminate].
  destruct (proper_ok ai b' P2 Q4) as (R1 & R2 & R3 & R4). rewrite R1 in E. rewrite R2 in E. rewrite R2 in R4. rewrite R3.
  set (p := (ai - 1) / b') in *. set (a' := ai - p * b') in *.
  destruct (N <? p * (q * si + ui) + si); [injection E as <-; reflexivity|].
  destruct ((b' =? bi) && (a' =? ai)); [injection E as <-; reflexivity|].
  apply IH; assumption.
Qed.

(** ** The check *)
(** [lb] is log2 b *)
Definition good (lb N s u t w m d : Z) : bool :=
  (1 <=? s) && (s <=? N) && (1 <=? u) && (u <=? N) && (N <? s + u) && (s * w - u * t =? 1) && (0 <? m) && (0 <? d) &&
  (lb - Z.log2 m <? 64) && (lb - Z.log2 d <? 64) && (if s <=? u then no_carry s u m else no_carry u s d).

(** the least residue, and b minus the greatest; [md] computes s a - t b and w b - u a *)
Definition extremes (a b N : Z) (md : Z -> Z -> Z -> Z -> Z * Z) (c : cert) : option (Z * Z) :=
  if b <=? N then Some (0, 1) else
  match c with
  | Near s u t w => let v := md s u t w in if good (Z.log2 b) N s u t w (fst v) (snd v) then Some v else None
  | Run => match quick 128 b N a b 1 0 with
           | Some r => if no_carry 1 (n_k r) (n_y r) then Some (n_min r, b - n_max r) else None
           | None => None
           end
  end.

Definition minmax_is (N a b m g : Z) : Prop := forall cfg M junk A B, 64 * Z.of_nat M < 2 ^ 64 -> valid M A -> valid M B -> val A = a -> val B = b ->
  exists e, minmax_euclid cfg M junk N A B = Ok e /\ valid M (e_min e) /\ val (e_min e) = m /\ valid M (e_max e) /\ val (e_max e) = g.

Lemma near_case a b N s u t w m d : 1 <= N < 2 ^ 64 -> 0 < a -> 0 < b -> rel_prime a b -> Z.log2 a - Z.log2 b < 64 ->
  m = s * a - t * b -> d = w * b - u * a -> good (Z.log2 b) N s u t w m d = true ->
  least a b N m /\ greatest a b N (b - d) /\ 0 < d <= b /\ minmax_is N a b m (b - d).
Proof.
  intros HN A B G Ln Em Ed H. unfold good in H. rewrite !andb_true_iff in H. destruct H as [[[[[[[[[[H1 H2] H3] H4] H5] H6] H7] H8] H9] H10] H11].
  apply Z.leb_le in H1, H2, H3, H4. apply Z.ltb_lt in H5, H7, H8, H9, H10. apply Z.eqb_eq in H6.
  assert (P : pair a b N s u t w m d) by (split; try assumption; lia).
  destruct (pair_above _ _ _ _ _ _ _ _ _ P) as (L & Ld & Lm & Ld'). destruct (pair_extremes _ _ _ _ _ _ _ _ _ P) as (R1 & R2 & Le & Gr).
  split; [exact Le|]. split; [exact Gr|]. split; [lia|]. intros cfg M junk A0 B0 HM VA VB EA EB.
  assert (C : close a b N).
  { split; [lia|]. intros n Hn. pose proof (proj2 Le n Hn). pose proof (proj2 Gr n Hn). pose proof (Z.log2_le_mono m (residue a b n) ltac:(lia)).
    pose proof (Z.log2_le_mono d (b - residue a b n) ltac:(lia)). split; [intros _|]; lia. }
  destruct (euclid_answers a b N HN 128 true a b 1 0 (start_state _ _ _ A B (proj1 HN)) ltac:(left; lia)) as (ok & r & E & An & O). rewrite (O C) in E.
  destruct An as (A1 & A2 & A3 & A4 & A5 & A6 & A7 & A8 & A9 & A10 & A11).
  assert (Em' : n_min r = m) by (destruct A1 as [(n & Hn & X) Y]; destruct Le as [(n' & Hn' & X') Y']; specialize (Y n' Hn'); specialize (Y' n Hn); lia).
  assert (Eg' : n_max r = b - d) by (destruct A2 as [(n & Hn & X) Y]; destruct Gr as [(n' & Hn' & X') Y']; specialize (Y n' Hn'); specialize (Y' n Hn); lia).
  assert (Es : n_argmin r = s) by (apply (residues_differ a b); [exact G | exact B | lia | lia]).
  assert (Eu : n_argmax r = u).
  { apply (residues_differ a b); [exact G | exact B | lia | lia]. }
  subst a b. destruct (minmax_follows cfg M junk A0 B0 N r HM HN VA VB A B E) as (e & Ee & V1 & E1 & V2 & E2 & _).
  { destruct (Z.eq_dec (n_k r) 0) as [K|K]; [left; exact K | right]. rewrite Es, Eu, Em', Eg' in A11. specialize (A11 ltac:(lia)).
    replace (val B0 - (val B0 - d)) with d in A11 by ring.
    destruct (Z.leb_spec s u) as [S|S].
    - destruct A11 as [[-> F]|[-> F]]; [apply (no_carry_ok s u); [lia | exact H11 | lia | exact F]|].
      assert (n_k r = 1) as -> by nia. apply no_carry_one. lia.
    - destruct A11 as [[-> F]|[-> F]]; [exfalso; nia | apply (no_carry_ok u s); [lia | exact H11 | lia | exact F]]. }
  exists e. rewrite E1, E2, Em', Eg'. repeat apply conj; try assumption; reflexivity.
Qed.

Lemma small_case a b N : 1 <= N < 2 ^ 64 -> 0 < a -> 0 < b <= N -> rel_prime a b -> Z.log2 a - Z.log2 b < 64 ->
  least a b N 0 /\ greatest a b N (b - 1) /\ minmax_is N a b 0 (b - 1).
Proof.
  intros HN A B G Ln.
  assert (Le : least a b N 0).
  { split; [|intros n Hn; apply residue_bounds; lia]. exists b. split; [lia|]. unfold residue. apply Z.mod_mul. lia. }
  assert (Gr : greatest a b N (b - 1)).
  { split; [|intros n Hn; pose proof (residue_bounds a b n ltac:(lia)); lia].
    destruct (rel_prime_bezout _ _ G) as [x y Hxy]. exists ((- x - 1) mod b + 1). pose proof (Z.mod_pos_bound (- x - 1) b ltac:(lia)) as X. split; [lia|].
    apply (residue_unique _ _ _ _ (y - 1 - a * ((- x - 1) / b))); [lia|]. pose proof (Z.div_mod (- x - 1) b ltac:(lia)) as D.
    replace ((- x - 1) mod b) with (- x - 1 - b * ((- x - 1) / b)) by lia. nia. }
  split; [exact Le|]. split; [exact Gr|]. intros cfg M junk A0 B0 HM VA VB EA EB. pose proof (log2_bounds b ltac:(lia)) as Lb.
  destruct (minmax cfg M junk N A0 B0 a b HM HN) as (e & m & g & Ee & R1 & L1 & R2 & G1 & _).
  - apply rep_of; assumption.
  - apply rep_of; assumption.
  - exact A.
  - lia.
  - split; [lia|]. intros n Hn. pose proof (Z.log2_nonneg (residue a b n)). pose proof (Z.log2_nonneg (b - residue a b n)). split; [intros _|]; lia.
  - intros k m g y K [[n [_ Hm]] _] [[n' [_ Hg]] _] Y F. pose proof (residue_bounds a b n ltac:(lia)). pose proof (residue_bounds a b n' ltac:(lia)).
    apply no_carry_one_element; lia.
  - exists e. apply rep in R1, R2. destruct R1 as [V1 E1], R2 as [V2 E2]. split; [exact Ee|].
    assert (m = 0) by (destruct L1 as [(n & Hn & X) Y]; destruct Le as [(n' & Hn' & X') Y']; specialize (Y n' Hn'); specialize (Y' n Hn); lia).
    assert (g = b - 1) by (destruct G1 as [(n & Hn & X) Y]; destruct Gr as [(n' & Hn' & X') Y']; specialize (Y n' Hn'); specialize (Y' n Hn); lia).
    repeat apply conj; try assumption; lia.
Qed.

Lemma extremes_ok a b N md c m d : 1 <= N < 2 ^ 64 -> 0 < a -> 0 < b -> rel_prime a b -> Z.log2 a - Z.log2 b < 64 ->
  (forall s u t w, md s u t w = (s * a - t * b, w * b - u * a)) -> extremes a b N md c = Some (m, d) ->
  least a b N m /\ greatest a b N (b - d) /\ minmax_is N a b m (b - d).
Proof.
  intros HN A B G Ln Hmd E. unfold extremes in E. destruct (Z.leb_spec b N) as [L|L].
  { injection E as <- <-. apply small_case; try assumption. lia. }
  destruct c as [s u t w|].
  - cbv zeta in E. rewrite Hmd in E. cbn [fst snd] in E. destruct (good _ _ _ _ _ _ _ _) eqn:H; [|discriminate]. injection E as <- <-.
    destruct (near_case a b N s u t w _ _ HN A B G Ln eq_refl eq_refl H) as (L1 & L2 & _ & L3). split; [exact L1|]. split; assumption.
  - destruct (quick 128 b N a b 1 0) as [r|] eqn:Q; [|discriminate]. destruct (no_carry 1 (n_k r) (n_y r)) eqn:H; [|discriminate]. injection E as <- <-.
    apply quick_ok in Q; [|exact A].
    destruct (euclid_answers a b N HN 128 true a b 1 0 (start_state _ _ _ A B (proj1 HN)) ltac:(left; lia)) as (ok & r' & E & An & _).
    rewrite Q in E. injection E as <- <-. destruct An as (A1 & A2 & A3 & A4 & A5 & A6 & A7 & A8 & A9 & A10 & A11).
    replace (b - (b - n_max r)) with (n_max r) by ring. split; [exact A1|]. split; [exact A2|].
    intros cfg M junk A0 B0 HM VA VB EA EB. subst a b.
    destruct (minmax_follows cfg M junk A0 B0 N r HM HN VA VB A B Q) as (e & Ee & V1 & E1 & V2 & E2 & _).
    { destruct (Z.eq_dec (n_k r) 0) as [K|K]; [left; exact K | right]. apply (no_carry_ok 1 (n_k r)); [lia | exact H | lia | lia]. }
    exists e. repeat apply conj; assumption.
Qed.
