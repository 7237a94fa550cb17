(** * The min-max Euclid algorithm on numbers *)

From Coq Require Import ZArith List Bool Lia.
From Verif Require Import EuclidSpec.
Open Scope Z_scope.

(** ** The algorithm; [k] and [y] are the factors of the product in the last step *)
Record answer := mk_answer { n_min : Z; n_max : Z; n_argmin : Z; n_argmax : Z; n_k : Z; n_y : Z }.
Definition near (x y : Z) : bool := Z.log2 x - Z.log2 y <? 64.

Fixpoint euclid (fuel : nat) (ok : bool) (b N ai bi si ui : Z) : option (bool * answer) :=
  match fuel with
  | O => None
  | S fuel' =>
      let ok := ok && near bi ai in
      let q := (bi - 1) / ai in
      let b' := bi - q * ai in
      let u' := q * si + ui in
      if N <? u' then let k := (N - ui) / si in Some (ok, mk_answer ai (b - bi + k * ai) si (ui + k * si) k ai)
      else
      let ok := ok && near ai b' in
      let p := (ai - 1) / b' in
      let a' := ai - p * b' in
      let s' := p * u' + si in
      if N <? s' then let k := (N - si) / u' in Some (ok, mk_answer (ai - k * b') (b - b') (si + k * u') u' k b')
      else if (b' =? bi) && (a' =? ai) then
        Some (ok, if N <? s' + u' then mk_answer a' (b - b') s' u' 0 1 else mk_answer 0 (b - b') (s' + u') u' 0 1)
      else euclid fuel' ok b N a' b' s' u'
  end.

(** ** The state: [si] and [ui] are multipliers of [a] that leave [ai] and [-bi] modulo [b] *)
Record state (a b N ai bi si ui : Z) : Prop := {
  st_a : 0 < ai; st_b : 0 < bi <= b; st_s : 1 <= si <= N; st_u : 0 <= ui <= N;
  st_t : exists t, a * si = ai + b * t;
  st_w : exists w, a * ui + bi = b * w;
  st_det : bi * si + ai * ui = b;
  st_small : ai <= b \/ ai = a
}.

(** every point [(n, a n - b e)] is an integer combination of [(si, ai)] and [(ui, -bi)] *)
Lemma lattice a b ai bi si ui n y e : 0 < b -> (exists t, a * si = ai + b * t) -> (exists w, a * ui + bi = b * w) -> bi * si + ai * ui = b ->
  a * n = y + b * e -> exists x z, n = x * si + z * ui /\ y = x * ai - z * bi.
Proof.
  intros B [t T] [w Wd] D E. assert (U : w * si - ui * t = 1).
  { apply (Z.mul_reg_l _ _ b); [lia|]. replace (b * (w * si - ui * t)) with ((b * w) * si - ui * (b * t)) by ring. rewrite <- Wd. replace (b * t) with (a * si - ai) by lia. rewrite Z.mul_1_r, <- D. ring. }
  exists (n * w - e * ui), (e * si - n * t). split.
  - replace ((n * w - e * ui) * si + (e * si - n * t) * ui) with (n * (w * si - ui * t)) by ring. rewrite U. ring.
  - replace ai with (a * si - b * t) by lia. replace bi with (b * w - a * ui) by lia.
    replace ((n * w - e * ui) * (a * si - b * t) - (e * si - n * t) * (b * w - a * ui)) with ((a * n - b * e) * (w * si - ui * t)) by ring. rewrite U. lia.
Qed.
Lemma residue_lattice a b N ai bi si ui n : state a b N ai bi si ui -> exists x z, n = x * si + z * ui /\ residue a b n = x * ai - z * bi.
Proof.
  intros S. pose proof (st_b _ _ _ _ _ _ _ S). apply (lattice a b ai bi si ui n (residue a b n) (a * n / b)); [lia | apply S | apply S | apply S |].
  unfold residue. rewrite Z.add_comm. apply Z.div_mod. lia.
Qed.
Lemma minus_lattice a b N ai bi si ui n : state a b N ai bi si ui -> exists x z, n = x * si + z * ui /\ residue a b n - b = x * ai - z * bi.
Proof.
  intros S. pose proof (st_b _ _ _ _ _ _ _ S). apply (lattice a b ai bi si ui n (residue a b n - b) (a * n / b + 1)); [lia | apply S | apply S | apply S |].
  unfold residue. pose proof (Z.div_mod (a * n) b ltac:(lia)). lia.
Qed.
Lemma residue_bounds a b n : 0 < b -> 0 <= residue a b n < b.
Proof. intros B. apply Z.mod_pos_bound. exact B. Qed.
Lemma residue_unique a b n y e : 0 <= y < b -> a * n = y + b * e -> residue a b n = y.
Proof. intros Y E. unfold residue. symmetry. apply (Z.mod_unique_pos _ _ e); [exact Y | lia]. Qed.

(** ** One quotient: [x - x' = q y] with [0 < x' <= y] *)
Lemma quotient_spec x y : 0 < x -> 0 < y -> 0 <= (x - 1) / y /\ 0 < x - (x - 1) / y * y <= y.
Proof.
  intros X Y. pose proof (Z.div_mod (x - 1) y ltac:(lia)) as E. pose proof (Z.mod_pos_bound (x - 1) y Y). pose proof (Z.div_pos (x - 1) y ltac:(lia) Y).
  set (q := (x - 1) / y) in *. split; [lia|]. nia.
Qed.

(** ** The three ways to end *)
Lemma end_u a b N ai bi si ui q : state a b N ai bi si ui -> 0 <= q -> 0 < bi - q * ai -> N < q * si + ui ->
  let k := (N - ui) / si in 0 <= k < q /\ ui + k * si <= N /\
  residue a b si = ai /\ residue a b (ui + k * si) = b - bi + k * ai /\
  forall n, 1 <= n <= N -> ai <= residue a b n <= b - bi + k * ai.
Proof.
  intros S Q B' G. pose proof (st_a _ _ _ _ _ _ _ S) as A. pose proof (st_b _ _ _ _ _ _ _ S) as B. pose proof (st_s _ _ _ _ _ _ _ S) as Sb. pose proof (st_u _ _ _ _ _ _ _ S) as Ub.
  intros k. pose proof (Z.div_mod (N - ui) si ltac:(lia)) as E. pose proof (Z.mod_pos_bound (N - ui) si ltac:(lia)) as M. fold k in E.
  assert (K : 0 <= k) by (apply Z.div_pos; lia). assert (Kq : k < q) by nia.
  assert (Ab : ai < b) by (assert (ai < bi) by nia; lia).
  split; [lia|]. split; [lia|].
  destruct (st_t _ _ _ _ _ _ _ S) as [t T]. destruct (st_w _ _ _ _ _ _ _ S) as [w Wd].
  assert (Kb : k * ai < bi) by nia. assert (Kp : 0 <= k * ai) by (apply Z.mul_nonneg_nonneg; lia).
  split; [apply (residue_unique _ _ _ _ t); [lia | exact T]|].
  split; [apply (residue_unique _ _ _ _ (w - 1 + k * t)); [lia | replace (a * (ui + k * si)) with (a * ui + k * (a * si)) by ring; rewrite T; lia]|].
  intros n Hn. pose proof (residue_bounds a b n ltac:(lia)) as R. split.
  - destruct (residue_lattice _ _ _ _ _ _ _ n S) as (x & z & Hx & Hy). rewrite Hy in R |- *. apply Z.le_ngt. intros L.
    destruct (Z_le_gt_dec z 0) as [Z0|Z0].
    + destruct (Z_le_gt_dec x 0) as [X0|X0]; nia.
    + assert (z * q < x) by nia. nia.
  - destruct (minus_lattice _ _ _ _ _ _ _ n S) as (x & z & Hx & Hy). assert (D : 0 < z * bi - x * ai <= b) by lia.
    enough (bi - k * ai <= z * bi - x * ai) by lia.
    destruct (Z_le_gt_dec z 0) as [Z0|Z0]; [nia|].
    destruct (Z_le_gt_dec x 0) as [X0|X0]; [nia|].
    assert (x <= k).
    { apply Z.div_le_lower_bound; [lia|]. assert (ui <= z * ui) by nia. lia. }
    assert (x * ai <= k * ai) by nia. assert (bi <= z * bi) by nia. lia.
Qed.

Lemma end_s a b N ai bi si ui p : state a b N ai bi si ui -> 0 <= p -> 0 < ai - p * bi -> ai <= b -> N < p * ui + si -> bi <= ai ->
  let k := (N - si) / ui in 0 < ui /\ 0 <= k < p /\ si + k * ui <= N /\ (ai < b) /\
  residue a b (si + k * ui) = ai - k * bi /\ residue a b ui = b - bi /\
  forall n, 1 <= n <= N -> ai - k * bi <= residue a b n <= b - bi.
Proof.
  intros S P A' Ab G Ba. pose proof (st_a _ _ _ _ _ _ _ S) as A. pose proof (st_b _ _ _ _ _ _ _ S) as B. pose proof (st_s _ _ _ _ _ _ _ S) as Sb. pose proof (st_u _ _ _ _ _ _ _ S) as Ub.
  intros k. assert (U0 : 0 < ui) by nia.
  pose proof (Z.div_mod (N - si) ui ltac:(lia)) as E. pose proof (Z.mod_pos_bound (N - si) ui ltac:(lia)) as M. fold k in E.
  assert (K : 0 <= k) by (apply Z.div_pos; lia). assert (Kp : k < p) by nia.
  assert (Ab' : ai < b) by (pose proof (st_det _ _ _ _ _ _ _ S); nia).
  split; [lia|]. split; [lia|]. split; [lia|]. split; [lia|].
  destruct (st_t _ _ _ _ _ _ _ S) as [t T]. destruct (st_w _ _ _ _ _ _ _ S) as [w Wd].
  assert (Kb : k * bi < ai) by nia. assert (Kn : 0 <= k * bi) by (apply Z.mul_nonneg_nonneg; lia).
  split; [apply (residue_unique _ _ _ _ (t + k * w)); [lia | replace (a * (si + k * ui)) with (a * si + k * (a * ui)) by ring; replace (a * ui) with (b * w - bi) by lia; rewrite T; ring]|].
  split; [apply (residue_unique _ _ _ _ (w - 1)); lia|].
  intros n Hn. pose proof (residue_bounds a b n ltac:(lia)) as R. split.
  - destruct (residue_lattice _ _ _ _ _ _ _ n S) as (x & z & Hx & Hy). rewrite Hy in R |- *.
    destruct (Z_le_gt_dec z 0) as [Z0|Z0].
    + destruct (Z_le_gt_dec x 0) as [X0|X0]; [nia|]. assert (ai <= x * ai) by nia. nia.
    + assert (X0 : 0 < x) by nia. assert (z <= k).
      { apply Z.div_le_lower_bound; [lia|]. assert (si <= x * si) by nia. lia. }
      assert (z * bi <= k * bi) by nia. assert (ai <= x * ai) by nia. lia.
  - destruct (minus_lattice _ _ _ _ _ _ _ n S) as (x & z & Hx & Hy). assert (D : 0 < z * bi - x * ai <= b) by lia.
    enough (bi <= z * bi - x * ai) by lia.
    destruct (Z_le_gt_dec z 0) as [Z0|Z0]; [nia|].
    destruct (Z_le_gt_dec x 0) as [X0|X0]; [nia|].
    exfalso. assert (x * p < z) by nia. nia.
Qed.

Lemma end_gcd a b N g si ui : state a b N g g si ui ->
  residue a b ui = b - g /\ (forall n, residue a b n <= b - g) /\
  (N < si + ui -> residue a b si = g /\ forall n, 1 <= n <= N -> g <= residue a b n) /\
  residue a b (si + ui) = 0.
Proof.
  intros S. pose proof (st_b _ _ _ _ _ _ _ S) as B. pose proof (st_s _ _ _ _ _ _ _ S) as Sb. pose proof (st_u _ _ _ _ _ _ _ S) as Ub.
  destruct (st_t _ _ _ _ _ _ _ S) as [t T]. destruct (st_w _ _ _ _ _ _ _ S) as [w Wd].
  assert (Low : N < si + ui -> forall n, 1 <= n <= N -> g <= residue a b n).
  { intros G n Hn. pose proof (residue_bounds a b n ltac:(lia)) as R. destruct (residue_lattice _ _ _ _ _ _ _ n S) as (x & z & Hx & Hy). rewrite Hy in R |- *.
    destruct (Z_lt_le_dec x z); [nia|]. destruct (Z.eq_dec x z) as [->|]; [|nia]. exfalso.
    assert (n = z * (si + ui)) by lia. destruct (Z_le_gt_dec z 0); nia. }
  repeat apply conj.
  - apply (residue_unique _ _ _ _ (w - 1)); lia.
  - intros n. pose proof (residue_bounds a b n ltac:(lia)). destruct (minus_lattice _ _ _ _ _ _ _ n S) as (x & z & Hx & Hy).
    assert (0 < (z - x) * g) by lia. assert (1 <= z - x) by nia. nia.
  - intros G. split; [|exact (Low G)]. specialize (Low G 1 ltac:(lia)).
    pose proof (residue_bounds a b 1 ltac:(lia)). apply (residue_unique _ _ _ _ t); lia.
  - apply (residue_unique _ _ _ _ (t + w)); lia.
Qed.

(** ** One turn *)
Lemma turn_u a b N ai bi si ui q : state a b N ai bi si ui -> 0 <= q -> 0 < bi - q * ai -> q * si + ui <= N ->
  state a b N ai (bi - q * ai) si (q * si + ui).
Proof.
  intros [A B Sb Ub [t T] [w Wd] D Sm] Q B' G. split; try assumption; try nia.
  - exists t. exact T.
  - exists (w + q * t). replace (a * (q * si + ui)) with (q * (a * si) + a * ui) by ring. rewrite T. lia.
Qed.
Lemma turn_s a b N ai bi si ui p : state a b N ai bi si ui -> 0 <= p -> 0 < ai - p * bi <= bi -> p * ui + si <= N ->
  state a b N (ai - p * bi) bi (p * ui + si) ui.
Proof.
  intros [A B Sb Ub [t T] [w Wd] D Sm] Q A' G. split; try assumption; try nia.
  - exists (t + p * w). replace (a * (p * ui + si)) with (p * (a * ui) + a * si) by ring. rewrite T. replace (a * ui) with (b * w - bi) by lia. ring.
  - exists w. exact Wd.
Qed.

(** ** The answer *)
Definition answered (a b N : Z) (r : answer) : Prop :=
  least a b N (n_min r) /\ greatest a b N (n_max r) /\
  1 <= n_argmin r <= N /\ residue a b (n_argmin r) = n_min r /\
  0 <= n_argmax r <= N /\ residue a b (n_argmax r) = n_max r /\ (residue a b 1 <> 0 -> 1 <= n_argmax r) /\
  0 <= n_k r <= N /\ 0 < n_y r /\ n_k r * n_y r < b /\ 
  (0 < n_k r -> n_y r = n_min r /\ n_k r * n_argmin r <= n_argmax r \/ n_y r = b - n_max r /\ n_k r * n_argmax r <= n_argmin r).

Definition enough_fuel (fuel : nat) (ai bi si ui : Z) : Prop :=
  (67 <= fuel)%nat \/ (ai = bi /\ (1 <= fuel)%nat) \/ (ai <= bi /\ 2 ^ 66 <= (si + ui) * 2 ^ Z.of_nat fuel).

Lemma close_ai a b N ai bi si ui : close a b N -> state a b N ai bi si ui -> Z.log2 b - Z.log2 ai < 64.
Proof.
  intros [_ C] S. pose proof (st_a _ _ _ _ _ _ _ S). pose proof (st_b _ _ _ _ _ _ _ S).
  destruct (Z_lt_le_dec ai b) as [L|L].
  - destruct (st_t _ _ _ _ _ _ _ S) as [t T]. destruct (C si (st_s _ _ _ _ _ _ _ S)) as [Q _]. rewrite (residue_unique a b si ai t) in Q by lia. apply Q. lia.
  - pose proof (Z.log2_le_mono b ai L). lia.
Qed.
Lemma multiple_of b x w : 0 < x <= b -> x = b * w -> x = b.
Proof. intros X E. assert (0 < w) by nia. assert (w < 2) by nia. assert (w = 1) by lia. subst w. lia. Qed.
Lemma close_bi a b N ai bi si ui : close a b N -> state a b N ai bi si ui -> Z.log2 b - Z.log2 bi < 64.
Proof.
  intros [_ C] S. pose proof (st_b _ _ _ _ _ _ _ S). pose proof (st_u _ _ _ _ _ _ _ S).
  destruct (Z.eq_dec ui 0) as [->|U].
  - pose proof (st_det _ _ _ _ _ _ _ S). pose proof (st_s _ _ _ _ _ _ _ S). destruct (st_w _ _ _ _ _ _ _ S) as [w Wd]. rewrite (multiple_of b bi w) by lia. lia.
  - destruct (st_w _ _ _ _ _ _ _ S) as [w Wd]. destruct (C ui ltac:(lia)) as [_ Q]. rewrite (residue_unique a b ui (b - bi) (w - 1)) in Q by lia.
    replace (b - (b - bi)) with bi in Q by ring. exact Q.
Qed.
Lemma near_of x y b : 0 < x -> x <= b -> Z.log2 b - Z.log2 y < 64 -> near x y = true.
Proof. intros X L H. apply Z.ltb_lt. pose proof (Z.log2_le_mono x b L). lia. Qed.

Lemma argmax_positive a b n : 0 < b -> residue a b 1 <> 0 -> 0 <= n -> residue a b n = b - 0 \/ (exists m, residue a b n = m /\ residue a b 1 <= m) -> 1 <= n.
Proof.
  intros B H N0 [E|(m & E & L)].
  - pose proof (residue_bounds a b n B). lia.
  - destruct (Z.eq_dec n 0) as [->|]; [exfalso | lia]. unfold residue at 1 in E. rewrite Z.mul_0_r, Z.mod_0_l in E by lia. pose proof (residue_bounds a b 1 B). lia.
Qed.

Lemma euclid_answers a b N : 1 <= N < 2 ^ 64 -> forall fuel ok ai bi si ui, state a b N ai bi si ui -> enough_fuel fuel ai bi si ui ->
  exists ok' r, euclid fuel ok b N ai bi si ui = Some (ok', r) /\ answered a b N r /\ (close a b N -> ok' = ok).
Proof.
  intros Nb. induction fuel as [|fuel IH]; intros ok ai bi si ui S F.
  { exfalso. pose proof (st_s _ _ _ _ _ _ _ S). pose proof (st_u _ _ _ _ _ _ _ S). unfold enough_fuel in F. change (2 ^ Z.of_nat 0) with 1 in F. lia. }
  pose proof (st_a _ _ _ _ _ _ _ S) as A. pose proof (st_b _ _ _ _ _ _ _ S) as B. pose proof (st_s _ _ _ _ _ _ _ S) as Sb. pose proof (st_u _ _ _ _ _ _ _ S) as Ub.
  cbn [euclid]. destruct (quotient_spec bi ai ltac:(lia) A) as [Q0 Qr]. set (q := (bi - 1) / ai) in *.
  assert (N1 : close a b N -> near bi ai = true).
  { intros C. apply (near_of _ _ b); [lia | lia | apply (close_ai a b N ai bi si ui C S)]. }
  destruct (Z.ltb_spec N (q * si + ui)) as [G|G].
  - destruct (end_u a b N ai bi si ui q S Q0 ltac:(lia) G) as (K & Kn & R1 & R2 & R3). set (k := (N - ui) / si) in *.
    eexists _, _. split; [reflexivity|]. split.
    + unfold answered. cbn [n_min n_max n_argmin n_argmax n_k n_y]. assert (0 <= ui + k * si) by nia.
      assert (P1 : residue a b 1 <> 0 -> 1 <= ui + k * si).
      { intros H1. apply (argmax_positive a b); [lia | exact H1 | lia |]. right. eexists. split; [exact R2 | apply R3; lia]. }
      assert (P2 : 1 <= ui + k * si).
      { apply P1. specialize (R3 1 ltac:(lia)). lia. }
      repeat apply conj; try lia; try assumption.
      * exists si. split; [exact Sb | exact R1].
      * intros n Hn. apply R3. exact Hn.
      * exists (ui + k * si). split; [lia | exact R2].
      * intros n Hn. apply R3. exact Hn.
      * nia.
      * nia.
    + intros C. rewrite (N1 C). apply andb_true_r.
  - pose proof (turn_u a b N ai bi si ui q S Q0 ltac:(lia) G) as S'. set (b' := bi - q * ai) in *. set (u' := q * si + ui) in *.
    assert (N2 : close a b N -> near ai b' = true).
    { intros C. pose proof (close_bi a b N ai b' si u' C S'). destruct (st_small _ _ _ _ _ _ _ S) as [L| ->].
      - apply (near_of _ _ b); [lia | lia | assumption].
      - destruct (Z_le_gt_dec a b) as [L|L]; [apply (near_of _ _ b); [lia | lia | assumption]|].
        assert (q = 0) by (apply Z.div_small; lia). assert (b' = bi) by (unfold b'; lia). assert (u' = ui) by (unfold u'; lia).
        pose proof (st_det _ _ _ _ _ _ _ S) as D. assert (U00 : ui = 0) by nia. assert (bi = b).
        { destruct (st_w _ _ _ _ _ _ _ S) as [w Wd]. rewrite U00 in Wd. apply (multiple_of b bi w); lia. }
        apply Z.ltb_lt. replace b' with b by lia. apply C. }
    destruct (quotient_spec ai b' A ltac:(lia)) as [P0 Pr]. set (p := (ai - 1) / b') in *.
    destruct (Z.ltb_spec N (p * u' + si)) as [G2|G2].
    + assert (Ab : ai <= b).
      { destruct (st_small _ _ _ _ _ _ _ S) as [L| ->]; [exact L|]. destruct (Z_le_gt_dec a b) as [L|L]; [exact L|]. exfalso.
        pose proof (st_det _ _ _ _ _ _ _ S') as D. assert (u' = 0) by (pose proof (st_u _ _ _ _ _ _ _ S'); nia). nia. }
      destruct (end_s a b N ai b' si u' p S' P0 ltac:(lia) Ab G2 ltac:(lia)) as (U0 & K & Kn & Ab' & R1 & R2 & R3). set (k := (N - si) / u') in *.
      eexists _, _. split; [reflexivity|]. split.
      * unfold answered. cbn [n_min n_max n_argmin n_argmax n_k n_y]. assert (0 <= k * u') by nia.
        repeat apply conj; try lia; try assumption.
        -- exists (si + k * u'). split; [lia | exact R1].
        -- intros n Hn. apply R3. exact Hn.
        -- exists u'. split; [lia | exact R2].
        -- intros n Hn. apply R3. exact Hn.
        -- nia.
        -- nia.
      * intros C. rewrite (N1 C), (N2 C), !andb_true_r. reflexivity.
    + pose proof (turn_s a b N ai b' si u' p S' P0 ltac:(lia) G2) as S2. set (a' := ai - p * b') in *. set (s' := p * u' + si) in *.
      pose proof (st_u _ _ _ _ _ _ _ S') as Ub'. pose proof (st_s _ _ _ _ _ _ _ S2) as Sb'.
      destruct ((b' =? bi) && (a' =? ai)) eqn:E.
      * apply andb_prop in E. destruct E as [E1 E2]. apply Z.eqb_eq in E1, E2.
        assert (Eg : a' = b') by lia. rewrite Eg in S2.
        destruct (end_gcd a b N b' s' u' S2) as (R1 & R2 & R3 & R4).
        assert (P1 : residue a b 1 <> 0 -> 1 <= u').
        { intros H1. apply (argmax_positive a b); [lia | exact H1 | lia |]. right. eexists. split; [exact R1 | apply R2]. }
        assert (Gr : greatest a b N (b - b')).
        { split; [|intros n Hn; apply R2]. destruct (Z.eq_dec (residue a b 1) 0) as [Z1|Z1].
          - exists 1. split; [lia|]. rewrite Z1. assert (residue a b u' = 0); [|lia].
            unfold residue in *. rewrite Z.mul_1_r in Z1. rewrite <- Z.mul_mod_idemp_l, Z1 by lia. apply Z.mod_0_l. lia.
          - exists u'. split; [|exact R1]. specialize (P1 Z1). lia. }
        eexists _, _. split; [reflexivity|]. split.
        -- unfold answered. destruct (Z.ltb_spec N (s' + u')) as [G3|G3]; cbn [n_min n_max n_argmin n_argmax n_k n_y].
           ++ destruct (R3 G3) as [R5 R6]. rewrite Eg. repeat apply conj; try lia; try assumption; [|apply Gr|apply Gr]. exists s'. split; [lia | exact R5].
           ++ repeat apply conj; try lia; try assumption; [| |apply Gr|apply Gr].
              ** exists (s' + u'). split; [lia | exact R4].
              ** intros n Hn. apply residue_bounds. lia.
        -- intros C. rewrite (N1 C), (N2 C), !andb_true_r. reflexivity.
      * destruct (IH (ok && near bi ai && near ai b') a' b' s' u' S2) as (ok' & r & E' & R & C').
        -- unfold enough_fuel in F. rewrite Nat2Z.inj_succ, Z.pow_succ_r in F by lia. unfold enough_fuel.
           assert (Le : a' <= b') by lia.
           destruct (Z.eq_dec a' b') as [Eab|Eab].
           ++ right. left. split; [exact Eab|]. destruct F as [F|[[F _]|[F1 F2]]]; [lia | exfalso | ].
              ** subst bi. assert (q = 0) by (apply Z.div_small; lia). assert (b' = ai) by (unfold b'; lia).
                 assert (p = 0) by (apply Z.div_small; lia). assert (a' = ai) by (unfold a'; lia).
                 rewrite (proj2 (Z.eqb_eq b' ai)), (proj2 (Z.eqb_eq a' ai)) in E by assumption. discriminate.
              ** destruct fuel as [|fuel]; [exfalso | lia]. change (2 ^ Z.of_nat 0) with 1 in F2. lia.
           ++ right. right. split; [exact Le|]. destruct F as [F|[[F _]|[F1 F2]]].
              ** assert (2 ^ 66 <= 2 ^ Z.of_nat fuel) by (apply Z.pow_le_mono_r; lia). nia.
              ** exfalso. subst bi. assert (q = 0) by (apply Z.div_small; lia). assert (b' = ai) by (unfold b'; lia).
                 assert (p = 0) by (apply Z.div_small; lia). assert (a' = ai) by (unfold a'; lia). lia.
              ** assert (Hp : 1 <= p).
                 { destruct (Z_lt_le_dec p 1) as [L|L]; [exfalso|exact L]. assert (p = 0) by lia. assert (a' = ai) by (unfold a'; lia). lia. }
                 destruct (Z.eq_dec q 0) as [Eq|Eq].
                 { exfalso. assert (b' = bi) by (unfold b'; lia). assert (ai = bi) by lia. assert (p = 0) by (unfold p; apply Z.div_small; lia). lia. }
                 assert (H1 : si <= q * si) by (clear - Sb Q0 Eq; nia). assert (H2 : u' <= p * u') by (clear - Ub' Hp; nia).
                 assert (H3 : 2 * (si + ui) <= s' + u') by (unfold s' in *; unfold u' in *; lia).
                 pose proof (Z.pow_pos_nonneg 2 (Z.of_nat fuel) ltac:(lia) ltac:(lia)) as H4. clear - F2 H3 H4. nia.
        -- exists ok', r. split; [exact E'|]. split; [exact R|]. intros C. rewrite (C' C), (N1 C), (N2 C), !andb_true_r. reflexivity.
Qed.

Lemma start_state a b N : 0 < a -> 0 < b -> 1 <= N -> state a b N a b 1 0.
Proof. intros A B Nn. split; try lia; [exists 0; ring | exists 1; ring]. Qed.
