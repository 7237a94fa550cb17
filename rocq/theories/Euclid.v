(** * minmax_euclid on bigints follows the algorithm on numbers *)

From Coq Require Import ZArith List Bool Lia.
From Verif Require Import Machine Model Arith BigintModel BigSpec BigFacts Bigint BigintOps BigintMul BigClaims DivModel Division EuclidModel EuclidSpec EuclidNum.
Open Scope Z_scope.

Lemma W_Wp1 : Wp 1 = W. Proof. reflexivity. Qed.
Lemma small_pos M b : valid M b -> val b < W -> element_pos b = 0%nat.
Proof.
  intros V L. destruct (Nat.eq_dec (element_pos b) 0) as [|Q]; [assumption|exfalso].
  pose proof (val_pos_lower M b V ltac:(lia)). pose proof (Wp_le 1 (element_pos b) ltac:(lia)). rewrite W_Wp1 in *. lia.
Qed.
Lemma val_single b : element_pos b = 0%nat -> val b = elements b 0%nat.
Proof. intros E. unfold val. rewrite E, number_S, Wp_0. cbn [number]. ring. Qed.

Lemma pos_mono M x y : valid M x -> valid M y -> val x <= val y -> (element_pos x <= element_pos y)%nat.
Proof.
  intros Vx Vy L. destruct (Nat.le_gt_cases (element_pos x) (element_pos y)) as [|G]; [assumption|exfalso].
  pose proof (val_pos_lower M x Vx ltac:(lia)). pose proof (val_pos_bound M y Vy). pose proof (Wp_le (S (element_pos y)) (element_pos x) G). lia.
Qed.

(** ** Products with one element *)
Lemma mul_small cfg M jt jr x y : valid M x -> valid M y -> val x < W -> val y < W -> val x * val y < Wp M ->
  exists r, big_mul cfg M jt jr x y = Ok r /\ valid M r /\ val r = val x * val y.
Proof.
  intros Vx Vy Lx Ly F. pose proof (small_pos M x Vx Lx) as Px. pose proof (small_pos M y Vy Ly) as Py. pose proof (v_pos _ _ Vx) as M1.
  pose proof (val_bounds M x Vx) as Bx. pose proof (val_bounds M y Vy) as By. unfold big_mul. rewrite Py.
  rewrite cassert_ok by (apply Nat.ltb_lt; lia). cbn [bind]. rewrite sel_ok by lia. cbn [bind]. rewrite <- (val_single y Py).
  destruct (calculate_single_ok cfg M x (val y) jr Vx ltac:(lia)) as (r & p & -> & Wr & Nr & Hp).
  { intros G. rewrite Px in *. apply Wp_lt_inv. lia. }
  cbn [bind]. assert (Pm : (p < M)%nat).
  { destruct Hp as [[-> G]|[-> _]]; [apply Wp_lt_inv; lia | lia]. }
  destruct (fill_zero_ok M r (S p) (M - S p) ltac:(lia)) as (r' & -> & Fz). cbn [bind up_loop].
  rewrite Nat.add_0_l. rewrite sel_ok by exact Pm. cbn [bind]. eexists. split; [reflexivity|].
  assert (E : forall i, (i < S p)%nat -> r' i = r i).
  { intros i Hi. rewrite Fz. destruct (Nat.leb_spec (S p) i); [lia|]. reflexivity. }
  assert (Z0 : forall i, (p < i < M)%nat -> r' i = 0).
  { intros i Hi. rewrite Fz. rewrite (proj2 (Nat.leb_le (S p) i)), (proj2 (Nat.ltb_lt i (S p + (M - S p)))) by lia. reflexivity. }
  apply valid_make_top; try assumption.
  - intros i Hi. destruct (Nat.le_gt_cases i p) as [L|L]; [rewrite E by lia; apply Wr; lia | rewrite Z0 by lia; lia].
  - rewrite (number_ext r' r) by exact E. exact Nr.
  - destruct Hp as [[-> G]|[-> _]]; [right; rewrite Px in *; exact G | left; exact Px].
Qed.

Lemma mul_zero cfg M jt jr x y : valid M x -> val x = 0 -> valid M y ->
  exists r, big_mul cfg M jt jr x y = Ok r /\ loose M r /\ val r = 0 /\ element_pos r = element_pos y.
Proof.
  intros Vx X0 Vy. pose proof (small_pos M x Vx ltac:(lia)) as Px. pose proof (v_pos _ _ Vx) as M1. pose proof (v_pos _ _ Vy) as M2. pose proof (v_words _ _ Vy) as Wy.
  assert (One : forall y0 r, 0 <= y0 < W -> exists r', calculate_single cfg M x y0 r = Ok (r', 0%nat) /\ r' 0%nat = 0).
  { intros y0 r Y. destruct (calculate_single_ok cfg M x y0 r Vx Y) as (r' & p & E & Wr & Nr & Hp).
    { intros G. rewrite X0, Z.mul_0_l in G. pose proof (Wp_pos (S (element_pos x))). lia. }
    exists r'. rewrite X0, Z.mul_0_l in *. pose proof (Wp_pos (S (element_pos x))). destruct Hp as [[-> G]|[-> _]]; [lia|]. rewrite Px in *.
    split; [exact E|]. rewrite number_S, Wp_0 in Nr. cbn [number] in Nr. lia. }
  unfold big_mul. rewrite cassert_ok by (apply Nat.ltb_lt; lia). cbn [bind]. rewrite sel_ok by lia. cbn [bind].
  destruct (One (elements y 0%nat) jr (Wy 0%nat ltac:(lia))) as (r & -> & R0). cbn [bind].
  destruct (fill_zero_ok M r 1 (M - 1) ltac:(lia)) as (r' & -> & Fz). cbn [bind].
  assert (Zr : forall i, (i < M)%nat -> r' i = 0).
  { intros i Hi. rewrite Fz. destruct (Nat.leb_spec 1 i) as [L|L]; [rewrite (proj2 (Nat.ltb_lt i (1 + (M - 1)))) by lia; reflexivity|].
    replace i with 0%nat by lia. exact R0. }
  match goal with |- context [up_loop ?f 1 (element_pos y) ?s] =>
    destruct (up_loop_inv (fun _ (st : (nat -> Z) * (nat -> Z) * nat) => (forall i, (i < M)%nat -> fst (fst st) i = 0) /\ snd st = 0%nat) f 1 (element_pos y) s) as ([[r2 t2] p2] & -> & I1 & I2) end.
  - split; [exact Zr | reflexivity].
  - intros k [[r2 t2] p2] Hk [I1 I2]. cbn [fst snd] in *. rewrite sel_ok by lia. cbn [bind].
    destruct (One (elements y k) t2 (Wy k ltac:(lia))) as (t3 & -> & T0). cbn [bind]. rewrite !sel_ok by lia. cbn [bind].
    rewrite upd_ok by lia. cbn [bind up_loop]. rewrite (I1 k), T0 by lia. change (wrap 64 (0 + 0)) with 0. change (0 <? 0) with false. cbv iota.
    rewrite cassert_ok by reflexivity. cbn [bind]. eexists. split; [reflexivity|]. cbn [fst snd]. split; [|reflexivity].
    intros i Hi. unfold put. destruct (Nat.eqb i k); [reflexivity | apply I1; exact Hi].
  - cbn [fst snd] in *. cbn [bind]. rewrite I2, Nat.add_0_r, sel_ok by lia. cbn [bind]. eexists. split; [reflexivity|].
    cbn [elements element_pos]. split; [split; cbn [elements element_pos]|split; [|reflexivity]].
    + intros i Hi. rewrite I1 by lia. lia.
    + exact M2.
    + intros i Hi. apply I1. lia.
    + unfold val. cbn [elements element_pos]. rewrite (number_zero r2 0) by (try lia; intros i Hi; apply I1; lia). reflexivity.
Qed.

Lemma element_times_ok cfg M j0 j1 j2 k x : 0 <= k < W -> valid M x -> 0 < val x -> k * val x < Wp M ->
  (k = 0 \/ ~ carry_lost k (val x)) ->
  exists r, element_times cfg M j0 j1 j2 k x = Ok r /\ loose M r /\ val r = k * val x /\ (valid M r \/ (k = 0 /\ element_pos r = element_pos x)).
Proof.
  intros K Vx Px F L. pose proof (v_pos _ _ Vx) as M1. unfold element_times. destruct (big_of_valid M j0 k ltac:(lia) K) as (b & -> & Vb & Eb). cbn [bind].
  destruct (Z.eq_dec k 0) as [K0|K0].
  - destruct (mul_zero cfg M j1 j2 b x Vb ltac:(lia) Vx) as (r & -> & Lr & Er & Pr). exists r. rewrite Er, K0. split; [reflexivity|]. split; [exact Lr|]. split; [ring | right; split; [reflexivity | exact Pr]].
  - destruct L as [L|L]; [contradiction|]. rewrite <- Eb in L, F, K0 |- *.
    destruct (product cfg M j1 j2 b x (val b) (val x) (rep_of _ _ _ Vb eq_refl) (rep_of _ _ _ Vx eq_refl)) as (r & -> & R); try assumption; try lia.
    { apply fits_Wp. split; [apply Z.mul_nonneg_nonneg; lia | exact F]. }
    apply rep in R. destruct R as [Vr Er]. exists r. split; [reflexivity|]. split; [apply valid_loose, Vr|]. split; [exact Er | left; exact Vr].
Qed.

(** ** A sum with an element: everything but the recorded bit position *)
Definition tidy (b : big) : big := mk_big (elements b) (element_pos b) (log2p1 (elements b (element_pos b))).
Lemma add_element_tidy cfg M b x : valid M b -> 0 <= x < W -> val b + x < Wp M ->
  exists r, add_element cfg M b x = Ok r /\ valid M (tidy r) /\ val r = val b + x.
Proof.
  intros Vb Hx F. pose proof (v_pos _ _ Vb) as Pb. pose proof (val_bounds M b Vb) as Bb. unfold add_element.
  rewrite sel_ok by lia. cbn [bind]. rewrite upd_ok by lia. cbn [bind].
  set (n := fun i : nat => match i with O => x | _ => 0 end).
  pose proof (added_first M (elements b) n ltac:(lia) (v_words _ _ Vb) Hx) as A0. cbv zeta in A0. change (n 0%nat) with x in A0.
  destruct (carry_loop_ok M (fun a => a) (elements b) n 1 (element_pos b) _ ltac:(lia)
    ltac:(intros a k Hk Hj; cbv beta; rewrite (Hj k) by lia; destruct k as [|k]; [lia|]; cbn [n]; split; [ring | apply (v_words _ _ Vb); lia]) A0) as ([a c] & E2 & A2).
  cbn [bind] in E2. rewrite E2. cbn [bind]. destruct A2 as (I1 & I2 & I3 & I4). cbn [fst snd] in *.
  assert (En : forall m, number n (S m) = x).
  { intros m. rewrite (number_zero n 1 (S m)) by (try lia; intros i Hi; destruct i; (lia || reflexivity)). rewrite number_S, Wp_0. cbn [number n]. ring. }
  change (1 + element_pos b)%nat with (S (element_pos b)) in *. rewrite En in I1. fold (val b) in I1.
  assert (Ha : forall i, (element_pos b < i < M)%nat -> a i = 0) by (intros i Hi; rewrite I4 by lia; apply (above_zero M b i Vb); lia).
  destruct (Z.eqb_spec c 0) as [E|E]; cbn [negb].
  - subst c. eexists. split; [reflexivity|]. unfold tidy. cbn [elements element_pos].
    apply valid_make_top; try assumption; [lia|].
    destruct (Nat.eq_dec (element_pos b) 0); [left; assumption | right]. pose proof (val_pos_lower M b Vb ltac:(lia)). lia.
  - assert (c = 1) by lia. subst c. pose proof (number_bounds a (S (element_pos b)) ltac:(apply (words_le a _ M I3); lia)) as B. assert (S (element_pos b) < M)%nat by (apply Wp_lt_inv; lia).
    rewrite cassert_ok by (apply Nat.ltb_lt; assumption). cbn [bind]. rewrite upd_ok by assumption. cbn [bind]. eexists. split; [reflexivity|]. unfold tidy. cbn [elements element_pos].
    assert (E3 : number (put a (S (element_pos b)) 1) (S (S (element_pos b))) = val b + x) by (rewrite number_S, put_same, number_put_above by lia; lia).
    apply valid_make_top; try assumption.
    + apply words_put; [exact I3 | lia].
    + intros i Hi. rewrite put_other by lia. apply Ha. lia.
    + right. lia.
Qed.
Lemma tidy_val b : val (tidy b) = val b. Proof. reflexivity. Qed.

(** ** The quotients *)
Lemma near_quotient x y : 0 < x -> 0 < y -> Z.log2 x - Z.log2 y < 64 -> x / y < W.
Proof.
  intros X Y L. apply Z.div_lt_upper_bound; [exact Y|]. pose proof (Z.log2_spec x X). pose proof (Z.log2_spec y Y). pose proof (Z.log2_nonneg y).
  assert (2 ^ Z.succ (Z.log2 x) <= 2 ^ (Z.log2 y + 64)) by (apply Z.pow_le_mono_r; lia). rewrite Z.pow_add_r in H2 by lia. change (2 ^ 64) with W in H2. nia.
Qed.
Lemma no_zero_ok cfg M b n rem q : valid M n -> valid M rem -> valid M q -> 0 < b -> 0 < val n -> val rem = b mod val n -> val q = b / val n -> val q < W ->
  exists rem' q', no_zero_remainder cfg M n rem q = Ok (rem', q') /\ valid M rem' /\ valid M q' /\
    val q' = (b - 1) / val n /\ val rem' = b - (b - 1) / val n * val n /\ val q' < W.
Proof.
  intros Vn Vr Vq Pb Pn Er Eq Lq. unfold no_zero_remainder.
  destruct (compare_elements_ok M rem 0 Vr ltac:(lia)) as (_ & _ & _ & _ & E & _). rewrite E. cbn [bind].
  pose proof (Z.div_mod b (val n) ltac:(lia)) as D. pose proof (Z.mod_pos_bound b (val n) Pn) as Mb.
  destruct (Z.eqb_spec (val rem) 0) as [Z0|Z0].
  - assert (P : 0 < val q) by (rewrite Eq; apply Z.div_str_pos; split; [lia|]; apply Z.le_ngt; intros L; rewrite Z.mod_small in Er by lia; lia).
    assert (A : (if cfg_ndebug cfg then Ok tt else g <- big_gt_element M q 0 ;; cassert cfg g) = Ok tt).
    { destruct (cfg_ndebug cfg) eqn:Dbg; [reflexivity|]. destruct (compare_elements_ok M q 0 Vq ltac:(lia)) as (_ & _ & G & _ & _ & _). rewrite G. cbn [bind].
      apply cassert_ok. rewrite Z.gtb_ltb. apply Z.ltb_lt. exact P. }
    cbv zeta in *. cbn [bind] in A |- *. rewrite A. cbn [bind]. destruct (decrement_elements cfg M q Vq P) as (q' & -> & _ & _ & Fq). destruct (Fq Lq) as [Vq' Eq']. cbn [bind].
    exists n, q'. split; [reflexivity|]. split; [exact Vn|]. split; [exact Vq'|].
    assert (Q : (b - 1) / val n = b / val n - 1) by (symmetry; apply (Z.div_unique_pos _ _ _ (val n - 1)); nia).
    rewrite Q. repeat apply conj; nia.
  - exists rem, q. split; [reflexivity|]. split; [exact Vr|]. split; [exact Vq|].
    assert (Q : (b - 1) / val n = b / val n) by (symmetry; apply (Z.div_unique_pos _ _ _ (b mod val n - 1)); nia).
    rewrite Q. repeat apply conj; nia.
Qed.

Lemma divide_near cfg M js jq b n : 64 * Z.of_nat M < W -> valid M b -> valid M n -> 0 < val b -> 0 < val n -> near (val b) (val n) = true ->
  exists rem q, (r <- long_division cfg M js jq b n ;; let '(rem, q) := r in no_zero_remainder cfg M n rem q) = Ok (rem, q) /\
    valid M rem /\ valid M q /\ val q = (val b - 1) / val n /\ val rem = val b - (val b - 1) / val n * val n /\ val q < W.
Proof.
  intros HM Vb Vn Pb Pn L. apply Z.ltb_lt in L.
  destruct (long_division_valid cfg M js jq b n HM Vb Vn Pn L) as (r & q & E & Vr & Er & Vq & Eq). rewrite E. cbn [bind].
  apply no_zero_ok; try assumption. rewrite Eq. apply near_quotient; assumption.
Qed.

(** ** The loop *)
Lemma euclid_flag b N fuel ok ai bi si ui r : euclid fuel ok b N ai bi si ui = Some (true, r) -> ok = true.
Proof.
  revert ok ai bi si ui. induction fuel as [|fuel IH]; intros ok ai bi si ui; cbn [euclid]; [discriminate|].
  destruct (N <? _); [intros E; injection E as E _; apply andb_prop in E; apply E|].
  destruct (N <? _); [intros E; injection E as E _; apply andb_prop in E; destruct E as [E _]; apply andb_prop in E; apply E|].
  destruct (_ && _).
  - intros E. injection E as E _. apply andb_prop in E; destruct E as [E _]; apply andb_prop in E; apply E.
  - intros E. apply IH in E. apply andb_prop in E; destruct E as [E _]; apply andb_prop in E; apply E.
Qed.

Definition returns (M : nat) (r : answer) (o : outcome euclid_return) : Prop :=
  exists e, o = Ok e /\ valid M (e_min e) /\ val (e_min e) = n_min r /\ valid M (e_max e) /\ val (e_max e) = n_max r /\
    e_argmin e = n_argmin r /\ e_argmax e = n_argmax r.

Lemma minmax_loop_ok cfg M junk a b N : 64 * Z.of_nat M < W -> 1 <= N < W ->
  forall fuel ok max ai bi si ui r, valid M max -> val max = b -> valid M ai -> valid M bi -> state a b N (val ai) (val bi) si ui ->
  euclid fuel ok b N (val ai) (val bi) si ui = Some (true, r) -> (n_k r = 0 \/ ~ carry_lost (n_k r) (n_y r)) ->
  returns M r (minmax_loop cfg M junk N fuel max ai bi si ui).
Proof.
  intros HM HN. induction fuel as [|fuel IH]; intros ok max ai bi si ui r Vm Em Va Vb S; cbn [euclid minmax_loop]; [discriminate|].
  intros E L. set (j := junk fuel). cbv zeta.
  pose proof (st_a _ _ _ _ _ _ _ S) as A. pose proof (st_b _ _ _ _ _ _ _ S) as B. pose proof (st_s _ _ _ _ _ _ _ S) as Sb. pose proof (st_u _ _ _ _ _ _ _ S) as Ub.
  pose proof (st_det _ _ _ _ _ _ _ S) as D. pose proof (v_pos _ _ Va) as M1. pose proof (val_bounds M max Vm) as Bm. rewrite Em in Bm.
  assert (N1 : near (val bi) (val ai) = true).
  { destruct (N <? _) in E; [injection E as E _; apply andb_prop in E; apply E|].
    destruct (N <? _) in E; [injection E as E _; apply andb_prop in E; destruct E as [E _]; apply andb_prop in E; apply E|].
    destruct (_ && _) in E; [injection E as E _ | apply euclid_flag in E]; apply andb_prop in E; destruct E as [E _]; apply andb_prop in E; apply E. }
  destruct (divide_near cfg M (j 0%nat) (j 1%nat) bi ai HM Vb Va ltac:(lia) A N1) as (nb & qi & E1 & Vnb & Vq & Eq & Enb & Lq).
  destruct (long_division cfg M (j 0%nat) (j 1%nat) bi ai) as [[nb0 q0]| | |] eqn:E0; cbn [bind] in E1 |- *; try discriminate. rewrite E1. cbn [bind].
  destruct (quotient_spec (val bi) (val ai) ltac:(lia) A) as [Q0 Qr]. set (q := (val bi - 1) / val ai) in *. set (b' := val bi - q * val ai) in *.
  destruct (big_of_valid M (j 2%nat) si ltac:(lia) ltac:(lia)) as (sb & -> & Vs & Es). cbn [bind].
  assert (U1 : q * si + ui <= b) by (clear - A B Sb Ub D Q0 Qr; unfold b' in Qr; nia).
  assert (U0 : 0 <= q * si) by (apply Z.mul_nonneg_nonneg; lia).
  destruct (mul_small cfg M (j 3%nat) (j 4%nat) qi sb Vq Vs Lq ltac:(lia)) as (nu0 & -> & Vnu0 & Enu0); [rewrite Eq, Es; lia|]. cbn [bind]. rewrite Eq, Es in Enu0.
  destruct (add_element_tidy cfg M nu0 ui Vnu0 ltac:(lia)) as (nu & -> & Vnu & Enu); [lia|]. cbn [bind]. rewrite Enu0 in Enu. set (u' := q * si + ui) in *.
  change (big_gt_element M nu N) with (big_gt_element M (tidy nu) N).
  destruct (compare_elements_ok M (tidy nu) N Vnu ltac:(lia)) as (_ & _ & -> & _ & _ & _). cbn [bind]. rewrite Z.gtb_ltb, tidy_val, Enu.
  destruct (Z.ltb_spec N u') as [G|G].
  - (* the last turn: argmax among ui + k si *)
    injection E as _ <-. cbn [n_k n_y] in L.
    destruct (end_u a b N (val ai) (val bi) si ui q S Q0 ltac:(lia) G) as (K & Kn & _ & R2 & R3). set (k := (N - ui) / si) in *.
    assert (Kai : k * val ai < val bi) by nia. assert (K0 : 0 <= k * val ai) by (apply Z.mul_nonneg_nonneg; lia). assert (Ks : 0 <= k * si) by (apply Z.mul_nonneg_nonneg; lia).
    unfold udiv. destruct (Z.eqb_spec si 0); [lia|]. cbn [bind]. rewrite (wrap_small 64 (N - ui)) by lia. fold k.
    destruct (sub_assign_valid cfg M max bi Vm Vb ltac:(lia)) as (m1 & -> & Vm1 & Em1). cbn [bind].
    destruct (element_times_ok cfg M (j 5%nat) (j 6%nat) (j 7%nat) k ai ltac:(lia) Va A ltac:(lia) L) as (x & -> & Lx & Ex & Px). cbn [bind].
    destruct (add_assign_loose cfg M (fun _ => elements x) m1 x Vm1 Lx) as (m2 & -> & Vm2 & Em2); [| lia | reflexivity |].
    + intros P. destruct Px as [Vx|[K1 Px]]; [apply (val_pos_lower M x Vx); lia|]. exfalso. specialize (R3 1 ltac:(lia)).
      pose proof (pos_mono M ai m1 Va Vm1 ltac:(lia)). lia.
    + cbn [bind]. eexists. split; [reflexivity|]. cbn [e_min e_max e_argmin e_argmax n_min n_max n_argmin n_argmax].
      rewrite !wrap_small by (rewrite ?wrap_small by lia; lia). repeat apply conj; try assumption; try reflexivity. lia.
  - pose proof (turn_u a b N (val ai) (val bi) si ui q S Q0 ltac:(unfold b' in Qr; lia) G) as S'. fold b' u' in S'.
    pose proof (st_u _ _ _ _ _ _ _ S') as Ub'. pose proof (st_det _ _ _ _ _ _ _ S') as D'.
    assert (Pnu : element_pos nu = 0%nat) by (apply (small_pos M (tidy nu) Vnu); rewrite tidy_val; lia).
    assert (Ev : elements nu 0%nat = u') by (rewrite <- (val_single nu Pnu); exact Enu).
    rewrite cassert_ok by (apply Nat.eqb_eq; exact Pnu). cbn [bind].
    assert (N2 : near (val ai) b' = true).
    { destruct (N <? _) in E; [injection E as E _; apply andb_prop in E; apply E|].
      destruct (_ && _) in E; [injection E as E _ | apply euclid_flag in E]; apply andb_prop in E; apply E. }
    rewrite <- Enb in N2. destruct (divide_near cfg M (j 8%nat) (j 9%nat) ai nb HM Va Vnb A ltac:(lia) N2) as (na & pi & E3 & Vna & Vp & Ep & Ena & Lp).
    destruct (long_division cfg M (j 8%nat) (j 9%nat) ai nb) as [[na0 p0]| | |] eqn:E4; cbn [bind] in E3 |- *; try discriminate. rewrite E3. cbn [bind].
    rewrite Enb in Ep, Ena. destruct (quotient_spec (val ai) b' A ltac:(lia)) as [P0 Pr]. set (p := (val ai - 1) / b') in *. set (a' := val ai - p * b') in *.
    assert (P1 : p * u' + si <= b) by (clear - Qr Sb Ub' D' P0 Pr; unfold a' in Pr; nia).
    assert (P2 : 0 <= p * u') by (apply Z.mul_nonneg_nonneg; lia).
    change (big_mul cfg M (j 10%nat) (j 11%nat) pi nu) with (big_mul cfg M (j 10%nat) (j 11%nat) pi (tidy nu)).
    destruct (mul_small cfg M (j 10%nat) (j 11%nat) pi (tidy nu) Vp Vnu Lp) as (ns0 & -> & Vns0 & Ens0); [rewrite tidy_val; lia | rewrite tidy_val, Ep, Enu; lia|].
    cbn [bind]. rewrite tidy_val, Ep, Enu in Ens0.
    destruct (add_element_tidy cfg M ns0 si Vns0 ltac:(lia)) as (ns & -> & Vns & Ens); [lia|]. cbn [bind]. rewrite Ens0 in Ens. set (s' := p * u' + si) in *.
    change (big_gt_element M ns N) with (big_gt_element M (tidy ns) N).
    destruct (compare_elements_ok M (tidy ns) N Vns ltac:(lia)) as (_ & _ & -> & _ & _ & _). cbn [bind]. rewrite Z.gtb_ltb, tidy_val, Ens.
    rewrite (sel_ok M (elements nu) 0) by lia. cbn [bind]. rewrite Ev.
    destruct (Z.ltb_spec N s') as [G2|G2].
    + (* the last turn: argmin among si + k u' *)
      injection E as _ <-. cbn [n_k n_y] in L.
      assert (Ab : val ai <= b).
      { destruct (Z_le_gt_dec (val ai) b) as [Q|Q]; [exact Q|]. exfalso.
        assert (u' = 0) by (clear - Ub' D' Q Qr Sb A; nia). unfold s' in G2. lia. }
      destruct (end_s a b N (val ai) b' si u' p S' P0 ltac:(unfold a' in Pr; lia) Ab G2 ltac:(lia)) as (U2 & K & Kn & Ab' & _ & R2 & R3). set (k := (N - si) / u') in *.
      assert (Kb : k * b' < val ai) by (clear - K Pr Qr P0; unfold a' in Pr; nia). assert (K0 : 0 <= k * b') by (apply Z.mul_nonneg_nonneg; lia). assert (Ks : 0 <= k * u') by (apply Z.mul_nonneg_nonneg; lia).
      unfold udiv. destruct (Z.eqb_spec u' 0); [lia|]. cbn [bind]. rewrite (wrap_small 64 (N - si)) by lia. fold k.
      pose proof (val_bounds M ai Va) as Ba.
      destruct (element_times_ok cfg M (j 12%nat) (j 13%nat) (j 14%nat) k nb ltac:(lia) Vnb ltac:(lia) ltac:(rewrite Enb; lia) ltac:(rewrite Enb; exact L)) as (x & -> & Lx & Ex & Px). cbn [bind].
      rewrite Enb in Ex. destruct (sub_assign_loose cfg M ai x Va Lx) as (mn & -> & Vmn & Emn); [|lia|].
      * destruct Px as [Vx|[K1 Px]]; [apply (pos_mono M x ai Vx Va); lia|]. rewrite Px. apply (pos_mono M nb ai Vnb Va). lia.
      * cbn [bind]. destruct (sub_assign_valid cfg M max nb Vm Vnb ltac:(lia)) as (mx & -> & Vmx & Emx). cbn [bind].
        eexists. split; [reflexivity|]. cbn [e_min e_max e_argmin e_argmax n_min n_max n_argmin n_argmax].
        rewrite !wrap_small by (rewrite ?wrap_small by lia; lia). repeat apply conj; try assumption; try reflexivity; lia.
    + pose proof (turn_s a b N (val ai) b' si u' p S' P0 ltac:(unfold a' in Pr; lia) G2) as S2. fold a' s' in S2.
      assert (Pns : element_pos ns = 0%nat) by (apply (small_pos M (tidy ns) Vns); rewrite tidy_val; pose proof (st_s _ _ _ _ _ _ _ S2); lia).
      assert (Es' : elements ns 0%nat = s') by (rewrite <- (val_single ns Pns); exact Ens).
      rewrite cassert_ok by (apply Nat.eqb_eq; exact Pns). cbn [bind]. rewrite (sel_ok M (elements ns) 0) by lia. cbn [bind]. rewrite Es'.
      rewrite (big_eq_ok M nb bi Vnb Vb), Enb. cbn [bind].
      assert (Eb : (if b' =? val bi then big_eq M na ai else Ok false) = Ok ((b' =? val bi) && (a' =? val ai))).
      { destruct (b' =? val bi); [|reflexivity]. rewrite (big_eq_ok M na ai Vna Va), Ena. reflexivity. }
      rewrite Eb. cbn [bind]. destruct ((b' =? val bi) && (a' =? val ai)) eqn:E5.
      * injection E as _ <-. apply andb_prop in E5. destruct E5 as [E5 E6]. apply Z.eqb_eq in E5, E6.
        assert (q = 0) by (clear - E5 A Q0; unfold b' in E5; nia). assert (p = 0) by (clear - E6 Qr P0; unfold a' in E6; nia).
        rewrite cassert_ok by (apply Z.eqb_eq; unfold u'; lia). cbn [bind]. rewrite cassert_ok by (apply Z.eqb_eq; unfold s'; lia). cbn [bind].
        destruct (sub_assign_valid cfg M max nb Vm Vnb ltac:(lia)) as (mx & -> & Vmx & Emx). cbn [bind].
        pose proof (st_det _ _ _ _ _ _ _ S2) as D2.
        assert (Sum : s' + u' <= b) by (clear - D2 Pr Qr E5 E6 Ub' S2; pose proof (st_s _ _ _ _ _ _ _ S2); nia).
        change (add_assign cfg M (fun _ => elements nu) ns (element_pos nu)) with (add_assign cfg M (fun _ => elements (tidy nu)) (tidy ns) (element_pos (tidy nu))).
        destruct (add_assign_valid cfg M (fun _ => elements (tidy nu)) (tidy ns) (tidy nu) Vns Vnu) as (sm & -> & Vsm & Esm); [rewrite !tidy_val; lia | reflexivity|]. cbn [bind].
        rewrite !tidy_val, Ens, Enu in Esm. destruct (compare_elements_ok M sm N Vsm ltac:(lia)) as (_ & _ & -> & _ & _ & _). cbn [bind]. rewrite Z.gtb_ltb, Esm.
        destruct (Z.ltb_spec N (s' + u')) as [G3|G3]; cbn [n_min n_max n_argmin n_argmax].
        -- eexists. split; [reflexivity|]. cbn [e_min e_max e_argmin e_argmax n_min n_max n_argmin n_argmax]. repeat apply conj; try assumption; try reflexivity. lia.
        -- pose proof (st_s _ _ _ _ _ _ _ S2). assert (Psm : element_pos sm = 0%nat) by (apply (small_pos M sm Vsm); lia).
           rewrite cassert_ok by (apply Nat.eqb_eq; exact Psm). cbn [bind]. destruct (big_of_valid M (j 15%nat) 0 ltac:(lia) ltac:(lia)) as (z0 & -> & Vz & Ez). cbn [bind].
           rewrite sel_ok by lia. cbn [bind]. rewrite <- (val_single sm Psm), Esm.
           eexists. split; [reflexivity|]. cbn [e_min e_max e_argmin e_argmax n_min n_max n_argmin n_argmax]. repeat apply conj; try assumption; try reflexivity. lia.
      * rewrite <- Ena, <- Enb in S2, E. apply (IH _ max na nb s' u' r Vm Em Vna Vnb S2 E L).
Qed.

Lemma minmax_follows cfg M junk a b N r : 64 * Z.of_nat M < W -> 1 <= N < W -> valid M a -> valid M b -> 0 < val a -> 0 < val b ->
  euclid 128 true (val b) N (val a) (val b) 1 0 = Some (true, r) -> (n_k r = 0 \/ ~ carry_lost (n_k r) (n_y r)) ->
  returns M r (minmax_euclid cfg M junk N a b).
Proof.
  intros HM HN Va Vb Pa Pb E L. apply (minmax_loop_ok cfg M junk (val a) (val b) N HM HN 128 true); try assumption; try reflexivity.
  apply start_state; lia.
Qed.
