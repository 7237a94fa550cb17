(** * Ryu's loops: the digits removed are those [RyuCore] describes *)

From Coq Require Import ZArith List Bool Lia.
From Verif Require Import Machine Model CharsModel RyuModel Arith RyuArith RyuCore RyuScaled RyuScale.
Open Scope Z_scope.

Definition st (s : digits_state) : rstate := mk_rstate (d_vr s) (d_vp s) (d_vm s) (d_vmtz s) (d_vrtz s) (d_last s).
Definition going (s : rstate) (k : nat) : Prop := forall j, (j < k)%nat -> s_vm s / 10 ^ Z.of_nat (S j) < s_vp s / 10 ^ Z.of_nat (S j).
Definition ended (s : rstate) (k : nat) : Prop := s_vp s / 10 ^ Z.of_nat (S k) <= s_vm s / 10 ^ Z.of_nat (S k).

Lemma p1 : 10 ^ Z.of_nat 1 = 10.
Proof. reflexivity. Qed.
Lemma going_0 s : going s 0.
Proof. intros j Hj. lia. Qed.
Lemma going_S s k : s_vm s / 10 < s_vp s / 10 -> going (step s) k -> going s (S k).
Proof.
  intros H1 H2 j Hj. destruct j as [|j]; [rewrite p1; exact H1|]. specialize (H2 j ltac:(lia)). cbn [step s_vm s_vp] in H2. rewrite !div_S in H2. exact H2.
Qed.
Lemma ended_S s k : ended (step s) k -> ended s (S k).
Proof. unfold ended. cbn [step s_vm s_vp]. rewrite !div_S. auto. Qed.

Lemma i32_small x : - 2 ^ 31 <= x < 2 ^ 31 -> i32 x = Ok x.
Proof. intros H. unfold i32. rewrite (proj2 (Z.leb_le _ _)), (proj2 (Z.ltb_lt _ _)) by lia. reflexivity. Qed.

(** enough fuel for a number with fewer digits *)
Definition fuel_for (fuel : nat) (v : Z) : Prop := (fuel <> O)%nat /\ v < 10 ^ Z.of_nat fuel.
Lemma fuel_step fuel v : fuel_for (S fuel) v -> 0 < v / 10 -> fuel_for fuel (v / 10).
Proof.
  intros [_ H] Hv. rewrite p10_S in H. assert (v / 10 < 10 ^ Z.of_nat fuel) by (apply Z.div_lt_upper_bound; lia).
  split; [|assumption]. intros ->. cbn in H0. lia.
Qed.

Definition fits (fuel : nat) (s : digits_state) (bound : Z) : Prop :=
  0 <= d_vr s < bound /\ 0 <= d_vp s < bound /\ 0 <= d_vm s < bound /\ 0 <= d_removed s /\ d_removed s + Z.of_nat fuel < 2 ^ 31.
Lemma div10_range v b : 0 <= v < b -> 0 <= v / 10 < b.
Proof. intros H. split; [apply Z.div_pos; lia|]. eapply Z.le_lt_trans; [|apply H]. apply Z.div_le_upper_bound; lia. Qed.

(** ** Floats *)

Lemma f2d_loop1_ok : forall fuel s, fits fuel s (2 ^ 64) -> fuel_for fuel (d_vp s) -> exists k s',
  f2d_loop1 fuel s = Ok s' /\ st s' = steps k (st s) /\ d_removed s' = d_removed s + Z.of_nat k /\ going (st s) k /\ ended (st s) k /\ (k <= fuel)%nat.
Proof.
  induction fuel as [|fuel IH]; intros s Hf Hv; [destruct Hv as [Hv _]; elim Hv; reflexivity|].
  cbn [f2d_loop1]. destruct Hf as (H1 & H2 & H3 & H4 & H5). destruct (Z.ltb_spec (d_vm s / 10) (d_vp s / 10)) as [L|L].
  - rewrite i32_small by lia. cbn [bind]. set (s1 := mk_digits _ _ _ _ _ _ _).
    assert (0 <= d_vm s / 10) by (apply Z.div_pos; lia).
    destruct (IH s1) as (k & s' & E1 & E2 & E3 & E4 & E5 & E6).
    + unfold fits, s1. cbn [d_vr d_vp d_vm d_removed]. pose proof (div10_range _ _ H1). pose proof (div10_range _ _ H2). pose proof (div10_range _ _ H3). lia.
    + apply fuel_step; [exact Hv|lia].
    + exists (S k), s'. split; [exact E1|]. split; [exact E2|]. split; [rewrite E3; unfold s1; cbn [d_removed]; lia|].
      split; [apply going_S; [exact L|exact E4]|]. split; [apply ended_S; exact E5|lia].
  - exists O, s. split; [reflexivity|]. split; [reflexivity|]. split; [cbn; lia|]. split; [apply going_0|]. split; [unfold ended; rewrite p1; exact L|lia].
Qed.

Lemma f2d_loop3_ok : forall fuel s, fits fuel s (2 ^ 64) -> fuel_for fuel (d_vp s) -> d_vmtz s = false -> d_vrtz s = false -> exists k s',
  f2d_loop3 fuel s = Ok s' /\ st s' = steps k (st s) /\ d_removed s' = d_removed s + Z.of_nat k /\ going (st s) k /\ ended (st s) k /\ (k <= fuel)%nat.
Proof.
  induction fuel as [|fuel IH]; intros s Hf Hv Z1 Z2; [destruct Hv as [Hv _]; elim Hv; reflexivity|].
  cbn [f2d_loop3]. destruct Hf as (H1 & H2 & H3 & H4 & H5). destruct (Z.ltb_spec (d_vm s / 10) (d_vp s / 10)) as [L|L].
  - rewrite i32_small by lia. cbn [bind]. set (s1 := mk_digits _ _ _ _ _ _ _).
    assert (0 <= d_vm s / 10) by (apply Z.div_pos; lia).
    destruct (IH s1) as (k & s' & E1 & E2 & E3 & E4 & E5 & E6).
    + unfold fits, s1. cbn [d_vr d_vp d_vm d_removed]. pose proof (div10_range _ _ H1). pose proof (div10_range _ _ H2). pose proof (div10_range _ _ H3). lia.
    + apply fuel_step; [exact Hv|lia].
    + exact Z1.
    + exact Z2.
    + assert (ES : st s1 = step (st s)) by (unfold st, step, s1; cbn; rewrite Z1, Z2; reflexivity). rewrite ES in *.
      exists (S k), s'. split; [exact E1|]. split; [exact E2|]. split; [rewrite E3; unfold s1; cbn [d_removed]; lia|].
      split; [apply going_S; [exact L|exact E4]|]. split; [apply ended_S; exact E5|lia].
  - exists O, s. split; [reflexivity|]. split; [reflexivity|]. split; [cbn; lia|]. split; [apply going_0|]. split; [unfold ended; rewrite p1; exact L|lia].
Qed.

Definition zeros (s : rstate) (k : nat) : Prop := forall j, (j < k)%nat -> (s_vm s / 10 ^ Z.of_nat j) mod 10 = 0.
Lemma zeros_S s k : s_vm s mod 10 = 0 -> zeros (step s) k -> zeros s (S k).
Proof.
  intros H1 H2 j Hj. destruct j as [|j]; [cbn; rewrite Z.div_1_r; exact H1|]. specialize (H2 j ltac:(lia)). cbn [step s_vm] in H2. rewrite div_S in H2. exact H2.
Qed.

Lemma f2d_loop2_ok : forall fuel s, fits fuel s (2 ^ 64) -> fuel_for fuel (d_vm s) -> 0 < d_vm s -> exists k s',
  f2d_loop2 fuel s = Ok s' /\ st s' = steps k (st s) /\ d_removed s' = d_removed s + Z.of_nat k /\ zeros (st s) k /\ d_vm s' mod 10 <> 0 /\ (k <= fuel)%nat.
Proof.
  induction fuel as [|fuel IH]; intros s Hf Hv Hp; [destruct Hv as [Hv _]; elim Hv; reflexivity|].
  cbn [f2d_loop2]. destruct Hf as (H1 & H2 & H3 & H4 & H5). destruct (Z.eqb_spec (d_vm s mod 10) 0) as [L|L].
  - rewrite i32_small by lia. cbn [bind]. set (s1 := mk_digits _ _ _ _ _ _ _).
    assert (0 < d_vm s / 10) by (pose proof (Z.div_mod (d_vm s) 10 ltac:(lia)); lia).
    destruct (IH s1) as (k & s' & E1 & E2 & E3 & E4 & E5 & E6).
    + unfold fits, s1. cbn [d_vr d_vp d_vm d_removed]. pose proof (div10_range _ _ H1). pose proof (div10_range _ _ H2). pose proof (div10_range _ _ H3). lia.
    + apply fuel_step; [exact Hv|lia].
    + exact H.
    + assert (ES : st s1 = step (st s)) by (unfold st, step, s1; cbn; rewrite L, andb_true_r; reflexivity). rewrite ES in *.
      exists (S k), s'. split; [exact E1|]. split; [exact E2|]. split; [rewrite E3; unfold s1; cbn [d_removed]; lia|].
      split; [apply zeros_S; [exact L|exact E4]|]. split; [exact E5|lia].
  - exists O, s. split; [reflexivity|]. split; [reflexivity|]. split; [cbn; lia|]. split; [intros j Hj; lia|]. split; [exact L|lia].
Qed.

(** ** Doubles *)

Lemma d2d_loop1_ok rc : forall fuel s, fits fuel s (2 ^ 64) -> fuel_for fuel (d_vp s) -> exists k s',
  d2d_loop1 rc fuel s = Ok s' /\ st s' = steps k (st s) /\ d_removed s' = d_removed s + Z.of_nat k /\ going (st s) k /\ ended (st s) k /\ (k <= fuel)%nat.
Proof.
  induction fuel as [|fuel IH]; intros s Hf Hv; [destruct Hv as [Hv _]; elim Hv; reflexivity|].
  cbn [d2d_loop1]. destruct Hf as (H1 & H2 & H3 & H4 & H5). rewrite !div10_ok, !low_rem_ok by lia.
  pose proof (Z.mod_pos_bound (d_vr s) 10 ltac:(lia)) as HM. rewrite (wrap_small 8) by lia.
  destruct (Z.leb_spec (d_vp s / 10) (d_vm s / 10)) as [L|L].
  - exists O, s. split; [reflexivity|]. split; [reflexivity|]. split; [cbn; lia|]. split; [apply going_0|]. split; [unfold ended; rewrite p1; exact L|lia].
  - rewrite i32_small by lia. cbn [bind]. set (s1 := mk_digits _ _ _ _ _ _ _).
    assert (0 <= d_vm s / 10) by (apply Z.div_pos; lia).
    destruct (IH s1) as (k & s' & E1 & E2 & E3 & E4 & E5 & E6).
    + unfold fits, s1. cbn [d_vr d_vp d_vm d_removed]. pose proof (div10_range _ _ H1). pose proof (div10_range _ _ H2). pose proof (div10_range _ _ H3). lia.
    + apply fuel_step; [exact Hv|lia].
    + exists (S k), s'. split; [exact E1|]. split; [exact E2|]. split; [rewrite E3; unfold s1; cbn [d_removed]; lia|].
      split; [apply going_S; [exact L|exact E4]|]. split; [apply ended_S; exact E5|lia].
Qed.

Lemma d2d_loop2_ok rc : forall fuel s, fits fuel s (2 ^ 64) -> fuel_for fuel (d_vm s) -> 0 < d_vm s -> exists k s',
  d2d_loop2 rc fuel s = Ok s' /\ st s' = steps k (st s) /\ d_removed s' = d_removed s + Z.of_nat k /\ zeros (st s) k /\ d_vm s' mod 10 <> 0 /\ (k <= fuel)%nat.
Proof.
  induction fuel as [|fuel IH]; intros s Hf Hv Hp; [destruct Hv as [Hv _]; elim Hv; reflexivity|].
  cbn [d2d_loop2]. destruct Hf as (H1 & H2 & H3 & H4 & H5). rewrite !div10_ok, !low_rem_ok by lia.
  pose proof (Z.mod_pos_bound (d_vr s) 10 ltac:(lia)) as HM. rewrite (wrap_small 8) by lia.
  destruct (Z.eqb_spec (d_vm s mod 10) 0) as [L|L]; cbn [negb].
  - rewrite i32_small by lia. cbn [bind]. set (s1 := mk_digits _ _ _ _ _ _ _).
    assert (0 < d_vm s / 10) by (pose proof (Z.div_mod (d_vm s) 10 ltac:(lia)); lia).
    destruct (IH s1) as (k & s' & E1 & E2 & E3 & E4 & E5 & E6).
    + unfold fits, s1. cbn [d_vr d_vp d_vm d_removed]. pose proof (div10_range _ _ H1). pose proof (div10_range _ _ H2). pose proof (div10_range _ _ H3). lia.
    + apply fuel_step; [exact Hv|lia].
    + exact H.
    + assert (ES : st s1 = step (st s)) by (unfold st, step, s1; cbn; rewrite L, andb_true_r; reflexivity). rewrite ES in *.
      exists (S k), s'. split; [exact E1|]. split; [exact E2|]. split; [rewrite E3; unfold s1; cbn [d_removed]; lia|].
      split; [apply zeros_S; [exact L|exact E4]|]. split; [exact E5|lia].
  - exists O, s. split; [reflexivity|]. split; [reflexivity|]. split; [cbn; lia|]. split; [intros j Hj; lia|]. split; [exact L|lia].
Qed.

Lemma d2d_loop3_ok rc : forall fuel s removed, 0 <= s_vr s < 2 ^ 64 -> 0 <= s_vp s < 2 ^ 64 -> 0 <= s_vm s < 2 ^ 64 ->
  0 <= removed -> removed + Z.of_nat fuel < 2 ^ 31 -> fuel_for fuel (s_vp s) -> s_vmtz s = false -> s_vrtz s = false -> exists k,
  d2d_loop3 rc fuel (s_vr s) (s_vp s) (s_vm s) (5 <=? s_last s) removed =
    Ok (s_vr (steps k s), s_vm (steps k s), 5 <=? s_last (steps k s), removed + Z.of_nat k) /\
  going s k /\ ended s k /\ (k <= fuel)%nat.
Proof.
  induction fuel as [|fuel IH]; intros s removed H1 H2 H3 H4 H5 Hv Z1 Z2; [destruct Hv as [Hv _]; elim Hv; reflexivity|].
  cbn [d2d_loop3]. rewrite !div10_ok, !low_rem_ok by lia.
  destruct (Z.leb_spec (s_vp s / 10) (s_vm s / 10)) as [L|L].
  - exists O. cbn [steps]. rewrite Z.add_0_r. split; [reflexivity|]. split; [apply going_0|]. split; [unfold ended; rewrite p1; exact L|lia].
  - rewrite i32_small by lia. cbn [bind].
    assert (0 <= s_vm s / 10) by (apply Z.div_pos; lia).
    destruct (IH (step s) (removed + 1)) as (k & E1 & E2 & E3 & E4).
    + apply div10_range; assumption.
    + apply div10_range; assumption.
    + apply div10_range; assumption.
    + lia.
    + lia.
    + apply fuel_step; [exact Hv|lia].
    + cbn [step s_vmtz]. rewrite Z1. reflexivity.
    + cbn [step s_vrtz]. rewrite Z2. reflexivity.
    + exists (S k). split; [|split; [apply going_S; [exact L|exact E2]|split; [apply ended_S; exact E3|lia]]].
      cbn [step s_vr s_vp s_vm s_last] in E1. rewrite E1. cbn [steps]. f_equal. f_equal. lia.
Qed.

(** ** Step 4 as a whole *)

Section Shorten.
Variables (f : fmt) (e2 n sh : Z) (c : scaled).
Hypothesis Ha : arguments f e2 n sh.
Hypothesis Hc : scaled_ok f e2 n sh c.
Let acc := Z.even n.
Let R := 4 * n * rS f e2.
Let P := (4 * n + 2) * rS f e2.
Let M := (4 * n - 1 - sh) * rS f e2.
Let D := rD f e2.
Let s0 := mk_rstate (sc_vr c) (sc_vp c) (sc_vm c) (sc_vmtz c) (sc_vrtz c) (sc_last c).

Lemma section_facts : 0 < D /\ D <= rS f e2 /\ P = R + 2 * rS f e2 /\ 0 < M /\ M <= R - rS f e2 /\ R - 2 * rS f e2 <= M.
Proof.
  pose proof (so_D _ _ _ _ _ Hc) as HD. pose proof (so_S _ _ _ _ _ Hc) as HS. destruct Ha as [_ Hn Hsh _]. fold D in HD, HS |- *.
  unfold P, R, M. repeat split; try lia; nia.
Qed.

Lemma general k1 k2 : going s0 k1 -> ended s0 k1 -> (s_vmtz (steps k1 s0) = false -> k2 = O) ->
  (s_vmtz (steps k1 s0) = true -> zeros (steps k1 s0) k2 /\ s_vm (steps k2 (steps k1 s0)) mod 10 <> 0) ->
  best R P M D acc (k1 + k2) (result acc (steps (k1 + k2) s0)).
Proof.
  intros H1 H2 H3 H4. destruct section_facts as (F1 & F2 & F3 & F4 & F5 & F6).
  pose proof (so_flags _ _ _ _ _ Hc) as Fl. fold R P M D acc in Fl.
  assert (E : s0 = mk_rstate (R / D) (sc_vp c) (M / D) (sc_vmtz c) (sc_vrtz c) (sc_last c)).
  { unfold s0. rewrite (so_vr _ _ _ _ _ Hc), (so_vm _ _ _ _ _ Hc). reflexivity. }
  pose proof (removal R P M (rS f e2) D acc F1 F2 F3 F4 F5 F6 (sc_vp c) (sc_last c) (sc_vmtz c) (sc_vrtz c) Fl (k1 + k2)) as Rm.
  rewrite <- E in Rm. apply Rm. unfold stopped. rewrite <- E. exists k1, k2. split; [reflexivity|].
  assert (Evm : M / D = s_vm s0) by (rewrite E; reflexivity). rewrite Evm. change (sc_vp c) with (s_vp s0).
  split; [exact H1|]. split; [exact H2|]. split; [exact H3|]. intros Z1. destruct (H4 Z1) as [Z2 Z3].
  destruct (steps_values k1 s0) as (_ & _ & V & _).
  assert (Dd : forall j, s_vm s0 / 10 ^ Z.of_nat (k1 + j) = s_vm (steps k1 s0) / 10 ^ Z.of_nat j).
  { intros j. rewrite V. pose proof (p10_pos k1). pose proof (p10_pos j). rewrite Z.div_div by lia. rewrite Nat2Z.inj_add, Z.pow_add_r by lia. reflexivity. }
  split.
  - intros j Hj. rewrite Dd. apply Z2. exact Hj.
  - rewrite Dd. destruct (steps_values k2 (steps k1 s0)) as (_ & _ & V2 & _). rewrite <- V2. exact Z3.
Qed.

Lemma out_bound T out : best R P M D acc T out -> 0 < out < 2 ^ word f.
Proof.
  intros [B _]. destruct section_facts as (F1 & F2 & F3 & F4 & F5 & F6).
  pose proof (so_flags _ _ _ _ _ Hc) as Fl. fold R P M D acc in Fl. pose proof (so_vp _ _ _ _ _ Hc) as Vp.
  unfold inside in B. destruct B as [B1 B2]. pose proof (p10_pos T) as HT.
  apply (proj1 (upper R P M D acc F1 _)) in B2.
  assert (0 < out * 10 ^ Z.of_nat T) by (clear - B1 F1 F4; destruct B1 as [B1|[_ B1]]; nia).
  assert (out * 10 ^ Z.of_nat T <= sc_vp c) by (destruct (fl_vp _ _ _ _ _ _ _ _ _ Fl) as [E|[E _]]; rewrite E; lia).
  split; [nia|]. nia.
Qed.

Lemma start_ranges : 0 <= sc_vr c < 2 ^ word f /\ 0 <= sc_vp c < 2 ^ word f /\ 0 <= sc_vm c < 2 ^ word f.
Proof.
  destruct section_facts as (F1 & F2 & F3 & F4 & F5 & F6). destruct (order R P M (rS f e2) D acc F1 F2 F3 F4 F5) as (O1 & O2 & O3 & O4).
  pose proof (so_flags _ _ _ _ _ Hc) as Fl. fold R P M D acc in Fl. pose proof (so_vp _ _ _ _ _ Hc) as Vp.
  pose proof (so_vr _ _ _ _ _ Hc) as Er. pose proof (so_vm _ _ _ _ _ Hc) as Em. fold R M D in Er, Em.
  assert ((if acc then P / D else (P - 1) / D) <= sc_vp c) by (destruct (fl_vp _ _ _ _ _ _ _ _ _ Fl) as [E|[E _]]; rewrite E; lia).
  rewrite Er, Em. lia.
Qed.

Lemma vm_positive k : s_vmtz (steps k s0) = true -> 0 < s_vm (steps k s0).
Proof.
  intros E. destruct (steps_values k s0) as (_ & _ & V & W). rewrite W in E. apply andb_prop in E. destruct E as [E1 E2]. apply Z.eqb_eq in E2.
  rewrite V. destruct section_facts as (F1 & F2 & F3 & F4 & F5 & F6). pose proof (so_flags _ _ _ _ _ Hc) as Fl. fold R P M D acc in Fl.
  destruct (fl_vm _ _ _ _ _ _ _ _ _ Fl E1) as [_ [z Hz]]. cbn [s0 s_vm] in E2 |- *. pose proof (so_vm _ _ _ _ _ Hc) as Em. fold M D in Em.
  assert (0 < sc_vm c) by (rewrite Em, Hz, Z.div_mul by lia; nia).
  pose proof (p10_pos k). pose proof (Z.div_mod (sc_vm c) (10 ^ Z.of_nat k) ltac:(lia)). rewrite E2 in H1. nia.
Qed.

Lemma word64 x : 0 <= x < 2 ^ word f -> 0 <= x < 2 ^ 64.
Proof. destruct f; cbn [word]; lia. Qed.

Lemma even_mod2 x : (x mod 2 =? 0) = Z.even x.
Proof. rewrite Zmod_even. destruct (Z.even x); reflexivity. Qed.

Lemma b2z_if (b : bool) : b2z b = if b then 1 else 0.
Proof. reflexivity. Qed.

End Shorten.

Lemma fuel_11 v : v < 2 ^ 32 -> fuel_for 11 v.
Proof. intros H. split; [discriminate|]. change (Z.of_nat 11) with 11. lia. Qed.
Lemma fuel_21 v : v < 2 ^ 64 -> fuel_for 21 v.
Proof. intros H. split; [discriminate|]. change (Z.of_nat 21) with 21. lia. Qed.

Lemma shrink v k b : 0 <= v < b -> 0 <= v / 10 ^ Z.of_nat k < b.
Proof.
  intros H. pose proof (p10_pos k). split; [apply Z.div_pos; lia|]. eapply Z.le_lt_trans; [|apply H]. apply Z.div_le_upper_bound; nia.
Qed.

Lemma f2d_shorten_ok e2 n sh c : arguments Binary32 e2 n sh -> scaled_ok Binary32 e2 n sh c -> exists T out,
  f2d_shorten c (Z.even n) = Ok (out, Z.of_nat T) /\ (T <= 30)%nat /\ 0 < out < 2 ^ 32 /\
  best (4 * n * rS Binary32 e2) ((4 * n + 2) * rS Binary32 e2) ((4 * n - 1 - sh) * rS Binary32 e2) (rD Binary32 e2) (Z.even n) T out.
Proof.
  intros Ha Hc. destruct (start_ranges _ _ _ _ _ Ha Hc) as (R1 & R2 & R3). cbn [word] in R1, R2, R3. unfold f2d_shorten.
  set (s := mk_digits _ _ _ _ _ _ _). set (s0 := mk_rstate (sc_vr c) (sc_vp c) (sc_vm c) (sc_vmtz c) (sc_vrtz c) (sc_last c)).
  assert (Hst : st s = s0) by reflexivity.
  assert (Fit : fits 11 s (2 ^ 64)) by (unfold fits, s; cbn [d_vr d_vp d_vm d_removed]; lia).
  destruct (sc_vmtz c || sc_vrtz c) eqn:Z0.
  - destruct (f2d_loop1_ok 11 s Fit (fuel_11 _ (proj2 R2))) as (k1 & s1 & E1 & E2 & E3 & E4 & E5 & E6). rewrite E1. cbn [bind].
    rewrite Hst in E2, E4, E5. cbn [d_removed s] in E3. destruct (steps_values k1 s0) as (V1 & V2 & V3 & V4).
    assert (Q : exists k2 s2, (if d_vmtz s1 then f2d_loop2 11 s1 else Ok s1) = Ok s2 /\ st s2 = steps k2 (steps k1 s0) /\ d_removed s2 = Z.of_nat k1 + Z.of_nat k2 /\
       (s_vmtz (steps k1 s0) = false -> k2 = O) /\
       (s_vmtz (steps k1 s0) = true -> zeros (steps k1 s0) k2 /\ s_vm (steps k2 (steps k1 s0)) mod 10 <> 0) /\ (k2 <= 11)%nat).
    { destruct (d_vmtz s1) eqn:Z1.
      - assert (Z2 : s_vmtz (steps k1 s0) = true) by (rewrite <- E2; exact Z1).
        destruct (f2d_loop2_ok 11 s1) as (k2 & s2 & G1 & G2 & G3 & G4 & G5 & G6).
        + change (d_vr s1) with (s_vr (st s1)) in *. unfold fits. change (d_vr s1) with (s_vr (st s1)). change (d_vp s1) with (s_vp (st s1)). change (d_vm s1) with (s_vm (st s1)).
          rewrite E2, V1, V2, V3, E3. cbn [s0 s_vr s_vp s_vm].
          pose proof (shrink _ k1 _ R1). pose proof (shrink _ k1 _ R2). pose proof (shrink _ k1 _ R3). lia.
        + apply fuel_11. change (d_vm s1) with (s_vm (st s1)). rewrite E2, V3. apply (shrink _ k1 _ R3).
        + change (d_vm s1) with (s_vm (st s1)). rewrite E2. exact (vm_positive _ _ _ _ _ Ha Hc k1 Z2).
        + exists k2, s2. rewrite E2 in G2, G4. split; [exact G1|]. split; [exact G2|]. split; [lia|]. split; [congruence|]. split; [|exact G6].
          intros _. split; [exact G4|]. rewrite <- G2. exact G5.
      - exists O, s1. split; [reflexivity|]. split; [exact E2|]. split; [lia|]. split; [reflexivity|]. split; [|lia].
        intros Z2. rewrite <- E2 in Z2. change (s_vmtz (st s1)) with (d_vmtz s1) in Z2. congruence. }
    destruct Q as (k2 & s2 & Q1 & Q2 & Q3 & Q4 & Q5 & Q6). rewrite Q1. cbn [bind].
    pose proof (general _ _ _ _ _ Ha Hc k1 k2 E4 E5 Q4 Q5) as B. rewrite steps_plus in B. fold s0 in B. rewrite <- Q2 in B.
    pose proof (out_bound _ _ _ _ _ Ha Hc _ _ B) as O. cbn [word] in O.
    exists (k1 + k2)%nat, (result (Z.even n) (st s2)). split; [|split; [lia|split; [exact O|exact B]]].
    rewrite Q3, <- Nat2Z.inj_add. f_equal. f_equal.
    rewrite even_mod2. change (wrap 32 (result (Z.even n) (st s2)) = result (Z.even n) (st s2)). apply wrap_small. lia.
  - apply orb_false_iff in Z0. destruct Z0 as [Z1 Z2].
    destruct (f2d_loop3_ok 11 s Fit (fuel_11 _ (proj2 R2)) Z1 Z2) as (k1 & s1 & E1 & E2 & E3 & E4 & E5 & E6). rewrite E1. cbn [bind].
    rewrite Hst in E2, E4, E5. cbn [d_removed s] in E3. destruct (steps_values k1 s0) as (V1 & V2 & V3 & V4).
    assert (Zf : s_vmtz (steps k1 s0) = false) by (rewrite V4; cbn [s0 s_vmtz]; rewrite Z1; reflexivity).
    assert (Zr : s_vrtz (steps k1 s0) = false).
    { destruct k1; [exact Z2|]. destruct (steps_last k1 s0) as [_ W]. rewrite W. cbn [s0 s_vrtz]. rewrite Z2. reflexivity. }
    pose proof (general _ _ _ _ _ Ha Hc k1 0 E4 E5 (fun _ => eq_refl) ltac:(fold s0; congruence)) as B. rewrite Nat.add_0_r in B. fold s0 in B. rewrite <- E2 in B, Zf, Zr.
    pose proof (out_bound _ _ _ _ _ Ha Hc _ _ B) as O. cbn [word] in O.
    exists k1, (result (Z.even n) (st s1)). split; [|split; [lia|split; [exact O|exact B]]].
    rewrite E3. f_equal. f_equal.
    replace (d_vr s1 + b2z ((d_vr s1 =? d_vm s1) || (5 <=? d_last s1))) with (result (Z.even n) (st s1)); [apply wrap_small; lia|].
    unfold result, rounds_up. rewrite Zf, Zr. cbn [negb andb]. rewrite orb_true_r, andb_true_r. reflexivity.
Qed.

Lemma two_digits v : (50 <=? v mod 100) = (5 <=? (v / 10) mod 10).
Proof.
  pose proof (Z.rem_mul_r v 10 10 ltac:(lia) ltac:(lia)) as E. change (10 * 10) with 100 in E.
  pose proof (Z.mod_pos_bound v 10 ltac:(lia)). apply eq_true_iff_eq. rewrite !Z.leb_le. lia.
Qed.

Lemma d2d_shorten_ok rc e2 n sh c : arguments Binary64 e2 n sh -> scaled_ok Binary64 e2 n sh c -> exists T out,
  d2d_shorten rc c (Z.even n) = Ok (out, Z.of_nat T) /\ (T <= 50)%nat /\ 0 < out < 2 ^ 64 /\
  best (4 * n * rS Binary64 e2) ((4 * n + 2) * rS Binary64 e2) ((4 * n - 1 - sh) * rS Binary64 e2) (rD Binary64 e2) (Z.even n) T out.
Proof.
  intros Ha Hc. destruct (start_ranges _ _ _ _ _ Ha Hc) as (R1 & R2 & R3). cbn [word] in R1, R2, R3. unfold d2d_shorten.
  set (s := mk_digits _ _ _ _ _ _ _). set (s0 := mk_rstate (sc_vr c) (sc_vp c) (sc_vm c) (sc_vmtz c) (sc_vrtz c) (sc_last c)).
  assert (Hst : st s = s0) by reflexivity.
  assert (Fit : fits 21 s (2 ^ 64)) by (unfold fits, s; cbn [d_vr d_vp d_vm d_removed]; lia).
  destruct (sc_vmtz c || sc_vrtz c) eqn:Z0.
  - destruct (d2d_loop1_ok rc 21 s Fit (fuel_21 _ (proj2 R2))) as (k1 & s1 & E1 & E2 & E3 & E4 & E5 & E6). rewrite E1. cbn [bind].
    rewrite Hst in E2, E4, E5. cbn [d_removed s] in E3. destruct (steps_values k1 s0) as (V1 & V2 & V3 & V4).
    assert (Q : exists k2 s2, (if d_vmtz s1 then d2d_loop2 rc 21 s1 else Ok s1) = Ok s2 /\ st s2 = steps k2 (steps k1 s0) /\ d_removed s2 = Z.of_nat k1 + Z.of_nat k2 /\
       (s_vmtz (steps k1 s0) = false -> k2 = O) /\
       (s_vmtz (steps k1 s0) = true -> zeros (steps k1 s0) k2 /\ s_vm (steps k2 (steps k1 s0)) mod 10 <> 0) /\ (k2 <= 21)%nat).
    { destruct (d_vmtz s1) eqn:Z1.
      - assert (Z2 : s_vmtz (steps k1 s0) = true) by (rewrite <- E2; exact Z1).
        destruct (d2d_loop2_ok rc 21 s1) as (k2 & s2 & G1 & G2 & G3 & G4 & G5 & G6).
        + unfold fits. change (d_vr s1) with (s_vr (st s1)). change (d_vp s1) with (s_vp (st s1)). change (d_vm s1) with (s_vm (st s1)).
          rewrite E2, V1, V2, V3, E3. cbn [s0 s_vr s_vp s_vm].
          pose proof (shrink _ k1 _ R1). pose proof (shrink _ k1 _ R2). pose proof (shrink _ k1 _ R3). lia.
        + apply fuel_21. change (d_vm s1) with (s_vm (st s1)). rewrite E2, V3. apply (shrink _ k1 _ R3).
        + change (d_vm s1) with (s_vm (st s1)). rewrite E2. exact (vm_positive _ _ _ _ _ Ha Hc k1 Z2).
        + exists k2, s2. rewrite E2 in G2, G4. split; [exact G1|]. split; [exact G2|]. split; [lia|]. split; [congruence|]. split; [|exact G6].
          intros _. split; [exact G4|]. rewrite <- G2. exact G5.
      - exists O, s1. split; [reflexivity|]. split; [exact E2|]. split; [lia|]. split; [reflexivity|]. split; [|lia].
        intros Z2. rewrite <- E2 in Z2. change (s_vmtz (st s1)) with (d_vmtz s1) in Z2. congruence. }
    destruct Q as (k2 & s2 & Q1 & Q2 & Q3 & Q4 & Q5 & Q6). rewrite Q1. cbn [bind].
    pose proof (general _ _ _ _ _ Ha Hc k1 k2 E4 E5 Q4 Q5) as B. rewrite steps_plus in B. fold s0 in B. rewrite <- Q2 in B.
    pose proof (out_bound _ _ _ _ _ Ha Hc _ _ B) as O. cbn [word] in O.
    exists (k1 + k2)%nat, (result (Z.even n) (st s2)). split; [|split; [lia|split; [exact O|exact B]]].
    rewrite Q3, <- Nat2Z.inj_add. f_equal. f_equal.
    rewrite even_mod2. change (wrap 64 (result (Z.even n) (st s2)) = result (Z.even n) (st s2)). apply wrap_small. lia.
  - apply orb_false_iff in Z0. destruct Z0 as [Z1 Z2]. rewrite !div100_ok, low_rem_ok by lia.
    assert (Last0 : (5 <=? s_last s0) = false) by (cbn [s0 s_last]; rewrite (so_last_double _ _ _ _ _ Hc eq_refl); reflexivity).
    assert (L : exists k, (if sc_vm c / 100 <? sc_vp c / 100
         then d2d_loop3 rc 21 (sc_vr c / 100) (sc_vp c / 100) (sc_vm c / 100) (50 <=? sc_vr c mod 100) 2
         else d2d_loop3 rc 21 (sc_vr c) (sc_vp c) (sc_vm c) (5 <=? s_last s0) 0) =
       Ok (s_vr (steps k s0), s_vm (steps k s0), 5 <=? s_last (steps k s0), Z.of_nat k) /\ going s0 k /\ ended s0 k /\ (k <= 23)%nat).
    { destruct (Z.ltb_spec (sc_vm c / 100) (sc_vp c / 100)) as [L|L].
      - assert (V : sc_vr c / 100 = s_vr (steps 2 s0) /\ sc_vp c / 100 = s_vp (steps 2 s0) /\ sc_vm c / 100 = s_vm (steps 2 s0)).
        { cbn [steps step s0 s_vr s_vp s_vm]. rewrite !Z.div_div by lia. auto. }
        destruct V as (V1 & V2 & V3).
        pose proof (shrink _ 2 _ R1) as K1. pose proof (shrink _ 2 _ R2) as K2. pose proof (shrink _ 2 _ R3) as K3. change (10 ^ Z.of_nat 2) with 100 in K1, K2, K3.
        assert (L1 : s_vm s0 / 10 < s_vp s0 / 10).
        { destruct (Z_lt_le_dec (s_vm s0 / 10) (s_vp s0 / 10)) as [|G]; [assumption|]. apply (Z.div_le_mono _ _ 10) in G; [|lia]. rewrite !Z.div_div in G by lia. cbn [s0 s_vp s_vm] in G. change (10 * 10) with 100 in G. lia. }
        assert (L2 : s_vm (step s0) / 10 < s_vp (step s0) / 10) by (cbn [step s_vm s_vp]; rewrite !Z.div_div by lia; exact L).
        destruct (d2d_loop3_ok rc 21 (steps 2 s0) 2) as (k & E1 & E2 & E3 & E4).
        + rewrite <- V1. lia.
        + rewrite <- V2. lia.
        + rewrite <- V3. lia.
        + lia.
        + change (Z.of_nat 21) with 21. lia.
        + rewrite <- V2. apply fuel_21. lia.
        + cbn [steps step s0 s_vmtz]. rewrite Z1. reflexivity.
        + cbn [steps step s0 s_vrtz]. rewrite Z2. reflexivity.
        + exists (2 + k)%nat. rewrite steps_plus. rewrite V1, V2, V3, two_digits. split; [|split; [|split; [|lia]]].
          * change ((sc_vr c / 10) mod 10) with (s_last (steps 2 s0)). rewrite E1. do 2 f_equal. lia.
          * exact (going_S _ _ L1 (going_S _ _ L2 E2)).
          * exact (ended_S _ _ (ended_S _ _ E3)).
      - destruct (d2d_loop3_ok rc 21 s0 0) as (k & E1 & E2 & E3 & E4); auto; try (change (Z.of_nat 21) with 21; cbn [s0 s_vr s_vp s_vm]; lia).
        + apply fuel_21. exact (proj2 R2).
        + exists k. split; [exact E1|]. split; [exact E2|]. split; [exact E3|lia]. }
    destruct L as (k & E1 & E2 & E3 & E4). rewrite Last0 in E1. rewrite E1. cbn [bind].
    destruct (steps_values k s0) as (V1 & V2 & V3 & V4).
    assert (Zf : s_vmtz (steps k s0) = false) by (rewrite V4; cbn [s0 s_vmtz]; rewrite Z1; reflexivity).
    assert (Zr : s_vrtz (steps k s0) = false).
    { destruct k; [exact Z2|]. destruct (steps_last k s0) as [_ W]. rewrite W. cbn [s0 s_vrtz]. rewrite Z2. reflexivity. }
    pose proof (general _ _ _ _ _ Ha Hc k 0 E2 E3 (fun _ => eq_refl) ltac:(fold s0; congruence)) as B. rewrite Nat.add_0_r in B. fold s0 in B.
    pose proof (out_bound _ _ _ _ _ Ha Hc _ _ B) as O. cbn [word] in O.
    exists k, (result (Z.even n) (steps k s0)). split; [|split; [lia|split; [exact O|exact B]]].
    f_equal. f_equal.
    replace (s_vr (steps k s0) + b2z ((s_vr (steps k s0) =? s_vm (steps k s0)) || (5 <=? s_last (steps k s0)))) with (result (Z.even n) (steps k s0)); [apply wrap_small; lia|].
    unfold result, rounds_up. rewrite Zf, Zr. cbn [negb andb]. rewrite orb_true_r, andb_true_r. reflexivity.
Qed.
