(** * The digit removal of Ryu, over the integers

    [R/D], [P/D], [M/D] are a number and the ends of its rounding interval in units of some power of ten.
    Removing digits from their integer parts until the interval contains no shorter number, and rounding, gives
    the closest of the shortest numbers inside, provided the trailing-zero flags are right in the cases below.
    Nothing here depends on the model. *)

From Coq Require Import ZArith List Bool Lia.
Open Scope Z_scope.

Record rstate := mk_rstate { s_vr : Z; s_vp : Z; s_vm : Z; s_vmtz : bool; s_vrtz : bool; s_last : Z }.
(** one digit removed *)
Definition step (s : rstate) : rstate :=
  mk_rstate (s_vr s / 10) (s_vp s / 10) (s_vm s / 10) (s_vmtz s && (s_vm s mod 10 =? 0))
            (s_vrtz s && (s_last s =? 0)) (s_vr s mod 10).
Fixpoint steps (k : nat) (s : rstate) : rstate := match k with O => s | S k => steps k (step s) end.

Lemma steps_plus j : forall k s, steps (j + k) s = steps k (steps j s).
Proof. induction j; intros; cbn; auto. Qed.

Lemma p10_pos k : 0 < 10 ^ Z.of_nat k.
Proof. apply Z.pow_pos_nonneg; lia. Qed.
Lemma p10_S k : 10 ^ Z.of_nat (S k) = 10 * 10 ^ Z.of_nat k.
Proof. rewrite Nat2Z.inj_succ, Z.pow_succ_r by lia. reflexivity. Qed.

Lemma div_S v k : v / 10 / 10 ^ Z.of_nat k = v / 10 ^ Z.of_nat (S k).
Proof. rewrite Z.div_div by (try apply p10_pos; lia). now rewrite p10_S. Qed.
Lemma mod_S v k : v mod 10 ^ Z.of_nat (S k) = 0 <-> v mod 10 = 0 /\ (v / 10) mod 10 ^ Z.of_nat k = 0.
Proof.
  pose proof (p10_pos k). rewrite !p10_S.
  rewrite Z.rem_mul_r by lia. pose proof (Z.mod_pos_bound v 10 ltac:(lia)).
  pose proof (Z.mod_pos_bound (v / 10) (10 ^ Z.of_nat k) ltac:(lia)). lia.
Qed.
Lemma mod_S_end v k : v mod 10 ^ Z.of_nat (S k) = 0 <-> v mod 10 ^ Z.of_nat k = 0 /\ (v / 10 ^ Z.of_nat k) mod 10 = 0.
Proof.
  pose proof (p10_pos k). rewrite p10_S, (Z.mul_comm 10). rewrite Z.rem_mul_r by lia.
  pose proof (Z.mod_pos_bound v (10 ^ Z.of_nat k) ltac:(lia)). pose proof (Z.mod_pos_bound (v / 10 ^ Z.of_nat k) 10 ltac:(lia)). nia.
Qed.
Lemma mod_S_bool v k : (v mod 10 ^ Z.of_nat (S k) =? 0) = (v mod 10 =? 0) && ((v / 10) mod 10 ^ Z.of_nat k =? 0).
Proof.
  destruct (v mod 10 ^ Z.of_nat (S k) =? 0) eqn:E; symmetry.
  - apply Z.eqb_eq, mod_S in E. rewrite !(proj2 (Z.eqb_eq _ _)) by tauto. reflexivity.
  - apply Z.eqb_neq in E. rewrite mod_S in E. apply andb_false_iff. rewrite !Z.eqb_neq. lia.
Qed.

Lemma steps_values : forall k s, s_vr (steps k s) = s_vr s / 10 ^ Z.of_nat k /\ s_vp (steps k s) = s_vp s / 10 ^ Z.of_nat k /\
  s_vm (steps k s) = s_vm s / 10 ^ Z.of_nat k /\ s_vmtz (steps k s) = s_vmtz s && (s_vm s mod 10 ^ Z.of_nat k =? 0).
Proof.
  induction k; intros s.
  - cbn. rewrite !Z.div_1_r, Z.mod_1_r, andb_true_r. auto.
  - cbn [steps]. destruct (IHk (step s)) as (A & B & C & E). rewrite A, B, C, E. cbn [step s_vr s_vp s_vm s_vmtz].
    rewrite !div_S, mod_S_bool, andb_assoc. auto.
Qed.
Lemma steps_last : forall k s, s_last (steps (S k) s) = (s_vr s / 10 ^ Z.of_nat k) mod 10 /\
  s_vrtz (steps (S k) s) = s_vrtz s && (s_last s =? 0) && (s_vr s mod 10 ^ Z.of_nat k =? 0).
Proof.
  induction k; intros s.
  - cbn. rewrite Z.div_1_r, Z.mod_1_r, andb_true_r. auto.
  - change (steps (S (S k)) s) with (steps (S k) (step s)). destruct (IHk (step s)) as (A & B). rewrite A, B.
    cbn [step s_vr s_last s_vrtz]. rewrite div_S, mod_S_bool, <- !andb_assoc. auto.
Qed.

Section Core.
Variables (R P M S D : Z) (acc : bool).
Hypothesis D_pos : 0 < D.
Hypothesis S_D : D <= S.
Hypothesis P_eq : P = R + 2 * S.
Hypothesis M_pos : 0 < M.
Hypothesis M_le : M <= R - S.
Hypothesis M_ge : R - 2 * S <= M.

Definition inside (g : Z) : Prop := (M < g * D \/ acc = true /\ M = g * D) /\ (g * D < P \/ acc = true /\ g * D = P).
(** [out] units of ten to the [T]: inside, no coarser number inside, and none inside is closer *)
Definition best (T : nat) (out : Z) : Prop :=
  inside (out * 10 ^ Z.of_nat T) /\ (forall u, ~ inside (u * 10 ^ Z.of_nat (Datatypes.S T))) /\
  forall u, inside (u * 10 ^ Z.of_nat T) ->
    Z.abs (out * 10 ^ Z.of_nat T * D - R) <= Z.abs (u * 10 ^ Z.of_nat T * D - R) /\
    (Z.abs (out * 10 ^ Z.of_nat T * D - R) = Z.abs (u * 10 ^ Z.of_nat T * D - R) -> u <> out -> Z.even out = true).

Let vr := R / D.
Let vm := M / D.
Let vpx := if acc then P / D else (P - 1) / D.

Lemma upper g : g * D < P \/ acc = true /\ g * D = P <-> g <= vpx.
Proof.
  unfold vpx. destruct acc.
  - split; intros H.
    + apply Z.div_le_lower_bound; nia.
    + pose proof (Z.mul_div_le P D D_pos). assert (g * D <= P) by nia. lia.
  - split; intros H.
    + apply Z.div_le_lower_bound; destruct H as [H|[H _]]; try discriminate; nia.
    + pose proof (Z.mul_div_le (P - 1) D D_pos). left. nia.
Qed.
Lemma lower g : M < g * D <-> vm < g.
Proof.
  unfold vm. split; intros H.
  - apply Z.div_lt_upper_bound; nia.
  - pose proof (Z.mul_succ_div_gt M D D_pos). nia.
Qed.
Lemma order : vm < vr /\ vr <= vpx /\ vm + 2 <= vpx /\ 0 <= vm.
Proof.
  assert (A : vm < vr).
  { apply (Z.lt_le_trans _ (M / D + 1)); [unfold vm; lia|]. unfold vr. rewrite <- Z.div_add by lia. apply Z.div_le_mono; nia. }
  assert (B : forall v, v <= P - 1 -> v / D <= vpx).
  { intros v Hv. unfold vpx. destruct acc; apply Z.div_le_mono; lia. }
  repeat split; [exact A|apply B; nia| |apply Z.div_pos; lia].
  unfold vm. rewrite <- Z.div_add by lia. apply B. nia.
Qed.

Section Level.
Variable T : nat.
Let X := 10 ^ Z.of_nat T.
Let a := vm / X.
Let c := vr / X.
Let b := vpx / X.
Definition low_ok (k : nat) : Prop := acc = true /\ M = vm / 10 ^ Z.of_nat k * 10 ^ Z.of_nat k * D.

Lemma X_pos : 0 < X.
Proof. apply p10_pos. Qed.

Lemma inside_level u : inside (u * X) <-> (a < u \/ u = a /\ low_ok T) /\ u <= b.
Proof.
  pose proof X_pos. unfold inside. rewrite upper. rewrite lower.
  assert (U : u * X <= vpx <-> u <= b).
  { unfold b. split; intros H0; [apply Z.div_le_lower_bound; nia|]. pose proof (Z.mul_div_le vpx X). nia. }
  assert (L : vm < u * X <-> a < u).
  { unfold a. split; intros H0; [apply Z.div_lt_upper_bound; nia|]. pose proof (Z.mul_succ_div_gt vm X ltac:(lia)). nia. }
  rewrite U, L. unfold low_ok. fold X. fold a.
  split; intros [[H0|[H0 H1]] H2]; split; auto.
  - right. assert (u = a); [|subst u; auto].
    unfold a, vm. rewrite H1, Z.div_mul by lia. rewrite Z.div_mul; lia.
  - right. destruct H1 as [H1 H3]. subst u. auto.
Qed.

Variable up : bool.
Let F := R - c * X * D.
Hypothesis some : a < b \/ low_ok T.
Hypothesis none : vpx / 10 ^ Z.of_nat (Datatypes.S T) <= vm / 10 ^ Z.of_nat (Datatypes.S T) /\ ~ low_ok (Datatypes.S T).
Hypothesis up_true : up = true -> X * D <= 2 * F /\ (X * D = 2 * F -> Z.even c = false).
Hypothesis up_false : up = false -> 2 * F <= X * D /\ (X * D = 2 * F -> Z.even c = true).

Lemma F_bounds : 0 <= F < X * D.
Proof.
  pose proof X_pos. unfold F, c, vr. rewrite Z.div_div by lia.
  replace (R / (D * X) * X * D) with (D * X * (R / (D * X))) by ring.
  rewrite <- Z.mod_eq by nia. replace (X * D) with (D * X) by ring. apply Z.mod_pos_bound. nia.
Qed.
Lemma order_level : a <= c /\ c <= b.
Proof. pose proof X_pos. pose proof order. split; apply Z.div_le_mono; lia. Qed.

Lemma finish out (low : bool) : (c = a -> (low = true <-> low_ok T)) ->
  out = c + (if (c =? a) && negb low || up then 1 else 0) -> best T out.
Proof.
  intros Hlow Ho. pose proof X_pos as HX. pose proof F_bounds as HF. pose proof order_level as (Hac & Hcb).
  assert (In : inside (out * X)).
  { apply inside_level. destruct (Z.eqb_spec c a) as [E|E]; cbn [andb orb] in Ho.
    - specialize (Hlow E). destruct low; cbn [negb] in Ho.
      + assert (L : low_ok T) by tauto. destruct up eqn:Eu; cbn [orb] in Ho; [|split; [right; split; [lia|exact L]|lia]].
        split; [lia|]. apply (Z.le_trans _ (vpx / X)); [|unfold b; lia].
        apply Z.div_le_lower_bound; [lia|]. apply upper. subst out.
        destruct L as [La Lm]. fold X in Lm. fold a in Lm. rewrite <- E in Lm. destruct (up_true eq_refl) as [U _].
        assert (F = R - M) by (unfold F; lia).
        assert (X * (c + 1) * D <= P).
        { replace (X * (c + 1) * D) with (R - F + X * D) by (unfold F; ring). lia. }
        destruct (Z.eq_dec (X * (c + 1) * D) P); [right; auto|left; lia].
      + cbn [orb] in Ho. destruct some as [Hs|Hs]; [split; lia|].
        apply Hlow in Hs. discriminate.
    - destruct up eqn:Eu; [|split; lia].
      split; [lia|]. subst out. apply (Z.le_trans _ (vpx / X)); [|unfold b; lia].
      apply Z.div_le_lower_bound; [lia|]. apply upper. left.
      destruct (up_true eq_refl) as [U _].
      assert (M < c * X * D).
      { apply lower. assert (a < c) by lia. pose proof (Z.mul_succ_div_gt vm X ltac:(lia)). fold a in H0. nia. }
      assert (F < 2 * S) by (unfold F; lia).
      replace (X * (c + 1) * D) with (R - F + X * D) by (unfold F; ring). lia. }
  split; [exact In|]. split.
  - intros u Hu. destruct none as [N1 N2].
    assert (G : inside (u * 10 ^ Z.of_nat (Datatypes.S T)) <-> (vm / 10 ^ Z.of_nat (Datatypes.S T) < u \/ u = vm / 10 ^ Z.of_nat (Datatypes.S T) /\ low_ok (Datatypes.S T)) /\ u <= vpx / 10 ^ Z.of_nat (Datatypes.S T)).
    { pose proof (p10_pos (Datatypes.S T)) as HX'. set (X' := 10 ^ Z.of_nat (Datatypes.S T)) in *. clear Hu. unfold inside. rewrite upper. rewrite lower.
      assert (U : u * X' <= vpx <-> u <= vpx / X').
      { split; intros H0; [apply Z.div_le_lower_bound; nia|]. pose proof (Z.mul_div_le vpx X'). nia. }
      assert (L : vm < u * X' <-> vm / X' < u).
      { split; intros H0; [apply Z.div_lt_upper_bound; nia|]. pose proof (Z.mul_succ_div_gt vm X' ltac:(lia)). nia. }
      rewrite U, L. unfold low_ok. fold X'.
      split; intros [[H0|[H0 H1]] H2]; split; auto.
      - right. assert (u = vm / X') as E; [|rewrite <- E; auto].
        unfold vm. rewrite H1, Z.div_mul by lia. rewrite Z.div_mul; lia.
      - right. destruct H1 as [H1 H3]. subst u. auto. }
    apply G in Hu. destruct Hu as [[Hu|[_ Hu]] Hv]; [lia|contradiction].
  - fold X. intros u Hu. apply inside_level in Hu. destruct Hu as [Hu1 Hu2].
    set (w := X * D) in *. assert (Hw : 0 < w) by (unfold w; nia).
    replace (out * X * D - R) with ((out - c) * w - F) by (unfold F, w; ring).
    replace (u * X * D - R) with ((u - c) * w - F) by (unfold F, w; ring).
    destruct (Z.eqb_spec c a) as [E|E]; cbn [andb orb] in Ho.
    + specialize (Hlow E). destruct low; cbn [negb] in Ho.
      * destruct up eqn:Eu; cbn [orb] in Ho; subst out.
        -- destruct (up_true eq_refl) as [U1 U2]. replace (c + 1 - c) with 1 by ring.
           destruct (Z_le_gt_dec u c); [|assert (c + 1 <= u) by lia; split; [nia|]; intros; exfalso; assert (c + 2 <= u) by lia; nia].
           assert (Hd : (u - c) * w <= 0) by nia.
           split; [nia|]. intros Q _. destruct (Z.eq_dec u c) as [->|]; [|exfalso; assert ((u - c) * w <= - w) by nia; lia].
           replace (c + 1) with (Z.succ c) by lia. rewrite Z.even_succ, <- Z.negb_even, U2; [reflexivity|lia].
        -- destruct (up_false eq_refl) as [U1 U2]. rewrite Z.add_0_r. replace (c - c) with 0 by ring. rewrite Z.mul_0_l.
           destruct (Z_le_gt_dec u c).
           ++ assert (Hd : (u - c) * w <= 0) by nia. split; [lia|]. intros Q N. exfalso. assert ((u - c) * w <= - w) by nia. lia.
           ++ assert (Hd : w <= (u - c) * w) by nia. split; [lia|]. intros Q N.
              apply U2. lia.
      * assert (a < u) by (destruct Hu1 as [?|[? L]]; [lia|apply Hlow in L; discriminate]).
        cbn [orb] in Ho. subst out. replace (c + 1 - c) with 1 by ring.
        assert (Hd : w <= (u - c) * w) by nia. split; [lia|]. intros Q N. exfalso.
        assert (2 * w <= (u - c) * w) by nia. lia.
    + destruct up eqn:Eu; subst out.
      * destruct (up_true eq_refl) as [U1 U2]. replace (c + 1 - c) with 1 by ring.
        destruct (Z_le_gt_dec u c).
        -- assert (Hd : (u - c) * w <= 0) by nia.
           split; [nia|]. intros Q _. destruct (Z.eq_dec u c) as [->|]; [|exfalso; assert ((u - c) * w <= - w) by nia; lia].
           replace (c + 1) with (Z.succ c) by lia. rewrite Z.even_succ, <- Z.negb_even, U2; [reflexivity|lia].
        -- assert (Hd : w <= (u - c) * w) by nia. split; [lia|]. intros Q N. exfalso.
           assert (2 * w <= (u - c) * w) by nia. lia.
      * destruct (up_false eq_refl) as [U1 U2]. rewrite Z.add_0_r. replace (c - c) with 0 by ring. rewrite Z.mul_0_l.
        destruct (Z_le_gt_dec u c).
        -- assert (Hd : (u - c) * w <= 0) by nia. split; [lia|]. intros Q N. exfalso. assert ((u - c) * w <= - w) by nia. lia.
        -- assert (Hd : w <= (u - c) * w) by nia. split; [lia|]. intros Q N.
           apply U2. lia.
Qed.
End Level.

(** the flags, the upper end and the digit known at the start *)
Variables (vp last0 : Z) (vmtz vrtz : bool).
Record flags : Prop := {
  fl_vm : vmtz = true -> acc = true /\ (D | M);
  fl_vm_back : acc = true -> (D | M) -> vmtz = true \/ vm mod 10 <> 0;
  fl_vr : vrtz = true -> (D | 2 * R) /\ ((D | R) \/ vr mod 5 = 2);
  fl_vr_back : (D | R) -> vrtz = true \/ vr mod 5 <> 0;
  fl_vp : vp = vpx \/ vp = vpx + 1 /\ vp mod 10 <> 0;
  fl_last : last0 = 0 \/ last0 = (10 * R / D) mod 10;
  fl_start : vp / 10 <= vm / 10 -> last0 = (10 * R / D) mod 10 /\ ((D | 2 * R) -> (D | R) \/ vrtz = true) }.
Hypothesis Hf : flags.
Let s0 := mk_rstate vr vp vm vmtz vrtz last0.

Lemma vp_div k : vp / 10 ^ Z.of_nat (Datatypes.S k) = vpx / 10 ^ Z.of_nat (Datatypes.S k).
Proof.
  destruct (fl_vp Hf) as [->|[E N]]; [reflexivity|]. rewrite <- !div_S. f_equal.
  pose proof (Z.div_mod vp 10 ltac:(lia)). pose proof (Z.mod_pos_bound vp 10 ltac:(lia)).
  apply (Z.div_unique_pos _ _ _ (vp mod 10 - 1)); lia.
Qed.

Lemma divides_level k : (D | M) -> vm mod 10 ^ Z.of_nat k = 0 -> M = vm / 10 ^ Z.of_nat k * 10 ^ Z.of_nat k * D.
Proof.
  intros [z Hz] E. pose proof (p10_pos k). assert (vm = z) by (unfold vm; rewrite Hz, Z.div_mul; lia).
  pose proof (Z.div_mod vm (10 ^ Z.of_nat k) ltac:(lia)). rewrite E, Z.add_0_r in H1.
  rewrite (Z.mul_comm (vm / _)), <- H1. lia.
Qed.
Lemma level_divides k : M = vm / 10 ^ Z.of_nat k * 10 ^ Z.of_nat k * D -> (D | M) /\ vm mod 10 ^ Z.of_nat k = 0.
Proof.
  intros E. pose proof (p10_pos k). split; [eexists; exact E|].
  assert (vm = vm / 10 ^ Z.of_nat k * 10 ^ Z.of_nat k) by (unfold vm at 1; rewrite E at 1; rewrite Z.div_mul; lia).
  rewrite H0. apply Z.mod_mul. lia.
Qed.

(** rounding after [T] removals, from the digits removed *)
Definition rounds_up (s : rstate) : bool :=
  5 <=? (if s_vrtz s && (s_last s =? 5) && Z.even (s_vr s) then 4 else s_last s).

Lemma frac_digits T : let X := 10 ^ Z.of_nat T in
  R - vr / (10 * X) * (10 * X) * D = (vr / X) mod 10 * (X * D) + (R - vr / X * X * D) /\ 0 <= R - vr / X * X * D < X * D /\
  (R - vr / X * X * D = 0 <-> (D | R) /\ vr mod X = 0).
Proof.
  intros X. pose proof (p10_pos T : 0 < X) as HX. split; [|split].
  - rewrite (Z.mul_comm 10 X), <- Z.div_div by lia. rewrite (Z.mod_eq (vr / X) 10) by lia. ring.
  - replace (vr / X * X * D) with (D * X * (R / (D * X))) by (unfold vr; rewrite Z.div_div by lia; ring).
    rewrite <- Z.mod_eq by nia. rewrite (Z.mul_comm X D). apply Z.mod_pos_bound. nia.
  - pose proof (Z.div_mod R D ltac:(lia)) as A. pose proof (Z.mod_pos_bound R D ltac:(lia)) as B. fold vr in A.
    pose proof (Z.div_mod vr X ltac:(lia)) as C. pose proof (Z.mod_pos_bound vr X ltac:(lia)) as E.
    replace (R - vr / X * X * D) with (R mod D + vr mod X * D) by nia.
    rewrite <- Z.mod_divide by lia. split; [intros; nia|intros [-> ->]; lia].
Qed.

Lemma rounding T : (T = O -> vp / 10 <= vm / 10) -> let s := steps T s0 in let F := R - vr / 10 ^ Z.of_nat T * 10 ^ Z.of_nat T * D in
  let w := 10 ^ Z.of_nat T * D in
  (rounds_up s = true -> w <= 2 * F /\ (w = 2 * F -> Z.even (s_vr s) = false)) /\
  (rounds_up s = false -> 2 * F <= w /\ (w = 2 * F -> Z.even (s_vr s) = true)).
Proof.
  intros H0 s F w. assert (K : (w < 2 * F -> 5 <= s_last s /\ (s_vrtz s = true -> s_last s <> 5)) /\
     (2 * F < w -> s_last s < 5) /\ (w = 2 * F -> s_last s = 5 /\ s_vrtz s = true)).
  { destruct T as [|k].
    - specialize (H0 eq_refl). destruct (fl_start Hf H0) as [L0 L1]. unfold s. cbn [steps s0 s_last s_vrtz].
      unfold F, w. rewrite Z.pow_0_r, Z.div_1_r, Z.mul_1_r, Z.mul_1_l.
      pose proof (Z.div_mod R D ltac:(lia)) as A. pose proof (Z.mod_pos_bound R D ltac:(lia)) as B. fold vr in A.
      replace (R - vr * D) with (R mod D) by lia. set (Fr := R mod D) in *.
      assert (G : last0 = 10 * Fr / D).
      { rewrite L0. replace (10 * R) with (10 * Fr + (10 * vr) * D) by lia. rewrite Z.div_add by lia.
        replace (10 * vr) with (vr * 10) by ring. rewrite Z.mod_add by lia. apply Z.mod_small. split; [apply Z.div_pos; lia|].
        apply Z.div_lt_upper_bound; lia. }
      pose proof (Z.mul_div_le (10 * Fr) D D_pos) as G1. pose proof (Z.mul_succ_div_gt (10 * Fr) D D_pos) as G2. rewrite <- G in G1, G2.
      repeat split.
      + nia.
      + intros E1 E2. destruct (fl_vr Hf E1) as [[z Hz] _]. assert (D < 2 * Fr < 2 * D) by lia.
        assert (2 * Fr = (z - 2 * vr) * D) by lia. set (y := z - 2 * vr) in *. assert (1 < y) by (clear - D_pos H1 H2; nia). assert (y < 2) by (clear - D_pos H1 H2; nia). lia.
      + nia.
      + nia.
      + destruct L1 as [L1|L1]; auto.
        * exists (2 * vr + 1). lia.
        * apply Z.mod_divide in L1; lia.
    - unfold s. destruct (steps_last k s0) as [A B]. cbn [s0 s_last s_vrtz s_vr] in A, B. rewrite A, B.
      destruct (frac_digits k) as (C & E & G). unfold F, w. rewrite p10_S. set (X := 10 ^ Z.of_nat k) in *.
      pose proof (p10_pos k : 0 < X) as HX. cbv zeta in C. rewrite C. set (F0 := R - vr / X * X * D) in *. set (d := (vr / X) mod 10) in *.
      pose proof (Z.mod_pos_bound (vr / X) 10 ltac:(lia)) as Hd. fold d in Hd.
      replace (10 * X * D) with (10 * (X * D)) by ring. set (y := X * D) in *. assert (0 < y) by (unfold y; nia).
      assert (V5 : d = 5 -> vr mod X = 0 -> vr mod 5 = 0).
      { intros V1 V2. pose proof (Z.div_mod vr X ltac:(lia)). rewrite V2 in H1.
        pose proof (Z.div_mod (vr / X) 10 ltac:(lia)) as H2. fold d in H2. rewrite H1, H2, V1.
        replace (X * (10 * (vr / X / 10) + 5) + 0) with ((X * (2 * (vr / X / 10) + 1)) * 5) by ring. apply Z.mod_mul. lia. }
      repeat split.
      + nia.
      + intros Q1 Q2. apply andb_prop in Q1. destruct Q1 as [Q1 Q3]. apply andb_prop in Q1. destruct Q1 as [Q1 Q4].
        apply Z.eqb_eq in Q3. destruct (fl_vr Hf Q1) as [_ [Q5|Q5]].
        * assert (F0 = 0) by (apply G; auto). nia.
        * specialize (V5 Q2 Q3). lia.
      + nia.
      + nia.
      + assert (d = 5) by nia. assert (F0 = 0) by nia. apply G in H3. destruct H3 as [H3 H4].
        rewrite H4, Z.eqb_refl, andb_true_r.
        destruct (fl_vr_back Hf H3) as [->|N]; [|elim N; auto]. cbn [andb]. apply Z.eqb_eq.
        destruct (fl_last Hf) as [->|Q]; [reflexivity|]. rewrite Q. destruct H3 as [z Hz]. rewrite Hz.
        replace (10 * (z * D)) with (z * 10 * D) by ring. rewrite Z.div_mul by lia. apply Z.mod_mul. lia. }
  destruct K as (K1 & K2 & K3). unfold rounds_up.
  destruct (s_vrtz s) eqn:E1; destruct (Z.eqb_spec (s_last s) 5) as [E2|E2]; destruct (Z.even (s_vr s)) eqn:E3; cbn [andb];
    (split; intros Q; [apply Z.leb_le in Q|apply Z.leb_gt in Q]); split; try (intros; lia);
    destruct (Z.lt_trichotomy w (2 * F)) as [Z1|[Z1|Z1]]; try lia;
    try (specialize (K1 Z1); lia); try (specialize (K2 Z1); lia); try (specialize (K3 Z1); lia); try (specialize (K1 Z1); tauto);
    try (intros; destruct (K3 Z1); congruence).
Qed.

(** when the two loops stop *)
Definition stopped (T : nat) : Prop := exists k1 k2, T = (k1 + k2)%nat /\
  (forall j, (j < k1)%nat -> vm / 10 ^ Z.of_nat (Datatypes.S j) < vp / 10 ^ Z.of_nat (Datatypes.S j)) /\
  vp / 10 ^ Z.of_nat (Datatypes.S k1) <= vm / 10 ^ Z.of_nat (Datatypes.S k1) /\
  (s_vmtz (steps k1 s0) = false -> k2 = O) /\
  (s_vmtz (steps k1 s0) = true -> (forall j, (j < k2)%nat -> (vm / 10 ^ Z.of_nat (k1 + j)) mod 10 = 0) /\ (vm / 10 ^ Z.of_nat T) mod 10 <> 0).

Definition result (s : rstate) : Z :=
  s_vr s + (if (s_vr s =? s_vm s) && (negb acc || negb (s_vmtz s)) || rounds_up s then 1 else 0).

Lemma removal T : stopped T -> best T (result (steps T s0)).
Proof.
  intros (k1 & k2 & HT & H1 & H2 & H3 & H4). pose proof order as (O1 & O2 & O3 & O4).
  destruct (steps_values T s0) as (V1 & V2 & V3 & V4). cbn [s0 s_vr s_vp s_vm s_vmtz] in V1, V2, V3, V4.
  destruct (steps_values k1 s0) as (_ & _ & _ & W4). cbn [s0 s_vm s_vmtz] in W4.
  assert (Z0 : s_vmtz (steps k1 s0) = true -> s_vmtz (steps T s0) = true).
  { intros E. destruct (H4 E) as [E1 _]. rewrite W4 in E. apply andb_prop in E. destruct E as [E2 E3]. apply Z.eqb_eq in E3.
    rewrite V4, E2. cbn [andb]. apply Z.eqb_eq. rewrite HT. clear - E1 E3. induction k2 as [|k IH].
    - rewrite Nat.add_0_r. exact E3.
    - rewrite Nat.add_succ_r. apply mod_S_end. split; [apply IH; intros; apply E1; lia|apply E1; lia]. }
  assert (L1 : s_vmtz (steps T s0) = true -> low_ok T).
  { intros E. rewrite V4 in E. apply andb_prop in E. destruct E as [E1 E2]. apply Z.eqb_eq in E2.
    destruct (fl_vm Hf E1) as [E3 E4]. split; [exact E3|]. apply divides_level; assumption. }
  assert (L2 : low_ok T -> vm / 10 ^ Z.of_nat T = vr / 10 ^ Z.of_nat T -> s_vmtz (steps T s0) = true).
  { intros [E1 E2] E3. apply level_divides in E2. destruct E2 as [E4 E5]. rewrite V4, E5, Z.eqb_refl, andb_true_r.
    destruct (fl_vm_back Hf E1 E4) as [E6|E6]; [exact E6|]. exfalso. destruct T as [|t].
    - rewrite Z.pow_0_r, !Z.div_1_r in E3. lia.
    - apply mod_S in E5. tauto. }
  destruct (rounding T) as [U1 U2].
  { intros E. assert (k1 = O) by lia. subst k1. exact H2. }
  rewrite V1 in U1, U2.
  refine (finish T (rounds_up (steps T s0)) _ _ U1 U2 _ (acc && s_vmtz (steps T s0)) _ _).
  - destruct k2 as [|k2].
    + rewrite Nat.add_0_r in HT. subst k1. left. destruct T as [|t].
      * rewrite Z.pow_0_r, !Z.div_1_r. fold vm vpx. lia.
      * specialize (H1 t ltac:(lia)). rewrite vp_div in H1. exact H1.
    + right. destruct (s_vmtz (steps k1 s0)) eqn:E; [auto|]. specialize (H3 eq_refl). discriminate.
  - fold vm vpx. split.
    + rewrite <- vp_div. rewrite HT. clear - H2.
      replace (Datatypes.S (k1 + k2)) with (Datatypes.S k1 + k2)%nat by lia.
      rewrite Nat2Z.inj_add, Z.pow_add_r by lia. pose proof (p10_pos (Datatypes.S k1)). pose proof (p10_pos k2).
      rewrite <- !Z.div_div by lia. apply Z.div_le_mono; assumption.
    + intros [E1 E2]. fold vm in E2. apply level_divides in E2. destruct E2 as [E3 E4].
      assert (E5 : vm mod 10 = 0) by (apply mod_S in E4; tauto).
      destruct (fl_vm_back Hf E1 E3) as [E6|E6]; [|contradiction].
      apply mod_S_end in E4. destruct E4 as [E7 E8].
      assert (s_vmtz (steps k1 s0) = true) as E9.
      { rewrite W4, E6. cbn [andb]. apply Z.eqb_eq. rewrite HT in E7. clear - E7. induction k2 as [|k IH].
        - now rewrite Nat.add_0_r in E7.
        - rewrite Nat.add_succ_r in E7. apply mod_S_end in E7. tauto. }
      destruct (H4 E9). contradiction.
  - fold vr vm. intros E. split; intros Q.
    + apply andb_prop in Q. tauto.
    + rewrite (L2 Q) by congruence. rewrite (proj1 Q). reflexivity.
  - unfold result. fold vr vm. rewrite V1, V3, <- negb_andb. reflexivity.
Qed.
End Core.
