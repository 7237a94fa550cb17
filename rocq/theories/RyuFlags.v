(** * The trailing-zero flags and the upper end that Ryu computes are the ones [RyuCore] needs *)

From Coq Require Import ZArith List Bool Lia Znumtheory Zpow_facts.
From Verif Require Import Machine RyuModel RyuCore.
Open Scope Z_scope.

Lemma coprime_pow a b i j : 0 <= i -> 0 <= j -> rel_prime a b -> rel_prime (a ^ i) (b ^ j).
Proof. intros. apply rel_prime_Zpower; assumption. Qed.
Lemma rel_5_2 : rel_prime 5 2.
Proof. apply Zgcd_1_rel_prime. reflexivity. Qed.

Lemma five_divide q s k : 0 <= q -> 0 <= s -> (5 ^ q | k * 2 ^ s) <-> (5 ^ q | k).
Proof.
  intros Hq Hs. split; [|intros H; apply Z.divide_mul_l; exact H].
  intros H. rewrite Z.mul_comm in H. apply Gauss in H; [exact H|]. apply coprime_pow; auto. exact rel_5_2.
Qed.
Lemma two_divide q s k : 0 <= q -> 0 <= s -> (2 ^ q | k * 5 ^ s) <-> (2 ^ q | k).
Proof.
  intros Hq Hs. split; [|intros H; apply Z.divide_mul_l; exact H].
  intros H. rewrite Z.mul_comm in H. apply Gauss in H; [exact H|]. apply coprime_pow; auto. apply rel_prime_sym, rel_5_2.
Qed.

(** a multiple of [D] whose quotient ends in 0 is a multiple of [5 * D] *)
Lemma quotient_5 X D : 0 < D -> (D | X) -> (X / D) mod 5 = 0 -> (5 * D | X).
Proof.
  intros HD [z ->] H. rewrite Z.div_mul in H by lia. apply Z.mod_divide in H; [|lia]. destruct H as [y ->]. exists y. ring.
Qed.
Lemma mod10_5 x : x mod 10 = 0 -> x mod 5 = 0.
Proof. intros H. pose proof (Z.div_mod x 10 ltac:(lia)). rewrite H0, H. replace (10 * (x / 10) + 0) with (2 * (x / 10) * 5) by ring. apply Z.mod_mul. lia. Qed.
Lemma mod10_2 x : x mod 10 = 0 -> x mod 2 = 0.
Proof. intros H. pose proof (Z.div_mod x 10 ltac:(lia)). rewrite H0, H. replace (10 * (x / 10) + 0) with (5 * (x / 10) * 2) by ring. apply Z.mod_mul. lia. Qed.
Lemma quotient_last X D : 0 < D -> (D | X) -> ~ (5 * D | X) -> (X / D) mod 10 <> 0.
Proof. intros HD H N E. apply N. apply quotient_5; auto. apply mod10_5. exact E. Qed.

Lemma floor_below P D : 0 < D -> (D | P) -> P / D = (P - 1) / D + 1.
Proof. intros HD [z ->]. rewrite Z.div_mul by lia. enough ((z * D - 1) / D = z - 1) by lia. symmetry. apply (Z.div_unique_pos _ _ _ (D - 1)); lia. Qed.
Lemma floor_same P D : 0 < D -> ~ (D | P) -> P / D = (P - 1) / D.
Proof.
  intros HD H. pose proof (Z.div_mod P D ltac:(lia)). pose proof (Z.mod_pos_bound P D HD).
  assert (P mod D <> 0) by (intros E; apply H; apply Z.mod_divide; lia).
  apply (Z.div_unique_pos _ _ _ (P mod D - 1)); lia.
Qed.

Section Flags.
Variables (n sh : Z) (acc : bool) (q s last : Z) (dbl : bool).
Hypothesis Hn : 0 < n.
Hypothesis Hsh : sh = 0 \/ sh = 1.
Hypothesis Hq : 0 <= q.
Hypothesis Hs : 0 <= s.
Let mv := 4 * n.
Let mp := 4 * n + 2.
Let mm := 4 * n - 1 - sh.

Section Inv.
Let S := 2 ^ s.
Let D := 5 ^ q.
Let vpf := mp * S / D.
Hypothesis Hlast : last = 0 \/ last = (10 * (mv * S) / D) mod 10.
Hypothesis Hstart : forall vp, vp = vpf \/ vp = vpf - 1 /\ (D | mp * S) -> vp / 10 <= mm * S / D / 10 -> last = (10 * (mv * S) / D) mod 10.

(** (vp, vmIsTrailingZeros, vrIsTrailingZeros) after d2s.c:132-155 and f2s.c:101-110 *)
Definition inv_code (thr : Z) : Z * bool * bool :=
  if q <=? thr then
    if mv mod 5 =? 0 then (vpf, false, mv mod 5 ^ q =? 0)
    else if acc then (vpf, mm mod 5 ^ q =? 0, false)
    else (vpf - b2z (mp mod 5 ^ q =? 0), false, false)
  else (vpf, false, false).

Lemma D5_pos : 0 < D.
Proof. apply Z.pow_pos_nonneg; lia. Qed.
Lemma div_D k : (D | k * S) <-> (D | k).
Proof. apply five_divide; lia. Qed.
Lemma div_5D k : (5 * D | k * S) <-> (5 * D | k).
Proof. unfold D. rewrite <- Z.pow_succ_r by lia. apply five_divide; lia. Qed.
Lemma mod_D k : k mod 5 ^ q = 0 <-> (D | k).
Proof. pose proof D5_pos. apply Z.mod_divide. unfold D in *. lia. Qed.
Lemma odd_D : (D | 2 * (mv * S)) -> (D | mv * S).
Proof.
  intros H. rewrite Z.mul_assoc in H. apply (proj1 (div_D _)) in H. apply (proj2 (div_D _)).
  replace (2 * mv) with (mv * 2 ^ 1) in H by ring. apply (proj1 (five_divide q 1 mv Hq ltac:(lia))) in H. exact H.
Qed.

Lemma inv_flags thr : (thr < q -> ~ (5 * D | mv) /\ (acc = true -> ~ (5 * D | mm)) /\ (acc = false -> ~ (5 * D | mp))) ->
  let '(vp, vmtz, vrtz) := inv_code thr in
  flags (mv * S) (mp * S) (mm * S) D acc vp last vmtz vrtz /\ (vp = vpf \/ vp = vpf - 1 /\ (D | mp * S)).
Proof.
  intros Hthr. pose proof D5_pos as HD.
  assert (St : forall vp vmtz vrtz, vp = vpf \/ vp = vpf - 1 /\ (D | mp * S) ->
    (vmtz = true -> acc = true /\ (D | mm * S)) -> (acc = true -> (D | mm * S) -> vmtz = true \/ (mm * S / D) mod 10 <> 0) ->
    (vrtz = true -> (D | mv * S)) -> ((D | mv * S) -> vrtz = true \/ (mv * S / D) mod 5 <> 0) ->
    (vp = (if acc then mp * S / D else (mp * S - 1) / D) \/ vp = (if acc then mp * S / D else (mp * S - 1) / D) + 1 /\ vp mod 10 <> 0) ->
    flags (mv * S) (mp * S) (mm * S) D acc vp last vmtz vrtz /\ (vp = vpf \/ vp = vpf - 1 /\ (D | mp * S))).
  { intros vp vmtz vrtz H1 H2 H3 H4 H5 H6. split; [|exact H1]. constructor; auto.
    - intros E. specialize (H4 E). split; [apply Z.divide_mul_r; exact H4|left; exact H4].
    - intros L. split; [apply (Hstart vp); auto|]. intros E. left. apply odd_D. exact E. }
  assert (Vp : (acc = false -> ~ (5 * D | mp)) -> vpf = (if acc then mp * S / D else (mp * S - 1) / D) \/
     vpf = (if acc then mp * S / D else (mp * S - 1) / D) + 1 /\ vpf mod 10 <> 0).
  { intros H. unfold vpf. destruct acc; [left; reflexivity|].
    destruct (Zdivide_dec D (mp * S)) as [E|E].
    - right. split; [apply floor_below; auto|]. apply quotient_last; auto. rewrite div_5D. auto.
    - left. apply floor_same; auto. }
  assert (No5 : forall k, k mod 5 <> 0 -> ~ (5 * D | k)).
  { intros k N E. apply N. apply Z.mod_divide; [lia|]. apply (Z.divide_trans _ (5 * D)); [exists D; ring|exact E]. }
  assert (N5 : mv mod 5 = 0 -> mm mod 5 <> 0 /\ mp mod 5 <> 0).
  { unfold mv, mm, mp. intros E. apply Z.mod_divide in E; [|lia]. destruct E as [z E]. split; intros E2; apply Z.mod_divide in E2; try lia; destruct E2 as [y E2]; lia. }
  unfold inv_code. destruct (Z.leb_spec q thr) as [L|L].
  - destruct (Z.eqb_spec (mv mod 5) 0) as [E|E]; [|destruct acc eqn:A].
    + destruct (N5 E) as [N1 N2]. apply St.
      * left; reflexivity.
      * discriminate.
      * intros _ H. right. apply quotient_last; auto. rewrite div_5D. auto.
      * intros H. apply Z.eqb_eq in H. apply (proj2 (div_D _)), (proj1 (mod_D _)). exact H.
      * intros H. left. apply Z.eqb_eq. apply (proj2 (mod_D _)), (proj1 (div_D _)). exact H.
      * apply Vp. auto.
    + apply St; try (now left); try discriminate.
      * intros H. split; [reflexivity|]. apply Z.eqb_eq in H. apply (proj2 (div_D _)), (proj1 (mod_D _)). exact H.
      * intros _ H. left. apply Z.eqb_eq. apply (proj2 (mod_D _)), (proj1 (div_D _)). exact H.
      * intros H. right. intros E2. apply (No5 mv E). apply (proj1 (div_5D _)). apply quotient_5; auto.
    + destruct (Z.eqb_spec (mp mod 5 ^ q) 0) as [E2|E2]; cbn [b2z].
      * apply (proj1 (mod_D _)), (proj2 (div_D _)) in E2. apply St; try discriminate; auto.
        -- intros H. right. intros E3. apply (No5 mv E). apply (proj1 (div_5D _)). apply quotient_5; auto.
        -- left. unfold vpf. rewrite (floor_below _ _ HD E2). ring.
      * assert (~ (D | mp * S)) by (rewrite div_D, <- mod_D; exact E2). rewrite Z.sub_0_r. apply St; try discriminate; auto.
        -- intros H2. right. intros E3. apply (No5 mv E). apply (proj1 (div_5D _)). apply quotient_5; auto.
        -- left. unfold vpf. apply floor_same; auto.
  - destruct (Hthr L) as (T1 & T2 & T3). apply St; try discriminate; auto.
    + intros A H. right. apply quotient_last; auto. rewrite div_5D. auto.
    + intros H. right. intros E3. apply T1. apply (proj1 (div_5D _)). apply quotient_5; auto.
Qed.
End Inv.

Section Pow.
Let S := 5 ^ s.
Let D := 2 ^ q.
Let vpf := mp * S / D.
Hypothesis Hs1 : 0 < s.
Hypothesis Hlast : last = 0 \/ last = (10 * (mv * S) / D) mod 10.
Hypothesis Hstart : forall vp, vp = vpf \/ vp = vpf - 1 /\ (D | mp * S) -> vp / 10 <= mm * S / D / 10 ->
  last = (10 * (mv * S) / D) mod 10 /\ (dbl = true -> q = 0).

(** (vp, vmIsTrailingZeros, vrIsTrailingZeros) after d2s.c:167-195 and f2s.c:130-145 *)
Definition pow_code (thr : Z) : Z * bool * bool :=
  if q <=? 1 then
    if acc then (vpf, sh =? 1, true) else (vpf - 1, false, true)
  else if q <? thr then (vpf, false, mv mod 2 ^ (if dbl then q else q - 1) =? 0)
  else (vpf, false, false).

Lemma D2_pos : 0 < D.
Proof. apply Z.pow_pos_nonneg; lia. Qed.
Lemma div_D2 k : (D | k * S) <-> (D | k).
Proof. apply two_divide; lia. Qed.
Lemma odd_S : S mod 2 = 1.
Proof.
  unfold S. rewrite <- (Z2Nat.id s Hs). induction (Z.to_nat s) as [|k IH]; [reflexivity|].
  rewrite Nat2Z.inj_succ, Z.pow_succ_r, Z.mul_mod, IH by lia. reflexivity.
Qed.
Lemma S_5 : S mod 5 = 0.
Proof. unfold S. replace s with (s - 1 + 1) by ring. rewrite Z.pow_add_r by lia. apply Z.mod_mul. lia. Qed.

Lemma pow_flags thr : (thr <= q -> ~ (D | 2 * mv)) ->
  let '(vp, vmtz, vrtz) := pow_code thr in
  flags (mv * S) (mp * S) (mm * S) D acc vp last vmtz vrtz /\ (vp = vpf \/ vp = vpf - 1 /\ (D | mp * S)).
Proof.
  intros Hthr. pose proof D2_pos as HD. pose proof odd_S as HS.
  assert (Two : 2 <= q -> forall k, (D | k) -> (4 | k)).
  { intros L k H. apply (Z.divide_trans _ D); [|exact H]. exists (2 ^ (q - 2)). unfold D. change 4 with (2 ^ 2). rewrite <- Z.pow_add_r by lia. f_equal. ring. }
  unfold pow_code. destruct (Z.leb_spec q 1) as [L|L].
  - assert (D2 : (D | 2)).
    { exists (2 ^ (1 - q)). unfold D. rewrite <- Z.pow_add_r by lia. replace (1 - q + q) with 1 by ring. reflexivity. }
    assert (Dv : (D | mv)) by (apply (Z.divide_trans _ 2); [exact D2|exists (2 * n); unfold mv; ring]).
    assert (Dp : (D | mp)) by (apply (Z.divide_trans _ 2); [exact D2|exists (2 * n + 1); unfold mp; ring]).
    destruct acc eqn:A; (split; [|auto]); [| |right; split; [reflexivity|apply (proj2 (div_D2 _)); exact Dp]].
    + constructor; auto.
      * intros E. split; [reflexivity|]. apply Z.eqb_eq in E. apply (proj2 (div_D2 _)). apply (Z.divide_trans _ 2); [exact D2|exists (2 * n - 1); unfold mm; lia].
      * intros _ H. destruct Hsh as [E|E]; [|left; apply Z.eqb_eq; exact E].
        right. intros E2. apply mod10_2 in E2. apply Z.mod_divide in E2; [|lia]. destruct E2 as [z E2]. apply (proj1 (div_D2 _)) in H.
        assert (H3 : (2 | mm * S)).
        { apply (Z.divide_trans _ (mm * S / D)); [exists z; exact E2|]. exists D.
          assert (D | mm * S) as [y Hy] by (apply (proj2 (div_D2 _)); exact H). rewrite Hy, Z.div_mul by lia. ring. }
        apply Z.mod_divide in H3; [|lia]. rewrite Z.mul_mod, HS, Z.mul_1_r, Z.mod_mod in H3 by lia. apply Z.mod_divide in H3; [|lia]. destruct H3 as [y H3]. unfold mm in H3. lia.
      * intros _. split; [apply Z.divide_mul_r|left]; apply (proj2 (div_D2 _)); exact Dv.
      * intros L1. destruct (Hstart vpf (or_introl eq_refl) L1) as [H _]. auto.
    + constructor; auto; try discriminate.
      * intros _. split; [apply Z.divide_mul_r|left]; apply (proj2 (div_D2 _)); exact Dv.
      * left. unfold vpf. rewrite (floor_below _ _ HD); [ring|]. apply (proj2 (div_D2 _)). exact Dp.
      * intros L1. assert (last = (10 * (mv * S) / D) mod 10 /\ (dbl = true -> q = 0)) as [H _]; [|auto].
        apply (Hstart (vpf - 1)); [|exact L1]. right. split; [reflexivity|apply (proj2 (div_D2 _)); exact Dp].
  - assert (Nm : ~ (D | mm * S)).
    { rewrite div_D2. intros H. apply Two in H; [|lia]. destruct H as [z H]. unfold mm in H. lia. }
    assert (Np : ~ (D | mp * S)).
    { rewrite div_D2. intros H. apply Two in H; [|lia]. destruct H as [z H]. unfold mp in H. lia. }
    assert (Vp : vpf = (if acc then mp * S / D else (mp * S - 1) / D)).
    { unfold vpf. destruct acc; [reflexivity|]. apply floor_same; auto. }
    assert (E2 : forall k, (D | 2 * k) <-> (2 ^ (q - 1) | k)).
    { intros k. unfold D. replace (2 ^ q) with (2 * 2 ^ (q - 1)) by (rewrite <- Z.pow_succ_r by lia; f_equal; ring). split; intros [z Hz]; exists z; lia. }
    assert (Mod : forall p k, 0 <= p -> (k mod 2 ^ p =? 0) = true <-> (2 ^ p | k)).
    { intros p k Hp. rewrite Z.eqb_eq. apply Z.mod_divide. apply Z.pow_nonzero; lia. }
    destruct (Z.ltb_spec q thr) as [L2|L2].
    + split; [|auto]. destruct dbl eqn:Dbl; constructor; auto; try discriminate; try (intros; contradiction).
      * intros H. apply Mod in H; [|lia]. split; [apply Z.divide_mul_r|left]; apply (proj2 (div_D2 _)); exact H.
      * intros H. left. apply Mod; [lia|]. apply (proj1 (div_D2 _)). exact H.
      * intros L1. destruct (Hstart vpf (or_introl eq_refl) L1) as [_ H]. specialize (H eq_refl). lia.
      * intros H. apply Mod in H; [|lia]. apply E2 in H. assert (H2 : (D | 2 * (mv * S))).
        { rewrite Z.mul_assoc. apply (proj2 (div_D2 _)). exact H. }
        split; [exact H2|]. destruct (Zdivide_dec D (mv * S)) as [H3|H3]; [left; exact H3|right].
        (* half an odd multiple of five *)
        assert (H4 : (5 * D | 2 * (mv * S))).
        { assert (E5 : S = 5 * 5 ^ (s - 1)) by (unfold S; rewrite <- Z.pow_succ_r by lia; f_equal; ring).
          destruct H as [z Hz]. exists (z * 5 ^ (s - 1)). rewrite Z.mul_assoc, Hz, E5. ring. }
        destruct H4 as [z Hz]. pose proof (Z.div_mod (mv * S) D ltac:(lia)) as Dm. pose proof (Z.mod_pos_bound (mv * S) D HD) as Rm.
        assert (H5 : (mv * S) mod D <> 0) by (intros H6; apply H3; apply Z.mod_divide; lia).
        set (r := (mv * S) mod D) in *. set (v := mv * S / D) in *.
        assert (H6 : 2 * r = (5 * z - 2 * v) * D) by lia. set (y := 5 * z - 2 * v) in *.
        assert (y = 1) by (clear - H6 Rm H5 HD; nia).
        assert (H7 : v = 5 * ((z - 1) / 2) + 2).
        { assert (Hz2 : z = 2 * ((z - 1) / 2) + 1) by (pose proof (Z.div_mod (z - 1) 2 ltac:(lia)); pose proof (Z.mod_pos_bound (z - 1) 2 ltac:(lia)); unfold y in *; lia).
          unfold y in *. lia. }
        rewrite H7, Z.add_comm, Z.mul_comm, Z.mod_add by lia. reflexivity.
      * intros H. left. apply Mod; [lia|]. apply E2. apply Z.divide_mul_r. apply (proj1 (div_D2 _)). exact H.
      * intros L1. destruct (Hstart vpf (or_introl eq_refl) L1) as [H _]. split; [exact H|].
        intros H1. right. apply Mod; [lia|]. apply E2. rewrite Z.mul_assoc in H1. apply (proj1 (div_D2 _)) in H1. exact H1.
    + specialize (Hthr L2). split; [|auto].
      assert (N2 : ~ (D | 2 * (mv * S))) by (rewrite Z.mul_assoc, div_D2; exact Hthr).
      constructor; auto; try discriminate; try (intros; contradiction).
      * intros H. elim N2. apply Z.divide_mul_r. exact H.
      * intros L1. destruct (Hstart vpf (or_introl eq_refl) L1) as [H _]. split; [exact H|]. intros H1. contradiction.
Qed.
End Pow.
End Flags.
