(** * The variables of Ryu after step 3 *)

From Coq Require Import ZArith List Bool Lia Znumtheory.
From Verif Require Import Machine Model CharsModel RyuTables RyuModel Arith RyuArith RyuCore RyuScale RyuFlags.
Open Scope Z_scope.

(** the arguments of step 3: [n] is the significand, [sh] is mmShift *)
Definition frac_bits (f : fmt) : Z := match f with Binary32 => 23 | Binary64 => 52 end.
Definition word (f : fmt) : Z := match f with Binary32 => 32 | Binary64 => 64 end.
Definition e2_min (f : fmt) : Z := match f with Binary32 => - 151 | Binary64 => - 1076 end.
Definition e2_max (f : fmt) : Z := match f with Binary32 => 102 | Binary64 => 969 end.
Record arguments (f : fmt) (e2 n sh : Z) : Prop := {
  ar_e : e2_min f <= e2 <= e2_max f; ar_n : 0 < n < 2 ^ (frac_bits f + 1); ar_sh : sh = 0 \/ sh = 1;
  ar_edge : sh = 0 -> n = 2 ^ frac_bits f /\ e2_min f < e2 }.
Definition e10_of (f : fmt) (e2 : Z) : Z := if 0 <=? e2 then rq f e2 else rq f e2 + e2.

Record scaled_ok (f : fmt) (e2 n sh : Z) (c : scaled) : Prop := {
  so_D : 0 < rD f e2; so_S : rD f e2 <= rS f e2;
  so_vr : sc_vr c = 4 * n * rS f e2 / rD f e2;
  so_vm : sc_vm c = (4 * n - 1 - sh) * rS f e2 / rD f e2;
  so_flags : flags (4 * n * rS f e2) ((4 * n + 2) * rS f e2) ((4 * n - 1 - sh) * rS f e2) (rD f e2) (Z.even n)
    (sc_vp c) (sc_last c) (sc_vmtz c) (sc_vrtz c);
  so_last : 0 <= sc_last c < 10;
  so_last_double : f = Binary64 -> sc_last c = 0;
  so_vp : 0 <= sc_vp c < 2 ^ word f;
  so_e10 : sc_e10 c = e10_of f e2 /\ - 2000 <= e10_of f e2 <= 2000 }.

Lemma to_int_small x : 0 <= x < 2 ^ 31 -> to_int x = x.
Proof. intros H. unfold to_int. rewrite Z.mod_small by lia. lia. Qed.
Lemma int_sum_1 a x : - 2 ^ 31 <= a + x < 2 ^ 31 -> int_sum a (cons x nil) = Ok (a + x).
Proof. intros H. cbn [int_sum]. unfold i32. rewrite (proj2 (Z.leb_le _ _)), (proj2 (Z.ltb_lt _ _)) by lia. reflexivity. Qed.

Lemma no_start P M D vp : 0 < D -> M + 12 * D <= P -> P / D - 1 <= vp -> vp / 10 <= M / D / 10 -> False.
Proof.
  intros HD H Hv L. assert (M / D + 12 <= P / D) by (rewrite <- Z.div_add by lia; apply Z.div_le_mono; lia).
  pose proof (Z.div_le_mono (M / D + 10) vp 10 ltac:(lia) ltac:(lia)). replace (M / D + 10) with (M / D + 1 * 10) in H1 by ring. rewrite Z.div_add in H1 by lia. lia.
Qed.
Lemma wide_start P M D : 0 < D -> M + 11 * D <= P -> (P / D - 1) / 10 <= M / D / 10 -> False.
Proof.
  intros HD H L. assert (M / D + 11 <= P / D) by (rewrite <- Z.div_add by lia; apply Z.div_le_mono; lia).
  pose proof (Z.div_le_mono (M / D + 10) (P / D - 1) 10 ltac:(lia) ltac:(lia)). replace (M / D + 10) with (M / D + 1 * 10) in H1 by ring. rewrite Z.div_add in H1 by lia. lia.
Qed.
Lemma at_one x : (10 * x / 1) mod 10 = 0.
Proof. rewrite Z.div_1_r, Z.mul_comm. apply Z.mod_mul. lia. Qed.

Lemma S_D_pos f e2 : 0 <= rq f e2 -> (0 <= e2 -> 0 <= e2 - rq f e2) -> (e2 < 0 -> 0 <= - e2 - rq f e2) -> 0 < rS f e2 /\ 0 < rD f e2.
Proof.
  intros H1 H2 H3. unfold rS, rD. destruct (Z.leb_spec 0 e2); split; apply Z.pow_pos_nonneg; lia.
Qed.
Lemma rq_bound f e2 : (0 <= e2 -> rq f e2 <= e2) /\ (e2 < 0 -> rq f e2 < - e2).
Proof.
  unfold rq. split; intros H; [rewrite (proj2 (Z.leb_le 0 e2)) by lia|rewrite (proj2 (Z.leb_gt 0 e2)) by lia].
  - assert (e2 * 78913 / 2 ^ 18 <= e2) by (apply Z.div_le_upper_bound; lia). destruct f; [lia|destruct (3 <? e2); cbn [b2z]; lia].
  - assert (- e2 * 732923 / 2 ^ 20 < - e2) by (apply Z.div_lt_upper_bound; lia). destruct f; [lia|destruct (1 <? - e2); cbn [b2z]; lia].
Qed.

Lemma pow_part p q k : 0 <= p -> p <= q + 1 -> 0 <= q -> (5 * 5 ^ q | k) -> (5 ^ p | k).
Proof.
  intros H1 H2 H3 H. apply (Z.divide_trans _ (5 * 5 ^ q)); [|exact H]. exists (5 ^ (q + 1 - p)).
  rewrite <- Z.pow_add_r by lia. rewrite <- Z.pow_succ_r by lia. f_equal. lia.
Qed.

(** the thresholds 21 and 9 *)
Lemma threshold f e2 n sh q : arguments f e2 n sh -> (match f with Binary32 => 9 | Binary64 => 21 end) < q ->
  ~ (5 * 5 ^ q | 4 * n) /\ (Z.even n = true -> ~ (5 * 5 ^ q | 4 * n - 1 - sh)) /\ (Z.even n = false -> ~ (5 * 5 ^ q | 4 * n + 2)).
Proof.
  intros [_ Hn Hsh He] Hq.
  assert (Ev : Z.even n = true -> exists k, n = 2 * k) by (intros E; apply Z.even_spec in E; exact E).
  assert (Od : Z.even n = false -> exists k, n = 2 * k + 1).
  { intros E. rewrite <- Z.negb_odd in E. apply negb_false_iff, Z.odd_spec in E. exact E. }
  destruct f; cbn [frac_bits] in *.
  - assert (A : forall k, (5 * 5 ^ q | k) -> (48828125 | k)) by (intros k H; apply (pow_part 11) in H; try lia; exact H).
    repeat split.
    + intros H. apply A in H. destruct H as [z H]. lia.
    + intros E H. apply A in H. destruct H as [z H]. destruct Hsh as [-> | ->]; [destruct (He eq_refl) as [-> _]; lia|lia].
    + intros E H. apply A in H. destruct H as [z H]. lia.
  - assert (A : forall k, (5 * 5 ^ q | k) -> (11920928955078125 | k)) by (intros k H; apply (pow_part 23) in H; try lia; exact H).
    repeat split.
    + intros H. apply A in H. destruct H as [z H]. lia.
    + intros E H. apply A in H. destruct (Ev E) as [k Hk]. destruct H as [z H]. destruct Hsh as [-> | ->]; [destruct (He eq_refl) as [-> _]; lia|lia].
    + intros E H. apply A in H. destruct (Od E) as [k Hk]. destruct H as [z H]. lia.
Qed.
Lemma threshold2 f e2 n sh q : arguments f e2 n sh -> (match f with Binary32 => 31 | Binary64 => 63 end) <= q -> ~ (2 ^ q | 2 * (4 * n)).
Proof.
  intros [_ Hn _ _] Hq H. assert (2 ^ q <= 2 * (4 * n)) by (apply Z.divide_pos_le; [lia|exact H]).
  destruct f; cbn [frac_bits] in *.
  - assert (2 ^ 31 <= 2 ^ q) by (apply Z.pow_le_mono_r; lia). lia.
  - assert (2 ^ 63 <= 2 ^ q) by (apply Z.pow_le_mono_r; lia). lia.
Qed.

Section Doubles.
Variables (rc : ryu_config) (e2 n sh : Z).
Hypothesis Ha : arguments Binary64 e2 n sh.
Let S := rS Binary64 e2.
Let D := rD Binary64 e2.
Let q := rq Binary64 e2.

Lemma d_products mul j : d_facts e2 mul j ->
  mulShiftAll64 rc n mul j sh = Ok (4 * n * S / D, (4 * n + 2) * S / D, (4 * n - 1 - sh) * S / D) /\
  0 < S /\ 0 < D /\ D <= S /\ 1 <= (4 * n + 2) * S / D < 2 ^ 64.
Proof.
  intros H. destruct Ha as [He Hn Hsh Hd]. cbn [frac_bits] in *. change (2 ^ (52 + 1)) with (2 ^ 53) in Hn.
  pose proof (rq_bound Binary64 e2) as [B1 B2].
  destruct (S_D_pos Binary64 e2) as [PS PD]; [apply (df_q _ _ _ H)|intros G; specialize (B1 G); lia|intros G; specialize (B2 G); lia|].
  pose proof (df_SD _ _ _ H) as SD. fold S D in PS, PD, SD |- *.
  assert (Top : (4 * n + 2) * S / D < 2 ^ 64).
  { eapply Z.le_lt_trans; [|exact (df_top _ _ _ H)]. fold S D. apply Z.div_le_mono; nia. }
  split; [|repeat split; auto].
  - rewrite mulShiftAll64_ok; [|apply H|apply H|lia|apply H| |exact Hsh|].
    + rewrite !(df_floor _ _ _ H) by lia. reflexivity.
    + rewrite (df_floor _ _ _ H) by lia. exact Top.
    + intros E. destruct (Hd E) as [-> _]. exact (df_ones _ _ _ H).
  - apply Z.div_le_lower_bound; nia.
Qed.

Lemma d_vp_bounds vp : 1 <= (4 * n + 2) * S / D < 2 ^ 64 -> vp = (4 * n + 2) * S / D \/ vp = (4 * n + 2) * S / D - 1 /\ (D | (4 * n + 2) * S) -> 0 <= vp < 2 ^ 64.
Proof. lia. Qed.

Lemma d_start mul j vp : d_facts e2 mul j -> 0 < D -> vp = (4 * n + 2) * S / D \/ vp = (4 * n + 2) * S / D - 1 /\ (D | (4 * n + 2) * S) ->
  vp / 10 <= (4 * n - 1 - sh) * S / D / 10 -> q = 0.
Proof.
  intros H HD Hv L. destruct (df_wide _ _ _ H) as [E|E]; [exact E|]. exfalso. fold S D in E.
  destruct Ha as [_ _ Hsh _]. apply (no_start ((4 * n + 2) * S) ((4 * n - 1 - sh) * S) D vp); auto; [nia|lia].
Qed.

Lemma d2d_inv_ok : 0 <= e2 -> exists c, d2d_inv rc e2 n (4 * n) sh (Z.even n) = Ok c /\ scaled_ok Binary64 e2 n sh c.
Proof.
  intros He. pose proof (ar_e _ _ _ _ Ha) as Hr. cbn in Hr. pose proof (ar_n _ _ _ _ Ha) as Hn. cbn [frac_bits] in Hn. change (2 ^ (52 + 1)) with (2 ^ 53) in Hn.
  pose proof (ar_sh _ _ _ _ Ha) as Hsh.
  destruct (d_inv_facts rc e2 ltac:(lia)) as (mul & j & E1 & E2 & F). destruct (d_products mul j F) as (E3 & PS & PD & SD & T).
  unfold d2d_inv. rewrite E1. cbn [bind]. rewrite E2. cbn [bind]. rewrite E3. cbn [bind].
  pose proof (df_q _ _ _ F) as Q. fold q in Q |- *.
  rewrite to_int_small by (fold q; lia). rewrite div5_ok, low_rem_ok by lia.
  rewrite multipleOfPowerOf5_ok by lia. rewrite (wrap_small 64 (4 * n - 1 - sh)), (wrap_small 64 (4 * n + 2)) by lia.
  rewrite !multipleOfPowerOf5_ok by lia.
  assert (ES : S = 2 ^ (e2 - q)) by (unfold S, rS; rewrite (proj2 (Z.leb_le 0 e2)) by lia; reflexivity).
  assert (ED : D = 5 ^ q) by (unfold D, rD; rewrite (proj2 (Z.leb_le 0 e2)) by lia; reflexivity).
  destruct (rq_bound Binary64 e2) as [B1 _]. specialize (B1 He). fold q in B1.
  assert (IF := inv_flags n sh (Z.even n) q (e2 - q) 0 ltac:(lia) ltac:(lia) ltac:(lia)). cbv zeta in IF. rewrite <- ES, <- ED in IF.
  specialize (IF (or_introl eq_refl)).
  assert (HS : forall vp, vp = (4 * n + 2) * S / D \/ vp = (4 * n + 2) * S / D - 1 /\ (D | (4 * n + 2) * S) ->
      vp / 10 <= (4 * n - 1 - sh) * S / D / 10 -> 0 = (10 * (4 * n * S) / D) mod 10).
  { intros vp H1 H2. assert (q = 0) by (apply (d_start mul j vp); auto). rewrite ED, H, Z.pow_0_r, at_one. reflexivity. }
  specialize (IF HS 21 ltac:(intros L; rewrite ED; exact (threshold Binary64 e2 n sh q Ha L))).
  destruct (inv_code n sh (Z.even n) q (e2 - q) 21) as [[vp vmtz] vrtz] eqn:EC. destruct IF as [Fl Vp].
  exists (mk_scaled (4 * n * S / D) vp ((4 * n - 1 - sh) * S / D) vmtz vrtz 0 q). split.
  - unfold inv_code in EC. rewrite <- ES, <- ED in EC. rewrite <- ED.
    assert (W : forall b, wrap 64 ((4 * n + 2) * S / D - b2z b) = (4 * n + 2) * S / D - b2z b) by (intros b; apply wrap_small; destruct b; cbn [b2z]; lia).
    destruct (q <=? 21); [destruct ((4 * n) mod 5 =? 0); [|destruct (Z.even n)]|]; cbn [bind]; rewrite ?W; inversion EC; reflexivity.
  - constructor; cbn [sc_vr sc_vp sc_vm sc_vmtz sc_vrtz sc_last sc_e10 word]; fold S D; auto; try lia; try discriminate.
    unfold e10_of. rewrite (proj2 (Z.leb_le 0 e2)) by lia. fold q. lia.
Qed.

Lemma d2d_pow_ok : e2 < 0 -> exists c, d2d_pow rc e2 n (4 * n) sh (Z.even n) = Ok c /\ scaled_ok Binary64 e2 n sh c.
Proof.
  intros He. pose proof (ar_e _ _ _ _ Ha) as Hr. cbn in Hr. pose proof (ar_n _ _ _ _ Ha) as Hn. cbn [frac_bits] in Hn. change (2 ^ (52 + 1)) with (2 ^ 53) in Hn.
  pose proof (ar_sh _ _ _ _ Ha) as Hsh.
  destruct (d_pow_facts rc e2 ltac:(lia)) as (mul & j & E1 & Hi & E2 & F). destruct (d_products mul j F) as (E3 & PS & PD & SD & T).
  unfold d2d_pow. rewrite E1. cbn [bind]. rewrite E2. cbn [bind].
  pose proof (df_q _ _ _ F) as Q. fold q in Q, Hi |- *. rewrite to_int_small by lia. rewrite int_sum_1 by lia. cbn [bind]. rewrite E3. cbn [bind].
  assert (ES : S = 5 ^ (- e2 - q)) by (unfold S, rS; rewrite (proj2 (Z.leb_gt 0 e2)) by lia; reflexivity).
  assert (ED : D = 2 ^ q) by (unfold D, rD; rewrite (proj2 (Z.leb_gt 0 e2)) by lia; reflexivity).
  destruct (rq_bound Binary64 e2) as [_ B1]. specialize (B1 He). fold q in B1.
  assert (IF := pow_flags n sh (Z.even n) q (- e2 - q) 0 true). cbv zeta in IF. specialize (IF Hsh ltac:(lia) ltac:(lia)). rewrite <- ES, <- ED in IF.
  specialize (IF ltac:(lia) (or_introl eq_refl)).
  assert (HS : forall vp, vp = (4 * n + 2) * S / D \/ vp = (4 * n + 2) * S / D - 1 /\ (D | (4 * n + 2) * S) ->
      vp / 10 <= (4 * n - 1 - sh) * S / D / 10 -> 0 = (10 * (4 * n * S) / D) mod 10 /\ (true = true -> q = 0)).
  { intros vp H1 H2. assert (q = 0) by (apply (d_start mul j vp); auto). rewrite ED, H, Z.pow_0_r, at_one. auto. }
  specialize (IF HS 63 ltac:(intros L; rewrite ED; exact (threshold2 Binary64 e2 n sh q Ha L))).
  destruct (pow_code n sh (Z.even n) q (- e2 - q) true 63) as [[vp vmtz] vrtz] eqn:EC. destruct IF as [Fl Vp].
  exists (mk_scaled (4 * n * S / D) vp ((4 * n - 1 - sh) * S / D) vmtz vrtz 0 (q + e2)). split.
  - unfold pow_code in EC. rewrite <- ES, <- ED in EC.
    rewrite (wrap_small 64) by lia.
    destruct (q <=? 1); [destruct (Z.even n)|destruct (Z.ltb_spec q 63)]; cbn [bind]; try (inversion EC; reflexivity).
    rewrite multipleOfPowerOf2_ok by lia. cbn [bind]. rewrite <- ED. inversion EC; reflexivity.
  - constructor; cbn [sc_vr sc_vp sc_vm sc_vmtz sc_vrtz sc_last sc_e10 word]; fold S D; auto; try lia; try discriminate.
    unfold e10_of. rewrite (proj2 (Z.leb_gt 0 e2)) by lia. fold q. lia.
Qed.
End Doubles.

Section Floats.
Variables (rc : ryu_config) (e2 n sh : Z).
Hypothesis Ha : arguments Binary32 e2 n sh.
Let S := rS Binary32 e2.
Let D := rD Binary32 e2.
Let q := rq Binary32 e2.

Lemma f_basic F j : f_facts e2 F j -> 0 < S /\ 0 < D /\ D <= S /\ 1 <= (4 * n + 2) * S / D < 2 ^ 32 /\
  forall m, 0 <= m <= 4 * n + 2 -> mulShift32 rc m F j = Ok (m * S / D).
Proof.
  intros H. destruct Ha as [He Hn Hsh Hd]. cbn [frac_bits] in *. change (2 ^ (23 + 1)) with (2 ^ 24) in Hn.
  pose proof (rq_bound Binary32 e2) as [B1 B2].
  destruct (S_D_pos Binary32 e2) as [PS PD]; [apply (ff_q _ _ _ H)|intros G; specialize (B1 G); lia|intros G; specialize (B2 G); lia|].
  pose proof (ff_SD _ _ _ H) as SD. fold S D in PS, PD, SD |- *.
  assert (Top : (4 * n + 2) * S / D < 2 ^ 32).
  { eapply Z.le_lt_trans; [|exact (ff_top _ _ _ H)]. fold S D. apply Z.div_le_mono; nia. }
  repeat split; auto.
  - apply Z.div_le_lower_bound; nia.
  - intros m Hm. assert (E : m * F / 2 ^ j = m * S / D) by (apply (ff_floor _ _ _ H); lia).
    rewrite mulShift32_ok; [rewrite E; reflexivity|lia|apply H|apply H|]. rewrite E.
    eapply Z.le_lt_trans; [|exact Top]. apply Z.div_le_mono; nia.
Qed.
Lemma f_last_digit F j : 0 < D -> 0 < S -> f_facts_last e2 F j -> mulShift32 rc (4 * n) F j = Ok (10 * (4 * n * S) / D).
Proof.
  intros HD HS H. destruct Ha as [He Hn Hsh Hd]. cbn [frac_bits] in *. change (2 ^ (23 + 1)) with (2 ^ 24) in Hn.
  assert (E : 4 * n * F / 2 ^ j = 10 * (4 * n * S) / D).
  { replace (4 * n * F) with (n * (4 * F)) by ring. rewrite (fl_floor _ _ _ H) by lia. fold S D. f_equal. ring. }
  rewrite mulShift32_ok; [rewrite E; reflexivity|lia|apply H|apply H|]. rewrite E.
  eapply Z.le_lt_trans; [|exact (fl_top _ _ _ H)]. fold S D. apply Z.div_le_mono; nia.
Qed.

(** the branch that computes the last removed digit is taken only when the digit is in reach *)
Lemma f_needs : 0 < D -> 0 < S -> q <> 0 -> ((4 * n + 2) * S / D - 1) / 10 <= (4 * n - 1 - sh) * S / D / 10 -> needs_last e2.
Proof.
  intros HD HS Hq L. split; [exact Hq|]. destruct (wide e2 (rS Binary32 e2) (rD Binary32 e2)) eqn:E; [|reflexivity]. exfalso.
  destruct Ha as [_ Hn Hsh Hd]. apply (wide_start ((4 * n + 2) * S) ((4 * n - 1 - sh) * S) D); auto. fold S D in E.
  unfold wide in E. rewrite orb_true_iff, andb_true_iff, !Z.leb_le, Z.eqb_eq in E. destruct E as [E|[E1 E2]]; [nia|].
  assert (sh = 1); [|nia]. destruct Hsh as [->|]; [|assumption]. destruct (Hd eq_refl) as [_ Hm]. cbn in Hm. lia.
Qed.

Lemma f_last_start last : 0 < D -> 0 < S -> 1 <= (4 * n + 2) * S / D ->
  last = (if negb (q =? 0) && (((4 * n + 2) * S / D - 1) / 10 <=? (4 * n - 1 - sh) * S / D / 10) then (10 * (4 * n * S) / D) mod 10 else 0) ->
  (q = 0 -> D = 1) ->
  (last = 0 \/ last = (10 * (4 * n * S) / D) mod 10) /\ 0 <= last < 10 /\
  forall vp, vp = (4 * n + 2) * S / D \/ vp = (4 * n + 2) * S / D - 1 /\ (D | (4 * n + 2) * S) ->
      vp / 10 <= (4 * n - 1 - sh) * S / D / 10 -> last = (10 * (4 * n * S) / D) mod 10.
Proof.
  intros HD HS Hp E H0. assert (B := Z.mod_pos_bound (10 * (4 * n * S) / D) 10 ltac:(lia)).
  split; [|split].
  - rewrite E. destruct (_ && _); auto.
  - rewrite E. destruct (_ && _); lia.
  - intros vp Hv L. rewrite E. destruct (Z.eqb_spec q 0) as [Q|Q]; cbn [negb andb].
    + rewrite (H0 Q), at_one. reflexivity.
    + rewrite (proj2 (Z.leb_le _ _)); [reflexivity|]. eapply Z.le_trans; [|exact L]. apply Z.div_le_mono; lia.
Qed.

Lemma f2d_inv_ok : 0 <= e2 -> exists c, f2d_inv rc e2 (4 * n) (4 * n + 2) (4 * n - 1 - sh) (Z.even n) = Ok c /\ scaled_ok Binary32 e2 n sh c.
Proof.
  intros He. pose proof (ar_e _ _ _ _ Ha) as Hr. cbn in Hr. pose proof (ar_n _ _ _ _ Ha) as Hn. cbn [frac_bits] in Hn. change (2 ^ (23 + 1)) with (2 ^ 24) in Hn.
  pose proof (ar_sh _ _ _ _ Ha) as Hsh.
  destruct (f_inv_facts rc e2 ltac:(lia)) as (F & j & E1 & E2 & FF & FL). destruct (f_basic F j FF) as (PS & PD & SD & T & Mul).
  unfold f2d_inv, mulPow5InvDivPow2. rewrite E1. cbn [bind]. rewrite E2. cbn [bind]. rewrite !Mul by lia. cbn [bind].
  pose proof (ff_q _ _ _ FF) as Q. fold q in Q, FL |- *.
  rewrite to_int_small by (fold q; lia).
  assert (ES : S = 2 ^ (e2 - q)) by (unfold S, rS; rewrite (proj2 (Z.leb_le 0 e2)) by lia; reflexivity).
  assert (ED : D = 5 ^ q) by (unfold D, rD; rewrite (proj2 (Z.leb_le 0 e2)) by lia; reflexivity).
  rewrite (wrap_small 32 ((4 * n + 2) * S / D - 1)) by lia.
  set (last := if negb (q =? 0) && (((4 * n + 2) * S / D - 1) / 10 <=? (4 * n - 1 - sh) * S / D / 10) then (10 * (4 * n * S) / D) mod 10 else 0).
  match goal with |- context [bind (if ?b then ?x else Ok 0) ?k] => assert (EL : (if b then x else Ok 0) = Ok last) end.
  { unfold last. destruct (negb (q =? 0) && _) eqn:C; [|reflexivity]. rewrite andb_true_iff, negb_true_iff, Z.eqb_neq, Z.leb_le in C. destruct C as [C1 C2].
    destruct (FL (f_needs PD PS C1 C2)) as (F' & j' & L1 & L2 & L3). rewrite L1. cbn [bind]. rewrite L2. cbn [bind].
    rewrite (f_last_digit F' j' PD PS L3). reflexivity. }
  rewrite EL. cbn [bind]. clear EL.
  destruct (f_last_start last PD PS ltac:(lia) eq_refl ltac:(intros Z0; rewrite ED, Z0; reflexivity)) as (L1 & L2 & L3).
  rewrite !multipleOfPowerOf5_32_ok by lia.
  destruct (rq_bound Binary32 e2) as [B1 _]. specialize (B1 He). fold q in B1.
  assert (IF := inv_flags n sh (Z.even n) q (e2 - q) last ltac:(lia) ltac:(lia) ltac:(lia)). cbv zeta in IF. rewrite <- ES, <- ED in IF.
  specialize (IF L1 L3 9 ltac:(intros L; rewrite ED; exact (threshold Binary32 e2 n sh q Ha L))).
  destruct (inv_code n sh (Z.even n) q (e2 - q) 9) as [[vp vmtz] vrtz] eqn:EC. destruct IF as [Fl Vp].
  exists (mk_scaled (4 * n * S / D) vp ((4 * n - 1 - sh) * S / D) vmtz vrtz last q). split.
  - unfold inv_code in EC. rewrite <- ES, <- ED in EC. rewrite <- ED.
    assert (W : forall b, wrap 32 ((4 * n + 2) * S / D - b2z b) = (4 * n + 2) * S / D - b2z b) by (intros b; apply wrap_small; destruct b; cbn [b2z]; lia).
    destruct (q <=? 9); [destruct ((4 * n) mod 5 =? 0); [|destruct (Z.even n)]|]; cbn [bind]; rewrite ?W; inversion EC; reflexivity.
  - constructor; cbn [sc_vr sc_vp sc_vm sc_vmtz sc_vrtz sc_last sc_e10 word]; fold S D; auto; try lia; try discriminate.
    unfold e10_of. rewrite (proj2 (Z.leb_le 0 e2)) by lia. fold q. lia.
Qed.

Lemma f2d_pow_ok : e2 < 0 -> exists c, f2d_pow rc e2 (4 * n) (4 * n + 2) (4 * n - 1 - sh) sh (Z.even n) = Ok c /\ scaled_ok Binary32 e2 n sh c.
Proof.
  intros He. pose proof (ar_e _ _ _ _ Ha) as Hr. cbn in Hr. pose proof (ar_n _ _ _ _ Ha) as Hn. cbn [frac_bits] in Hn. change (2 ^ (23 + 1)) with (2 ^ 24) in Hn.
  pose proof (ar_sh _ _ _ _ Ha) as Hsh.
  destruct (f_pow_facts rc e2 ltac:(lia)) as (F & j & E1 & Hi & E2 & FF & FL). destruct (f_basic F j FF) as (PS & PD & SD & T & Mul).
  pose proof (ff_q _ _ _ FF) as Q. fold q in Q, FL, Hi, E1, E2 |- *.
  unfold f2d_pow, mulPow5divPow2. rewrite E1. cbn [bind]. rewrite to_int_small by lia. rewrite int_sum_1 by lia. cbn [bind].
  rewrite (wrap_small 32 (- e2 - q)) by lia. rewrite E2. cbn [bind]. rewrite !Mul by lia. cbn [bind].
  assert (ES : S = 5 ^ (- e2 - q)) by (unfold S, rS; rewrite (proj2 (Z.leb_gt 0 e2)) by lia; reflexivity).
  assert (ED : D = 2 ^ q) by (unfold D, rD; rewrite (proj2 (Z.leb_gt 0 e2)) by lia; reflexivity).
  rewrite (wrap_small 32 ((4 * n + 2) * S / D - 1)) by lia.
  set (last := if negb (q =? 0) && (((4 * n + 2) * S / D - 1) / 10 <=? (4 * n - 1 - sh) * S / D / 10) then (10 * (4 * n * S) / D) mod 10 else 0).
  match goal with |- context [bind (if ?b then ?x else Ok 0) ?k] => assert (EL : (if b then x else Ok 0) = Ok last) end.
  { unfold last. destruct (negb (q =? 0) && _) eqn:C; [|reflexivity]. rewrite andb_true_iff, negb_true_iff, Z.eqb_neq, Z.leb_le in C. destruct C as [C1 C2].
    destruct (FL (f_needs PD PS C1 C2)) as (i1 & F' & j' & L1 & L0 & L2 & L3). rewrite L1. cbn [bind fst snd]. rewrite wrap_small by lia. rewrite L2. cbn [bind].
    rewrite (f_last_digit F' j' PD PS L3). reflexivity. }
  rewrite EL. cbn [bind]. clear EL.
  destruct (f_last_start last PD PS ltac:(lia) eq_refl ltac:(intros Z0; rewrite ED, Z0; reflexivity)) as (L1 & L2 & L3).
  destruct (rq_bound Binary32 e2) as [_ B1]. specialize (B1 He). fold q in B1.
  assert (IF := pow_flags n sh (Z.even n) q (- e2 - q) last false). cbv zeta in IF. specialize (IF Hsh ltac:(lia) ltac:(lia)). rewrite <- ES, <- ED in IF.
  specialize (IF ltac:(lia) L1).
  specialize (IF ltac:(intros vp V1 V2; split; [exact (L3 vp V1 V2)|discriminate]) 31 ltac:(intros L; rewrite ED; exact (threshold2 Binary32 e2 n sh q Ha L))).
  destruct (pow_code n sh (Z.even n) q (- e2 - q) false 31) as [[vp vmtz] vrtz] eqn:EC. destruct IF as [Fl Vp].
  exists (mk_scaled (4 * n * S / D) vp ((4 * n - 1 - sh) * S / D) vmtz vrtz last (q + e2)). split.
  - unfold pow_code in EC. rewrite <- ES, <- ED in EC.
    destruct (Z.leb_spec q 1); [destruct (Z.even n)|destruct (Z.ltb_spec q 31)]; cbn [bind]; try (inversion EC; reflexivity).
    rewrite (wrap_small 32) by lia. rewrite multipleOfPowerOf2_32_ok by lia. cbn [bind]. inversion EC; reflexivity.
  - constructor; cbn [sc_vr sc_vp sc_vm sc_vmtz sc_vrtz sc_last sc_e10 word]; fold S D; auto; try lia; try discriminate.
    unfold e10_of. rewrite (proj2 (Z.leb_gt 0 e2)) by lia. fold q. lia.
Qed.
End Floats.
