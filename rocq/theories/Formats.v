(** * Doubles read as floats, floats widened to doubles, and the nearest modes among each other *)

From Coq Require Import ZArith Reals Lra Lia Bool.
From Flocq Require Import Core.
From Verif Require Import Machine Model Spec UserSpec FormatSpec ExpFacts Inward Link Reading Bridge ReadsBack Shortest Main Results Claims Signs Unique Users.
Open Scope R_scope.

Lemma read_mono f m u v : u <= v -> read f m u <= read f m v.
Proof.
  intros H. unfold read. pose proof (valid_reading m) as W.
  assert (P : Prec_gt_0 (prec f)) by (destruct f; reflexivity). apply round_le; [apply FLT_exp_valid, P | exact W | exact H].
Qed.

Section Format.
Variable f : fmt.
Local Notation fexp := (FLT_exp (emin f) (prec f)).
Local Notation F := (generic_format radix2 fexp).
Local Notation lower := (read f toward_minus_infinity).
Local Notation upper := (read f toward_plus_infinity).

Local Instance prec_pos : Prec_gt_0 (prec f). Proof. destruct f; reflexivity. Qed.
Lemma format_EM v : F v \/ ~ F v. Proof. apply generic_format_EM, FLT_exp_valid, prec_pos. Qed.
Lemma lower_pt v : Rnd_DN_pt F v (lower v). Proof. apply round_DN_pt, FLT_exp_valid, prec_pos. Qed.
Lemma upper_pt v : Rnd_UP_pt F v (upper v). Proof. apply round_UP_pt, FLT_exp_valid, prec_pos. Qed.
Lemma nearest_pt m v : is_nearest m = true -> Rnd_N_pt F v (read f m v).
Proof. intros Hm. unfold read. destruct m; try discriminate Hm; apply round_N_pt, FLT_exp_valid, prec_pos. Qed.
Lemma lower_upper v : ~ F v -> lower v < v < upper v.
Proof.
  intros N. destruct (lower_pt v) as (A & B & _). destruct (upper_pt v) as (C & D & _).
  split; [destruct B as [B|B] | destruct D as [D|D]]; try assumption; exfalso; apply N; [rewrite <- B | rewrite D]; assumption.
Qed.
Lemma nearest_agree m m' v : is_nearest m = true -> is_nearest m' = true -> ~ midway f v -> read f m v = read f m' v.
Proof.
  intros A B N. destruct (format_EM v) as [G|G].
  - rewrite !read_generic by exact G. reflexivity.
  - apply (Rnd_N_pt_unique F v (lower v) (upper v)); [apply lower_pt | apply upper_pt | | apply nearest_pt, A | apply nearest_pt, B].
    intros E. apply N. split; [apply lower_upper, G | exact E].
Qed.

(** ** A number between two neighbours *)
Section Between.
Variables a b : R.
Hypothesis Ha : F a.
Hypothesis Hb : F b.
Hypothesis gap : forall g, F g -> g <= a \/ b <= g.
Lemma between_pt v : a < v < b -> Rnd_DN_pt F v a /\ Rnd_UP_pt F v b.
Proof.
  intros V. repeat split; try assumption; try lra; intros g G L; destruct (gap g G); lra.
Qed.
Lemma lower_between v : a < v < b -> lower v = a.
Proof. intros V. apply (Rnd_DN_pt_unique F v); [apply lower_pt | apply between_pt, V]. Qed.
Lemma upper_between v : a < v < b -> upper v = b.
Proof. intros V. apply (Rnd_UP_pt_unique F v); [apply upper_pt | apply between_pt, V]. Qed.
Lemma nearest_below m v : is_nearest m = true -> a <= v < (a + b) / 2 -> read f m v = a.
Proof.
  intros Hm [[V|V] L]; [|rewrite <- V; apply read_generic, Ha]. destruct (between_pt v ltac:(lra)) as [P Q].
  destruct (Rnd_N_pt_DN_or_UP F v _ (nearest_pt m v Hm)) as [D|U].
  - apply (Rnd_DN_pt_unique F v); assumption.
  - exfalso. pose proof (Rnd_UP_pt_unique F v _ _ U Q) as E. destruct (nearest_pt m v Hm) as [_ N]. specialize (N a Ha). rewrite E in N.
    rewrite Rabs_pos_eq, Rabs_left1 in N by lra. lra.
Qed.
Lemma nearest_above m v : is_nearest m = true -> (a + b) / 2 < v <= b -> read f m v = b.
Proof.
  intros Hm [L [V|V]]; [|rewrite V; apply read_generic, Hb]. destruct (Rlt_le_dec a v) as [A|A]; [|destruct (gap b Hb); lra]. destruct (between_pt v ltac:(lra)) as [P Q].
  destruct (Rnd_N_pt_DN_or_UP F v _ (nearest_pt m v Hm)) as [D|U].
  - exfalso. pose proof (Rnd_DN_pt_unique F v _ _ D P) as E. destruct (nearest_pt m v Hm) as [_ N]. specialize (N b Hb). rewrite E in N.
    rewrite Rabs_left1, Rabs_pos_eq in N by lra. lra.
  - apply (Rnd_UP_pt_unique F v); assumption.
Qed.
End Between.
Lemma gap_of v : ~ F v -> forall g, F g -> g <= lower v \/ upper v <= g.
Proof.
  intros N g G. destruct (lower_pt v) as (_ & _ & A). destruct (upper_pt v) as (_ & _ & B).
  destruct (Rle_lt_dec g v) as [L|L]; [left; apply A | right; apply B]; try assumption; lra.
Qed.
End Format.

(** ** Floats among the doubles *)
Local Notation F32 := (generic_format radix2 (FLT_exp (emin Binary32) (prec Binary32))).
Local Notation F64 := (generic_format radix2 (FLT_exp (emin Binary64) (prec Binary64))).
Lemma widen v : F32 v -> F64 v.
Proof.
  intros H. apply FLT_format_generic in H; [|reflexivity]. destruct H as [[k e] E K L]. cbn [Fnum Fexp] in *. rewrite E.
  apply generic_format_FLT. exists (Float radix2 k e); [reflexivity | |].
  - cbn [Fnum]. apply Z.lt_le_trans with (1 := K). discriminate.
  - cbn [Fexp]. apply Z.le_trans with (2 := L). discriminate.
Qed.
Lemma half_way v : ~ F32 v -> F64 ((read Binary32 toward_minus_infinity v + read Binary32 toward_plus_infinity v) / 2).
Proof.
  intros N. set (fexp := FLT_exp (emin Binary32) (prec Binary32)) in *.
  assert (V : v <> 0) by (intros ->; apply N, generic_format_0).
  assert (P : Prec_gt_0 (prec Binary32)) by reflexivity.
  pose proof (FLT_exp_valid (emin Binary32) (prec Binary32)) as Val. fold fexp in Val.
  unfold read. cbn [reading]. fold fexp. rewrite (round_UP_DN_ulp radix2 fexp v N), ulp_neq_0 by exact V.
  unfold round, F2R. cbn [Fnum Fexp]. set (c := cexp radix2 fexp v). set (k := Zfloor (scaled_mantissa radix2 fexp v)).
  replace ((IZR k * bpow radix2 c + (IZR k * bpow radix2 c + bpow radix2 c)) / 2) with (IZR (2 * k + 1) * bpow radix2 (c - 1)).
  2: { rewrite plus_IZR, mult_IZR. rewrite (bpow2_pred c). lra. }
  apply (generic_int Binary64).
  - pose proof (scaled_mantissa_lt_bpow radix2 fexp v) as S. fold c in S.
    assert (B : (mag radix2 v - c <= 24)%Z) by (unfold c, cexp, fexp, FLT_exp; cbn [prec emin]; lia).
    assert (S2 : Rabs (scaled_mantissa radix2 fexp v) < IZR (2 ^ 24)).
    { apply Rlt_le_trans with (1 := S). change (IZR (2 ^ 24)) with (bpow radix2 24). apply bpow_le, B. }
    apply Rabs_def2 in S2. destruct S2 as [S2 S3].
    assert (K1 : (k < 2 ^ 24)%Z). { apply lt_IZR. apply Rle_lt_trans with (2 := S2). apply Zfloor_lb. }
    assert (K2 : (- 2 ^ 24 <= k)%Z). { apply Zfloor_lub. rewrite opp_IZR. lra. }
    cbn [prec]. lia.
  - unfold c, cexp, fexp, FLT_exp. cbn [emin prec]. lia.
Qed.

Lemma narrow_cases m d : let v := read Binary64 m d in ~ F32 d ->
  let a := read Binary32 toward_minus_infinity d in let b := read Binary32 toward_plus_infinity d in
  a < d < b /\ a <= v <= b /\ (d < (a + b) / 2 -> v <= (a + b) / 2) /\ ((a + b) / 2 < d -> (a + b) / 2 <= v) /\ (d = (a + b) / 2 -> v = d).
Proof.
  intros v N a b. pose proof (lower_upper Binary32 d N) as L. fold a b in L.
  assert (A : F64 a) by (apply widen, lower_pt). assert (B : F64 b) by (apply widen, upper_pt).
  pose proof (half_way d N) as M. fold a b in M.
  assert (R : forall p q, p <= q -> read Binary64 m p <= read Binary64 m q) by (intros; apply read_mono; assumption).
  pose proof (read_generic Binary64 m a A) as Ea. pose proof (read_generic Binary64 m b B) as Eb. pose proof (read_generic Binary64 m _ M) as Em.
  split; [exact L|]. split; [split; [rewrite <- Ea | rewrite <- Eb]; apply R; lra|].
  split; [intros H; rewrite <- Em; apply R; lra|]. split; [intros H; rewrite <- Em; apply R; lra|].
  intros E. unfold v. rewrite E. exact Em.
Qed.

(** reading first as a double and then as a float *)
Lemma narrow_nearest m m' d : is_nearest m' = true -> ~ midway Binary32 (read Binary64 m d) ->
  read Binary32 m' d = read Binary32 m' (read Binary64 m d).
Proof.
  intros Hm' N. destruct (format_EM Binary32 d) as [G|G].
  - rewrite (read_generic Binary64 m d); [reflexivity | apply widen, G].
  - destruct (narrow_cases m d G) as (D & V & V1 & V2 & V3). set (v := read Binary64 m d) in *.
    set (a := read Binary32 toward_minus_infinity d) in *. set (b := read Binary32 toward_plus_infinity d) in *.
    assert (A : F32 a) by apply lower_pt. assert (B : F32 b) by apply upper_pt. pose proof (gap_of Binary32 d G) as Gp. fold a b in Gp.
    destruct (Rtotal_order d ((a + b) / 2)) as [L|[L|L]].
    + specialize (V1 L). assert (v <> (a + b) / 2).
      { intros E. apply N. unfold midway. rewrite (lower_between Binary32 a b A B Gp), (upper_between Binary32 a b A B Gp) by lra. lra. }
      rewrite !(nearest_below Binary32 a b A B Gp m') by (try assumption; lra). reflexivity.
    + rewrite (V3 L). reflexivity.
    + specialize (V2 L). assert (v <> (a + b) / 2).
      { intros E. apply N. unfold midway. rewrite (lower_between Binary32 a b A B Gp), (upper_between Binary32 a b A B Gp) by lra. lra. }
      rewrite !(nearest_above Binary32 a b A B Gp m') by (try assumption; lra). reflexivity.
Qed.
(** when it arrives half way between two floats *)
Lemma narrow_midway m m' d : is_nearest m' = true -> let v := read Binary64 m d in midway Binary32 v ->
  (d < v -> read Binary32 m' d = read Binary32 toward_minus_infinity v) /\ (v < d -> read Binary32 m' d = read Binary32 toward_plus_infinity v).
Proof.
  intros Hm' v [M1 M2]. set (a := read Binary32 toward_minus_infinity v) in *. set (b := read Binary32 toward_plus_infinity v) in *.
  assert (G : ~ F32 v) by (intros G; unfold a in M1; rewrite (read_generic Binary32 _ v G) in M1; lra).
  assert (A : F32 a) by apply lower_pt. assert (B : F32 b) by apply upper_pt. pose proof (gap_of Binary32 v G) as Gp. fold a b in Gp.
  assert (D : a < d < b).
  { split; apply Rnot_le_lt; intros L; apply (read_mono Binary64 m) in L; fold v in L.
    - rewrite (read_generic Binary64 m a) in L by (apply widen, A). lra.
    - rewrite (read_generic Binary64 m b) in L by (apply widen, B). lra. }
  split; intros L; [apply (nearest_below Binary32 a b A B Gp m') | apply (nearest_above Binary32 a b A B Gp m')]; try assumption; lra.
Qed.
Lemma narrow_lower d : read Binary32 toward_minus_infinity (read Binary64 toward_minus_infinity d) = read Binary32 toward_minus_infinity d.
Proof.
  destruct (lower_pt Binary64 d) as (_ & L & M). destruct (lower_pt Binary32 d) as (A & B & _).
  apply Rle_antisym; [apply read_mono, L|]. rewrite <- (read_generic Binary32 toward_minus_infinity _ A) at 1. apply read_mono. apply M; [apply widen, A | exact B].
Qed.
Lemma narrow_upper d : read Binary32 toward_plus_infinity (read Binary64 toward_plus_infinity d) = read Binary32 toward_plus_infinity d.
Proof.
  destruct (upper_pt Binary64 d) as (_ & L & M). destruct (upper_pt Binary32 d) as (A & B & _).
  apply Rle_antisym; [|apply read_mono, L]. rewrite <- (read_generic Binary32 toward_plus_infinity _ A). apply read_mono. apply M; [apply widen, A | exact B].
Qed.
Lemma narrow_directed m d : is_nearest m = false -> read Binary32 m d = read Binary32 m (read Binary64 m d).
Proof.
  intros Hm. assert (Z : forall f, read f m 0 = 0) by (intros f; apply read_generic, generic_format_0).
  assert (P : forall f u, 0 <= u -> 0 <= read f m u) by (intros f u U; rewrite <- (Z f); apply read_mono, U).
  assert (Q : forall f u, u <= 0 -> read f m u <= 0) by (intros f u U; rewrite <- (Z f); apply read_mono, U).
  destruct m; try discriminate Hm.
  - symmetry. apply narrow_upper.
  - symmetry. apply narrow_lower.
  - assert (S1 : forall f u, 0 <= u -> read f toward_zero u = read f toward_minus_infinity u) by (intros; apply round_ZR_DN; assumption).
    assert (S2 : forall f u, u <= 0 -> read f toward_zero u = read f toward_plus_infinity u) by (intros; apply round_ZR_UP; assumption).
    destruct (Rle_lt_dec 0 d) as [L|L].
    + rewrite (S1 Binary32 (read Binary64 toward_zero d)) by (apply P, L). rewrite !S1 by exact L. symmetry. apply narrow_lower.
    + rewrite (S2 Binary32 (read Binary64 toward_zero d)) by (apply Q; lra). rewrite !S2 by lra. symmetry. apply narrow_upper.
  - assert (S1 : forall f u, 0 <= u -> read f away_from_zero u = read f toward_plus_infinity u) by (intros; apply round_AW_UP; assumption).
    assert (S2 : forall f u, u <= 0 -> read f away_from_zero u = read f toward_minus_infinity u) by (intros; apply round_AW_DN; assumption).
    destruct (Rle_lt_dec 0 d) as [L|L].
    + rewrite (S1 Binary32 (read Binary64 away_from_zero d)) by (apply P, L). rewrite !S1 by exact L. symmetry. apply narrow_upper.
    + rewrite (S2 Binary32 (read Binary64 away_from_zero d)) by (apply Q; lra). rewrite !S2 by lra. symmetry. apply narrow_lower.
Qed.

(** ** What grisu_exact returns for a double, read as a float *)
Lemma narrowed cfg m m' rs crs h x : input Binary64 x -> is_nearest m = true -> is_nearest m' = true -> ~ midway Binary32 (value Binary64 x) ->
  exists r, grisu_exact cfg Binary64 rs m crs h x = Ok r /\
    read Binary32 m' (decimal (signed Binary64 x r) (fp_exponent r)) = read Binary32 m' (value Binary64 x).
Proof.
  intros Hin Hm Hm' N. destruct (nearest_round_trip cfg Binary64 rs m crs h x Hin Hm) as (r & E & R). exists r. split; [exact E|].
  unfold reads_back in R. rewrite <- R in N |- *. apply narrow_nearest; assumption.
Qed.
Lemma narrowed_midway cfg m m' rs crs h x : input Binary64 x -> is_nearest m = true -> is_nearest m' = true -> midway Binary32 (value Binary64 x) ->
  exists r d, grisu_exact cfg Binary64 rs m crs h x = Ok r /\ d = decimal (signed Binary64 x r) (fp_exponent r) /\
    (d = value Binary64 x \/
     d < value Binary64 x /\ read Binary32 m' d = read Binary32 toward_minus_infinity (value Binary64 x) \/
     value Binary64 x < d /\ read Binary32 m' d = read Binary32 toward_plus_infinity (value Binary64 x)).
Proof.
  intros Hin Hm Hm' N. destruct (nearest_round_trip cfg Binary64 rs m crs h x Hin Hm) as (r & E & R). exists r, (decimal (signed Binary64 x r) (fp_exponent r)). split; [exact E|].
  split; [reflexivity|]. unfold reads_back in R. set (d := decimal _ _) in *. pose proof (narrow_midway m m' d Hm') as C. cbv zeta in C. rewrite R in C.
  destruct (C N) as [C1 C2]. destruct (Rtotal_order d (value Binary64 x)) as [L|[L|L]]; [right; left | left | right; right]; auto.
Qed.
Lemma narrowed_directed cfg m rs crs h x r : input Binary64 x -> is_nearest m = false -> grisu_exact cfg Binary64 rs m crs h x = Ok r ->
  read Binary32 m (decimal (signed Binary64 x r) (fp_exponent r)) = read Binary32 m (value Binary64 x).
Proof.
  intros Hin Hm E. pose proof (reads_back_ok cfg Binary64 rs m crs h x r Hin E) as R. unfold reads_back in R. rewrite <- R. apply narrow_directed, Hm.
Qed.

(** ** A float and the double of the same value *)
Lemma value_format f x : input f x -> generic_format radix2 (FLT_exp (emin f) (prec f)) (value f x).
Proof.
  intros Hin. rewrite (input_value f x Hin). pose proof (spec_n f x Hin). apply generic_cond; [lia | apply spec_e0, Hin].
Qed.
Lemma widened_reads m x y s e : input Binary32 y -> value Binary64 x = value Binary32 y ->
  reads_back Binary64 m x s e -> reads_back Binary32 m y s e.
Proof.
  intros Hy E R. unfold reads_back in *. pose proof (value_format Binary32 y Hy) as F.
  assert (V : read Binary32 m (read Binary64 m (decimal s e)) = value Binary32 y) by (rewrite R, E; apply read_generic, F).
  rewrite <- V at 1. destruct (is_nearest m) eqn:Hm; [apply narrow_nearest | apply narrow_directed]; try assumption.
  rewrite R, E. intros [M _]. rewrite (read_generic Binary32 _ _ F) in M. lra.
Qed.
Lemma widened cfg m rs crs crs' h x y r : input Binary32 y -> input Binary64 x -> value Binary64 x = value Binary32 y -> minimal m Binary32 y = true ->
  grisu_exact cfg Binary64 rs m crs h x = Ok r ->
  reads_back Binary32 m y (signed Binary64 x r) (fp_exponent r) /\
  exists r', grisu_exact cfg Binary32 rs m crs' h y = Ok r' /\ (digits (fp_significand r') <= digits (fp_significand r))%Z.
Proof.
  intros Hy Hx E Hm Er. pose proof (widened_reads m x y _ _ Hy E (reads_back_ok cfg Binary64 rs m crs h x r Hx Er)) as R. split; [exact R|].
  destruct (minimal_result cfg Binary32 rs m crs' h y Hy Hm) as (r' & E' & _ & [_ S]). exists r'. split; [exact E'|].
  pose proof (S _ _ R) as L. unfold signed in L. rewrite !digits_signed in L. exact L.
Qed.

(** ** The nearest modes *)
Lemma same_decimal f m x s e s' e' : input f x -> reads_back f m x s e -> reads_back f m x s' e' -> digits s = digits s' -> decimal s e = decimal s' e' -> s = s' /\ e = e'.
Proof.
  intros Hin R R' D Q. set (neg := negative f x).
  assert (P : forall t k, reads_back f m x t k -> (0 < cond_Zopp neg t)%Z).
  { intros t k H. apply (decimal_pos _ k), (I_pos f m x Hin). cbv beta. rewrite <- decimal_signed. fold neg. rewrite cond_Zopp_twice. exact H. }
  pose proof (P _ _ R) as P1. pose proof (P _ _ R') as P2. pose proof (digits_bounds _ e P1) as B. pose proof (digits_bounds _ e' P2) as B'.
  rewrite !digits_signed, !decimal_signed in B, B'. rewrite <- D, <- Q in B'.
  assert (H : p10 (digits s - 1 + e) < p10 (digits s + e')) by lra. assert (H0 : p10 (digits s - 1 + e') < p10 (digits s + e)) by lra.
  apply lt_bpow in H. apply lt_bpow in H0. assert (EE : e = e') by lia. split; [|exact EE]. rewrite !decimal_eq, EE in Q.
  apply Rmult_eq_reg_r in Q; [|apply Rgt_not_eq, bpow_gt_0]. apply eq_IZR, Q.
Qed.
Lemma closer_middle u v w : Rabs (u - w) = Rabs (v - w) -> u <> v -> u + v = 2 * w.
Proof. intros E N. unfold Rabs in E. repeat destruct Rcase_abs; lra. Qed.
Lemma nearest_modes cfg f rs m m' crs h x : input f x -> is_nearest m = true -> is_nearest m' = true ->
  exists r r', grisu_exact cfg f rs m crs h x = Ok r /\ grisu_exact cfg f rs m' crs h x = Ok r' /\
  (r = r' \/ midway f (decimal (signed f x r) (fp_exponent r)) \/ midway f (decimal (signed f x r') (fp_exponent r'))).
Proof.
  intros Hin Hm Hm'. destruct (total cfg f rs m crs h x Hin (nearest_any f m x Hm)) as [r E]. destruct (total cfg f rs m' crs h x Hin (nearest_any f m' x Hm')) as [r' E'].
  exists r, r'. split; [exact E|]. split; [exact E'|].
  assert (Dec : forall v, midway f v \/ ~ midway f v).
  { intros v. unfold midway. destruct (Rlt_le_dec (read f toward_minus_infinity v) v); [|right; lra].
    destruct (Req_dec (v - read f toward_minus_infinity v) (read f toward_plus_infinity v - v)); [left | right]; tauto. }
  set (s := signed f x r) in *. set (e := fp_exponent r) in *. set (s' := signed f x r') in *. set (e' := fp_exponent r') in *.
  destruct (Dec (decimal s e)) as [|N]; [tauto|]. destruct (Dec (decimal s' e')) as [|N']; [tauto|]. left.
  pose proof (nearest_result cfg f rs m crs h x Hin r Hm E) as G. pose proof (nearest_result cfg f rs m' crs h x Hin r' Hm' E') as G'.
  destruct (b_short _ _ _ _ _ (g_basic _ _ _ _ _ _ G)) as [R S]. destruct (b_short _ _ _ _ _ (g_basic _ _ _ _ _ _ G')) as [R' S']. change (reads_back f m x s e) in R. change (reads_back f m' x s' e') in R'.
  change (forall t k, reads_back f m x t k -> (digits s <= digits t)%Z) in S. change (forall t k, reads_back f m' x t k -> (digits s' <= digits t)%Z) in S'.
  assert (R2 : reads_back f m' x s e) by (unfold reads_back in *; rewrite <- R; apply nearest_agree; assumption).
  assert (R2' : reads_back f m x s' e') by (unfold reads_back in *; rewrite <- R'; apply nearest_agree; assumption).
  pose proof (S _ _ R2') as D1. pose proof (S' _ _ R2) as D2. assert (D : digits s = digits s') by lia.
  assert (Same : decimal s e = decimal s' e').
  { destruct (Req_dec (decimal s e) (decimal s' e')) as [|Ne]; [assumption|exfalso].
    destruct (cares crs) eqn:Hc.
    - pose proof (g_close _ _ _ _ _ _ G Hc : closest f m x s e) as C. pose proof (g_close _ _ _ _ _ _ G' Hc : closest f m' x s' e') as C'.
      assert (Er : error f x s e = error f x s' e') by (apply Rle_antisym; [apply C | apply C']; try assumption; lia).
      pose proof (g_ties _ _ _ _ _ _ G Hc : breaks_ties crs f m x s e) as T. pose proof (g_ties _ _ _ _ _ _ G' Hc : breaks_ties crs f m' x s' e') as T'.
      assert (Sh : shortest f m x s' e') by (split; [exact R2' | intros t k H; rewrite <- D; apply (S t k H)]).
      assert (Cl : closest f m x s' e') by (intros t k H L; rewrite <- Er; apply C; [exact H | lia]).
      assert (Ti : breaks_ties crs f m x s' e').
      { intros t k H L Et Nt. pose proof (T' s e R2 ltac:(lia) Er Ne) as W. assert (Q : decimal t k = decimal s e).
        { unfold error in Et, Er. pose proof (closer_middle _ _ _ Et Nt). pose proof (closer_middle _ _ _ Er Ne). lra. }
        destruct crs; cbn [wins_tie] in *; rewrite ?Q; exact W. }
      destruct (determined f m x Hin crs s e s' e') as [-> ->]; try assumption; [destruct crs; discriminate | split; assumption | apply Ne; reflexivity].
    -
      pose proof ((g_large _ _ _ _ _ _ G Hc : largest f m x s e) s' e' R2' ltac:(lia)) as A. pose proof ((g_large _ _ _ _ _ _ G' Hc : largest f m' x s' e') s e R2 ltac:(lia)) as A'.
      assert (P : forall t k, reads_back f m x t k -> 0 < cond_Ropp (negative f x) (decimal t k)).
      { intros t k H. apply (I_pos f m x Hin). unfold reads_back in H. rewrite <- decimal_signed, <- decimal_signed, cond_Zopp_twice. exact H. }
      pose proof (P _ _ R). pose proof (P _ _ R2'). apply Ne. destruct (negative f x); cbn [cond_Ropp] in *; unfold Rabs in *; repeat destruct Rcase_abs; lra. }
  destruct (same_decimal f m x s e s' e' Hin R R2' D Same) as [Es Ee].
  assert (SS : fp_significand r = fp_significand r') by (rewrite <- (cond_Zopp_twice (negative f x) (fp_significand r)), <- (cond_Zopp_twice (negative f x) (fp_significand r')); f_equal; exact Es).
  assert (NN : fp_is_negative r = fp_is_negative r').
  { destruct rs.
    - rewrite (result_sign cfg f m crs h x r (proj1 Hin) E), (result_sign cfg f m' crs h x r' (proj1 Hin) E'). reflexivity.
    - revert E E'. unfold grisu_exact. destruct (run_case_handler cfg f h x); cbn [bind]; try discriminate.
      destruct (compute cfg f (delegate f m x) crs x) as [[? ?]| | |]; cbn [bind]; try discriminate.
      destruct (compute cfg f (delegate f m' x) crs x) as [[? ?]| | |]; cbn [bind]; try discriminate.
      intros U W. injection U as <-. injection W as <-. reflexivity. }
  destruct r as [a b c], r' as [a' b' c']. cbn in Ee, SS, NN. unfold e, e' in Ee. cbn in Ee. subst. reflexivity.
Qed.

(** ** Which doubles lie half way, and the examples *)
Lemma midway_normal n e : (2 ^ 52 <= n < 2 ^ 53)%Z -> (-178 <= e)%Z -> (midway Binary32 (IZR n * bpow radix2 e) <-> n mod 2 ^ 29 = 2 ^ 28)%Z.
Proof.
  intros N E. set (v := IZR n * bpow radix2 e).
  assert (C : cexp radix2 (FLT_exp (emin Binary32) (prec Binary32)) v = (e + 29)%Z).
  { unfold cexp. rewrite (mag_unique radix2 v (53 + e)).
    - unfold FLT_exp. cbn [emin prec]. lia.
    - unfold v. assert (P : 0 < bpow radix2 e) by apply bpow_gt_0. rewrite Rabs_pos_eq by (apply Rmult_le_pos; [apply IZR_le; lia | lra]).
      rewrite !bpow_plus. replace (53 + e - 1)%Z with (52 + e)%Z by ring. rewrite bpow_plus. change (bpow radix2 52) with (IZR (2 ^ 52)). change (bpow radix2 53) with (IZR (2 ^ 53)).
      split; [apply Rmult_le_compat_r; [lra | apply IZR_le; lia] | apply Rmult_lt_compat_r; [lra | apply IZR_lt; lia]]. }
  assert (S : scaled_mantissa radix2 (FLT_exp (emin Binary32) (prec Binary32)) v = IZR n / IZR (2 ^ 29)).
  { unfold scaled_mantissa. rewrite C. unfold v. rewrite Rmult_assoc, <- bpow_plus. replace (e + - (e + 29))%Z with (-29)%Z by ring. reflexivity. }
  assert (Q : v = IZR n / IZR (2 ^ 29) * bpow radix2 (e + 29)).
  { unfold v. rewrite Z.add_comm, bpow_plus. change (bpow radix2 29) with (IZR (2 ^ 29)). field. apply not_0_IZR. discriminate. }
  assert (B : 0 < bpow radix2 (e + 29)) by apply bpow_gt_0.
  pose proof (Z.div_mod n (2 ^ 29) ltac:(lia)) as D. pose proof (Z.mod_pos_bound n (2 ^ 29) ltac:(lia)) as R. set (k := (n / 2 ^ 29)%Z) in *. set (t := (n mod 2 ^ 29)%Z) in *.
  assert (D2 : IZR n / IZR (2 ^ 29) = IZR k + IZR t / IZR (2 ^ 29)).
  { rewrite D, plus_IZR, mult_IZR. field. apply not_0_IZR. discriminate. }
  assert (T : 0 <= IZR t / IZR (2 ^ 29) < 1).
  { split; [apply Rle_mult_inv_pos; [apply IZR_le; lia | apply IZR_lt; lia]|]. apply Rmult_lt_reg_r with (IZR (2 ^ 29)); [apply IZR_lt; lia|].
    replace (IZR t / IZR (2 ^ 29) * IZR (2 ^ 29)) with (IZR t) by (field; apply not_0_IZR; discriminate). rewrite Rmult_1_l. apply IZR_lt. lia. }
  assert (L : read Binary32 toward_minus_infinity v = IZR k * bpow radix2 (e + 29)).
  { unfold read, round, F2R. cbn [reading Fnum Fexp]. rewrite C, S, D2. f_equal. f_equal. apply Zfloor_imp. rewrite plus_IZR. lra. }
  unfold midway. rewrite L, Q, D2. split.
  - intros [H1 H2]. assert (T0 : 0 < IZR t / IZR (2 ^ 29)) by nra.
    assert (U : read Binary32 toward_plus_infinity v = IZR (k + 1) * bpow radix2 (e + 29)).
    { unfold read, round, F2R. cbn [reading Fnum Fexp]. rewrite C, S, D2. f_equal. f_equal. apply Zceil_imp. rewrite minus_IZR, plus_IZR. lra. }
    rewrite <- D2, <- Q, U, Q, D2, plus_IZR in H2. assert (H3 : IZR t / IZR (2 ^ 29) = / 2) by nra.
    apply eq_IZR. replace (IZR t) with (IZR t / IZR (2 ^ 29) * IZR (2 ^ 29)) by (field; apply not_0_IZR; discriminate). rewrite H3. lra.
  - intros H. assert (H3 : IZR t / IZR (2 ^ 29) = / 2) by (rewrite H; lra).
    assert (U : read Binary32 toward_plus_infinity v = IZR (k + 1) * bpow radix2 (e + 29)).
    { unfold read, round, F2R. cbn [reading Fnum Fexp]. rewrite C, S, D2. f_equal. f_equal. apply Zceil_imp. rewrite minus_IZR, plus_IZR. lra. }
    rewrite <- D2, <- Q, U, Q, D2, plus_IZR. nra.
Qed.
Lemma midway_opp f v : midway f v -> midway f (- v).
Proof.
  intros [A B]. unfold midway. assert (D : read f toward_minus_infinity (- v) = - read f toward_plus_infinity v) by (apply round_DN_opp).
  assert (U : read f toward_plus_infinity (- v) = - read f toward_minus_infinity v) by (apply round_UP_opp). rewrite D, U. lra.
Qed.
Lemma midway_pattern x : input Binary64 x -> (897 <= exponent_field Binary64 x)%Z -> (midway Binary32 (value Binary64 x) <-> x mod 2 ^ 29 = 2 ^ 28)%Z.
Proof.
  intros Hin E. pose proof (spec_n Binary64 x Hin) as B. cbn [prec] in B.
  assert (N : (2 ^ 52 <= n_of Binary64 x)%Z /\ (-178 <= e0_of Binary64 x)%Z /\ (n_of Binary64 x mod 2 ^ 29 = x mod 2 ^ 29)%Z).
  { rewrite Inward.field_eq in E. unfold e0_of, e_of, n_of. destruct (Z.eqb_spec (expo Binary64 x) 0) as [H|_]; [lia|]. unfold frac.
    change (precision Binary64) with 52%Z. change (exponent_bits Binary64) with 11%Z. change (exp_min Binary64) with (-1085)%Z.
    pose proof (Z.mod_pos_bound x (2 ^ 52) ltac:(lia)) as R. split; [lia|]. split; [lia|].
    rewrite Z.add_comm. change (2 ^ 52)%Z with (2 ^ 23 * 2 ^ 29)%Z at 2. rewrite Z.mod_add by lia.
    change (2 ^ 52)%Z with (2 ^ 29 * 2 ^ 23)%Z. rewrite Z.rem_mul_r by lia. rewrite (Z.mul_comm (2 ^ 29)), Z.mod_add by lia. apply Z.mod_mod. lia. }
  destruct N as (N & E0 & M). rewrite <- M, <- (midway_normal _ _ (conj N (proj2 B)) E0). rewrite (input_value Binary64 x Hin).
  destruct (negative Binary64 x); cbn [cond_Ropp]; [|tauto]. split; intros H; apply midway_opp in H; [rewrite Ropp_involutive in H|]; exact H.
Qed.

(** 1 + 2^-24 is half way between two floats, and is printed as 1.0000000596046448, which is larger: it reads as 1 + 2^-23,
    but 1 + 2^-24 itself reads as 1 *)
Lemma half_way_example : let x := 0x3ff0000010000000%Z in let d := decimal 10000000596046448 (-16) in
  input Binary64 x /\ midway Binary32 (value Binary64 x) /\ value Binary64 x < d /\
  read Binary32 nearest_to_even d = read Binary32 toward_plus_infinity (value Binary64 x) /\
  read Binary32 nearest_to_even (value Binary64 x) = read Binary32 toward_minus_infinity (value Binary64 x).
Proof.
  intros x d. assert (Hin : input Binary64 x) by (apply input_check; reflexivity). split; [exact Hin|].
  assert (M : midway Binary32 (value Binary64 x)) by (apply midway_pattern; [exact Hin | discriminate | reflexivity]). split; [exact M|].
  assert (V : value Binary64 x = 4503599895805952 * bpow radix2 (-52)) by (rewrite (input_value Binary64 x Hin); reflexivity).
  assert (L : value Binary64 x < d).
  { rewrite V. unfold d. rewrite decimal_eq. change (bpow radix2 (-52)) with (/ 4503599627370496). change (p10 (-16)) with (/ 10000000000000000). lra. }
  split; [exact L|]. assert (R : read Binary64 nearest_to_even d = value Binary64 x).
  { destruct (nearest_round_trip debug_build Binary64 false nearest_to_even tie_to_even assert_finite x Hin eq_refl) as (r & E & R).
    assert (E2 : r = mk_fp 10000000596046448 (-16) None) by (assert (H : Ok r = Ok (mk_fp 10000000596046448 (-16) None)) by (rewrite <- E; vm_compute; reflexivity); injection H; auto).
    rewrite E2 in R. exact R. }
  split.
  - pose proof (narrow_midway nearest_to_even nearest_to_even d eq_refl) as N. cbv zeta in N. rewrite R in N. apply (N M), L.
  - assert (C : cexp radix2 (FLT_exp (emin Binary32) (prec Binary32)) (value Binary64 x) = (-23)%Z).
    { unfold cexp. rewrite (mag_unique radix2 _ 1); [reflexivity|]. rewrite V. change (bpow radix2 (-52)) with (/ 4503599627370496). rewrite Rabs_pos_eq by lra.
      change (bpow radix2 1) with 2. change (bpow radix2 (1 - 1)) with 1. lra. }
    unfold read, round, F2R. cbn [reading Fnum Fexp]. unfold scaled_mantissa. rewrite C, V.
    replace (4503599895805952 * bpow radix2 (-52) * bpow radix2 (- (-23))) with (8388608 + / 2) by (change (bpow radix2 (-52)) with (/ 4503599627370496); change (bpow radix2 (- (-23))) with 8388608; lra).
    f_equal. f_equal. assert (Fl : Zfloor (8388608 + / 2) = (2 ^ 23)%Z) by (apply Zfloor_imp; rewrite plus_IZR; lra).
    unfold Znearest. rewrite Fl. rewrite Rcompare_Eq by lra. reflexivity.
Qed.
Lemma not_half_way_example : let x := 0x3fb999999999999a%Z in input Binary64 x /\ ~ midway Binary32 (value Binary64 x).
Proof. intros x. assert (Hin : input Binary64 x) by (apply input_check; reflexivity). split; [exact Hin|]. rewrite midway_pattern; [discriminate | exact Hin | discriminate]. Qed.
Lemma widened_example : input Binary32 0x3dcccccd /\ input Binary64 0x3fb99999a0000000 /\ value Binary64 0x3fb99999a0000000 = value Binary32 0x3dcccccd.
Proof.
  assert (A : input Binary32 0x3dcccccd) by (apply input_check; reflexivity). assert (B : input Binary64 0x3fb99999a0000000) by (apply input_check; reflexivity).
  split; [exact A|]. split; [exact B|]. rewrite (input_value Binary32 _ A), (input_value Binary64 _ B).
  change (IZR (13421773 * 2 ^ 29) * bpow radix2 (-56) = IZR 13421773 * bpow radix2 (-27)). rewrite mult_IZR. change (IZR (2 ^ 29)) with (bpow radix2 29). rewrite Rmult_assoc, <- bpow_plus. reflexivity.
Qed.
