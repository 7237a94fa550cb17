(** * What [grisu_exact] returns, in terms of the specification *)

From Coq Require Import ZArith Reals List Lra Lia Bool.
From Flocq Require Import Core.
From Verif Require Import Machine Tables Model Arith ExpFacts Products IntCheck Core Nearest Directed Link
  Spec Reading Bridge ReadsBack Shortest.
Open Scope R_scope.

(** ** The tiny numbers, where one-digit decimals of two magnitudes may compete *)
Definition tiny_check (f : fmt) : bool :=
  forallb (fun i => let n := Z.of_nat i in let e := exp_min f in
    forallb (fun j => let P := (10 ^ Z.of_nat j)%Z in
      implb ((P * den e <=? (4 * n + 2) * ulp f e)%Z && (4 * n * ulp f e <? P * den e)%Z)
            (19 * P * den e <? 20 * (4 * n * ulp f e))%Z) (seq 0 19)) (seq 1 10).
Lemma tiny_ok f : tiny_check f = true.
Proof. destruct f; vm_cast_no_check (eq_refl true). Qed.

Lemma decimal_signed neg s e : decimal (cond_Zopp neg s) e = cond_Ropp neg (decimal s e).
Proof. unfold decimal. apply F2R_cond_Zopp. Qed.
Lemma cond_Zopp_twice b s : cond_Zopp b (cond_Zopp b s) = s.
Proof. destruct b; cbn; lia. Qed.
Lemma digits_signed b s : digits (cond_Zopp b s) = digits s.
Proof. apply Zdigits_cond_Zopp. Qed.

Section Main.
Variables (f : fmt) (m : rounding_mode) (x : Z).
Hypothesis Hin : input f x.
Local Notation neg := (is_negative f x).
Local Notation n := (n_of f x).
Local Notation e := (e_of f x).
Local Notation p := (delegate f m x).
Local Notation tag := (provider_tag p).
Local Notation itv := (provider_call f p x).
Local Notation I := (rin f tag itv e n).
Local Notation y := (IZR n * bpow radix2 (e0_of f x)).

Lemma He : (exp_min f <= e <= exp_max f)%Z. Proof. apply (input_facts f x Hin). Qed.
Lemma Hn : (0 < n < 2 ^ (precision f + 1))%Z. Proof. apply (input_facts f x Hin). Qed.

Lemma itvL : tag = left_closed_directed_tag -> itv = left_closed_right_open.
Proof. destruct p; try discriminate; reflexivity. Qed.
Lemma itvR : tag = right_closed_directed_tag -> itv = right_closed_left_open.
Proof. destruct p; try discriminate; reflexivity. Qed.

Lemma I_convex a b c : a <= b <= c -> I a -> I c -> I b.
Proof.
  intros Hab [A _] [_ C]. split.
  - destruct (Req_dec a b) as [<-|]; [exact A|]. left. destruct A as [A|[_ A]]; lra.
  - destruct (Req_dec c b) as [<-|]; [exact C|]. left. destruct C as [C|[_ C]]; lra.
Qed.
Lemma I_pos a : I a -> 0 < a.
Proof.
  intros [A _]. pose proof (quarter_pos f e) as Q. pose proof (lo_nonneg f tag itv e n Hn itvL itvR) as L0.
  assert (0 <= IZR (lo_u f tag e n) * quarter f e) by (apply Rmult_le_pos; [apply IZR_le; exact L0 | lra]).
  destruct A as [A|[IL A]]; [lra|].
  assert (T : tag <> right_closed_directed_tag) by (intros T; rewrite (itvR T) in IL; discriminate).
  pose proof (lo_pos f tag itv e n Hn itvL itvR T) as L1.
  assert (0 < IZR (lo_u f tag e n) * quarter f e) by (apply Rmult_lt_0_compat; [apply IZR_lt; exact L1 | lra]). lra.
Qed.

Lemma dec_unscale t kap : (0 <= kap)%Z -> unscale e (IZR (t * 10 ^ kap)) = decimal t (kap - kexp e).
Proof.
  intros H. unfold unscale. rewrite <- decimal_eq, decimal_shift by exact H. f_equal. ring.
Qed.

Lemma reads_back_iff s e' : reads_back f m x (cond_Zopp neg s) e' <-> I (decimal s e').
Proof.
  unfold reads_back. rewrite decimal_signed. split; intros H.
  - pose proof (reads_pos f m x Hin _ H) as P. apply (reads_iff f m x Hin _ P). exact H.
  - apply (reads_iff f m x Hin _ (I_pos _ H)). exact H.
Qed.

Lemma error_signed s e' : error f x (cond_Zopp neg s) e' = Rabs (decimal s e' - y).
Proof.
  unfold error. rewrite decimal_signed, (magnitude f x Hin). destruct neg; cbn [cond_Ropp]; [|reflexivity].
  rewrite <- Rabs_Ropp. f_equal. ring.
Qed.

Section Grid.
Variables (kap t : Z).
Hypothesis Hk : (0 <= kap)%Z.
Hypothesis Hint : in_int f tag itv e n (t * 10 ^ kap) = true.
Hypothesis Hnc : no_coarser f tag itv e n kap.
Local Notation E := (kap - kexp e)%Z.

Lemma g_in : I (decimal t E).
Proof. rewrite <- dec_unscale by exact Hk. apply in_int_rin. exact Hint. Qed.
Lemma g_no u : ~ I (decimal u (E + 1)).
Proof.
  intros H. specialize (Hnc u). replace (E + 1)%Z with (kap + 1 - kexp e)%Z in H by ring.
  rewrite <- dec_unscale in H by lia. apply in_int_rin in H. congruence.
Qed.
Lemma g_pos : (0 < t)%Z.
Proof. apply (decimal_pos t E). apply I_pos, g_in. Qed.

Lemma g_shortest : shortest f m x (cond_Zopp neg t) E.
Proof.
  split; [apply reads_back_iff, g_in|]. intros s' e' H.
  rewrite <- (cond_Zopp_twice neg s') in H. apply reads_back_iff in H.
  rewrite digits_signed, <- (digits_signed neg s').
  apply (grid_shortest I I_convex t E g_pos g_in g_no) with e'; [|exact H].
  apply (decimal_pos _ e'). apply I_pos. exact H.
Qed.
Lemma g_mod : (t mod 10 <> 0)%Z.
Proof. apply (grid_no_trailing_zero I t E g_in g_no). Qed.

(** ** Size of the significand *)
Lemma width_le : (Z_ f tag e n - X f tag e n <= 10 * 10 ^ kap * den e)%Z.
Proof.
  destruct (Z.le_gt_cases (Z_ f tag e n - X f tag e n) (10 * 10 ^ kap * den e)) as [|G]; [assumption|exfalso].
  set (D := (10 ^ (kap + 1))%Z).
  assert (ED : D = (10 * 10 ^ kap)%Z) by (unfold D; rewrite Z.pow_add_r by lia; ring).
  assert (PD : (0 < D)%Z) by (apply Z.pow_pos_nonneg; lia).
  pose proof (HB e) as B0. set (M := (D * den e)%Z). assert (PM : (0 < M)%Z) by (unfold M; nia).
  assert (G2 : (M < Z_ f tag e n - X f tag e n)%Z) by (unfold M; rewrite ED; lia).
  pose proof (Z.mul_div_le (X f tag e n) M PM) as D1. pose proof (Z.mul_succ_div_gt (X f tag e n) M PM) as D2.
  set (u := (X f tag e n / M)%Z) in *.
  specialize (Hnc (u + 1)%Z). fold D in Hnc.
  assert (V : ((u + 1) * D * den e = M * u + M)%Z) by (unfold M; ring).
  unfold in_int, inL, inR in Hnc. rewrite V in Hnc.
  rewrite (proj2 (Z.ltb_lt (X f tag e n) _)), (proj2 (Z.ltb_lt _ (Z_ f tag e n))) in Hnc by lia. discriminate.
Qed.
Lemma t_small : (t <= 20 * 2 ^ precision f + 10)%Z.
Proof.
  pose proof width_le as W. rewrite (edge_delta f tag itv e n itvL itvR) in W.
  pose proof (HB e) as B0. pose proof (HU f e) as U0. pose proof (pow10_pos kap Hk) as P.
  assert (R : (t * 10 ^ kap * den e <= Z_ f tag e n)%Z).
  { unfold in_int, inR in Hint. apply andb_true_iff in Hint. destruct Hint as [_ C].
    apply orb_true_iff in C. rewrite Z.ltb_lt, andb_true_iff, Z.eqb_eq in C. lia. }
  pose proof (n_bound f e n He Hn) as NB. pose proof g_pos as T0.
  set (du := delta_units tag (is_edge f e n)) in *.
  assert (HH : (hi_u tag n * 10 <= du * (20 * 2 ^ precision f + 10))%Z).
  { assert (HE : is_edge f e n = true -> n = (2 ^ precision f)%Z) by (unfold is_edge; rewrite andb_true_iff, Z.eqb_eq; tauto).
    unfold du, hi_u, delta_units. assert (0 < 2 ^ precision f)%Z by (apply Z.pow_pos_nonneg; destruct f; (discriminate || reflexivity)).
    destruct tag; destruct (is_edge f e n) eqn:Ed; try pose proof (HE eq_refl); lia. }
  set (Q := (10 ^ kap * den e)%Z). assert (PQ : (0 < Q)%Z) by (unfold Q; nia).
  assert (R' : (t * Q <= hi_u tag n * ulp f e)%Z) by (unfold Q; unfold Z_ in R; lia).
  assert (W' : (du * ulp f e <= 10 * Q)%Z) by (unfold Q; lia).
  pose proof (delta_units_range f tag itv e n itvL itvR) as DU. fold du in DU.
  destruct (Z.le_gt_cases t (20 * 2 ^ precision f + 10)) as [|G]; [assumption|exfalso].
  set (K := (20 * 2 ^ precision f + 10)%Z) in *. assert (K0 : (0 < K)%Z) by (unfold K; destruct f; reflexivity).
  assert (S1 : (10 * (t * Q) <= 10 * (hi_u tag n * ulp f e))%Z) by lia.
  assert (S2 : (hi_u tag n * 10 * ulp f e <= du * K * ulp f e)%Z) by (apply Z.mul_le_mono_nonneg_r; lia).
  assert (S3 : (K * (du * ulp f e) <= K * (10 * Q))%Z) by (apply Z.mul_le_mono_nonneg_l; lia).
  assert (S4 : (10 * ((K + 1) * Q) <= 10 * (t * Q))%Z) by (apply Z.mul_le_mono_nonneg_l; [lia|]; apply Z.mul_le_mono_nonneg_r; lia).
  lia.
Qed.

(** ** Scientific exponent *)
Definition emax (f : fmt) : Z := match f with Binary32 => 128 | Binary64 => 1024 end.

Lemma I_upper a : I a -> a <= bpow radix2 (emax f).
Proof.
  intros [_ C]. pose proof (quarter_pos f e) as Q. pose proof (hi_range f tag itv e n He Hn itvL itvR) as HR.
  assert (a <= IZR (hi_u tag n) * quarter f e) by (destruct C as [C|[_ C]]; lra).
  apply Rle_trans with (1 := H).
  apply Rle_trans with (IZR (8 * 2 ^ precision f) * quarter f e).
  { apply Rmult_le_compat_r; [lra|]. apply IZR_le. lia. }
  rewrite quarter_bpow. replace (8 * 2 ^ precision f)%Z with (radix2 ^ (precision f + 3))%Z by (destruct f; reflexivity).
  rewrite IZR_Zpower by (destruct f; discriminate). rewrite <- bpow_plus. apply bpow_le.
  pose proof He. assert (emax f = exp_max f + exponent_bits f - 2 + (precision f + 3))%Z by (destruct f; reflexivity). lia.
Qed.
Lemma y_lower : bpow radix2 (emin f) <= y.
Proof.
  rewrite <- (Rmult_1_l (bpow radix2 (emin f))).
  apply Rmult_le_compat; [lra | apply bpow_ge_0 | apply IZR_le; pose proof Hn; lia | apply bpow_le, (spec_e0 f x Hin)].
Qed.
Lemma I_lower a : tag <> right_closed_directed_tag -> I a -> y <= 2 * a.
Proof.
  intros T [A _]. pose proof (quarter_pos f e) as Q. rewrite (x_quarters f x).
  assert (L : (2 * n <= lo_u f tag e n)%Z).
  { pose proof Hn. unfold lo_u. destruct tag; [| |congruence]; destruct (is_edge f e n); lia. }
  assert (IZR (lo_u f tag e n) * quarter f e <= a) by (destruct A as [A|[_ A]]; lra).
  assert (IZR (2 * n) * quarter f e <= IZR (lo_u f tag e n) * quarter f e).
  { apply Rmult_le_compat_r; [lra|]. apply IZR_le. exact L. }
  rewrite !mult_IZR in *. lra.
Qed.

Lemma pow_lo : p10 (sci_min f) <= bpow radix2 (emin f - 1).
Proof.
  assert (H : (radix2 ^ (- (emin f - 1)) <= radix10 ^ (- sci_min f))%Z) by (apply Z.leb_le; destruct f; vm_compute; reflexivity).
  apply IZR_le in H. rewrite !IZR_Zpower in H by (destruct f; discriminate).
  replace (sci_min f) with (- - sci_min f)%Z by ring. replace (emin f - 1)%Z with (- - (emin f - 1))%Z by ring.
  rewrite !(bpow_opp _ (- _)). apply Rinv_le; [apply bpow_gt_0 | exact H].
Qed.
Lemma pow_hi : bpow radix2 (emax f) < p10 (sci_max f + 1).
Proof.
  assert (H : (radix2 ^ (emax f) < radix10 ^ (sci_max f + 1))%Z) by (apply Z.ltb_lt; destruct f; vm_compute; reflexivity).
  apply IZR_lt in H. rewrite !IZR_Zpower in H by (destruct f; discriminate). exact H.
Qed.

Lemma g_sci : y <= 2 * decimal t E -> (sci_min f <= E + digits t - 1 <= sci_max f)%Z.
Proof.
  intros Hy. pose proof (digits_bounds t E g_pos) as [D1 D2]. pose proof (I_upper _ g_in) as U. pose proof y_lower as YL.
  pose proof pow_lo as PL. pose proof pow_hi as PH.
  assert (T : bpow radix2 (emin f) = 2 * bpow radix2 (emin f - 1)).
  { replace (emin f) with (1 + (emin f - 1))%Z at 1 by ring. rewrite bpow_plus. reflexivity. }
  split.
  - assert (sci_min f < digits t + E)%Z; [|lia]. apply (lt_bpow radix10). lra.
  - assert (digits t - 1 + E < sci_max f + 1)%Z; [|lia]. apply (lt_bpow radix10). lra.
Qed.

(** ** Closeness for the nearest modes *)
Lemma unscale_y v : IZR (v * den e - Y f e n) = (unscale e (IZR v) - y) * (bpow radix10 (kexp e) * IZR (den e)).
Proof.
  rewrite (x_quarters f x), <- unscale_spec. unfold Y. rewrite minus_IZR, !mult_IZR. ring.
Qed.
Lemma abs_scale v : IZR (Z.abs (v * den e - Y f e n)) = Rabs (unscale e (IZR v) - y) * (bpow radix10 (kexp e) * IZR (den e)).
Proof.
  rewrite abs_IZR, unscale_y, Rabs_mult. f_equal. apply Rabs_pos_eq. apply Rlt_le, factor_pos.
Qed.
Lemma abs_le v w : (Z.abs (v * den e - Y f e n) <= Z.abs (w * den e - Y f e n))%Z ->
  Rabs (unscale e (IZR v) - y) <= Rabs (unscale e (IZR w) - y).
Proof.
  intros H. apply IZR_le in H. rewrite !abs_scale in H. apply Rmult_le_reg_r in H; [exact H | apply factor_pos].
Qed.
Lemma abs_eq v w : Rabs (unscale e (IZR v) - y) = Rabs (unscale e (IZR w) - y) ->
  (Z.abs (v * den e - Y f e n) = Z.abs (w * den e - Y f e n))%Z.
Proof. intros H. apply eq_IZR. rewrite !abs_scale, H. reflexivity. Qed.

Lemma tiny_case : tag = to_nearest_tag -> (kap <= top_kappa f)%Z ->
  I (p10 E) -> y < p10 E -> (exists s, I s /\ s <= 9 * p10 (E - 1)) -> 19 * p10 E < 20 * y.
Proof.
  intros T Kt [_ C] Hy (s & [A _] & Hs).
  pose proof (quarter_pos f e) as Q. rewrite T in *.
  assert (P1 : p10 E = 10 * p10 (E - 1)) by (rewrite <- p10_succ; f_equal; ring).
  rewrite (x_quarters f x) in *.
  assert (L : (4 * n - 2 <= lo_u f to_nearest_tag e n)%Z) by (unfold lo_u; destruct (is_edge f e n); lia).
  assert (L2 : IZR (4 * n - 2) * quarter f e <= IZR (lo_u f to_nearest_tag e n) * quarter f e).
  { apply Rmult_le_compat_r; [lra|]. apply IZR_le. exact L. }
  assert (A' : IZR (4 * n - 2) * quarter f e <= s) by (destruct A as [A|[_ A]]; lra).
  assert (C' : p10 E <= IZR (4 * n + 2) * quarter f e) by (unfold hi_u in C; destruct C as [C|[_ C]]; lra).
  assert (N9 : (n <= 9)%Z).
  { assert (IZR (4 * n) * quarter f e <= 38 * quarter f e).
    { rewrite minus_IZR in A'. rewrite plus_IZR in C'. lra. }
    apply Rmult_le_reg_r in H; [|exact Q]. apply le_IZR in H. lia. }
  assert (Em : e = exp_min f).
  { destruct (input_facts f x Hin) as (_ & _ & _ & _ & _ & [H|H]); [exact H|exfalso].
    assert (10 <= 2 ^ precision f)%Z by (destruct f; discriminate). lia. }
  assert (PE : unscale e (IZR (10 ^ kap)) = p10 E).
  { rewrite <- (Z.mul_1_l (10 ^ kap)), dec_unscale by exact Hk. rewrite decimal_eq. ring. }
  pose proof (tiny_ok f) as TC. unfold tiny_check in TC. rewrite forallb_forall in TC.
  specialize (TC (Z.to_nat n)). rewrite in_seq in TC. pose proof Hn as N0.
  specialize (TC ltac:(lia)). cbv zeta in TC. rewrite forallb_forall in TC.
  specialize (TC (Z.to_nat kap)). rewrite in_seq in TC.
  assert (top_kappa f <= 18)%Z by (destruct f; discriminate). specialize (TC ltac:(lia)).
  rewrite !Z2Nat.id in TC by lia. rewrite <- Em in TC.
  assert (B1 : (10 ^ kap * den e <=? (4 * n + 2) * ulp f e)%Z = true).
  { apply Z.leb_le. apply Z.nlt_ge. intros G. apply cmp_lt in G. rewrite PE in G. lra. }
  assert (B2 : (4 * n * ulp f e <? 10 ^ kap * den e)%Z = true).
  { apply Z.ltb_lt. apply cmp_lt. rewrite PE. lra. }
  rewrite B1, B2 in TC. cbn [andb implb] in TC. apply Z.ltb_lt in TC.
  rewrite Z.mul_assoc in TC. apply cmp_gt in TC.
  unfold unscale in TC, PE. rewrite mult_IZR, Rmult_assoc, PE in TC. rewrite (mult_IZR 20), Rmult_assoc in TC. exact TC.
Qed.

Lemma n_closest crs : tag = to_nearest_tag -> (kap <= top_kappa f)%Z ->
  Nearest.closest f crs itv e n (10 ^ kap) t ->
  forall s e', (0 < s)%Z -> I (decimal s e') -> (digits s <= digits t)%Z ->
    Rabs (decimal t E - y) <= Rabs (decimal s e' - y) /\
    (Rabs (decimal t E - y) = Rabs (decimal s e' - y) -> decimal s e' <> decimal t E -> e' = E /\ tie_ok crs t s).
Proof.
  intros T Kt Hc s e' Hs HI Hd.
  assert (G : forall u, I (decimal u E) -> Rabs (decimal t E - y) <= Rabs (decimal u E - y) /\
     (Rabs (decimal t E - y) = Rabs (decimal u E - y) -> u <> t -> tie_ok crs t u)).
  { intros u Hu. rewrite <- dec_unscale in Hu by exact Hk. apply in_int_rin in Hu. rewrite T in Hu.
    destruct (Hc u Hu) as [C1 C2]. rewrite <- !dec_unscale by exact Hk. split.
    - apply abs_le. exact C1.
    - intros Q. apply abs_eq in Q. auto. }
  destruct (grid_competitor I I_convex t E g_pos g_in g_no s e' Hs HI Hd) as [->|(D1 & IE & L9 & LE)].
  - destruct (G s HI) as [G1 G2]. split; [exact G1|]. intros Q N. split; [reflexivity|]. apply G2; [exact Q|]. congruence.
  - assert (P1 : p10 E = decimal 1 E) by (rewrite decimal_eq; ring).
    destruct (G 1%Z) as [G1 _]; [rewrite <- P1; exact IE|]. rewrite <- P1 in G1.
    assert (P2 : p10 E = 10 * p10 (E - 1)) by (rewrite <- p10_succ; f_equal; ring).
    pose proof (bpow_gt_0 radix10 (E - 1)) as P3.
    assert (S : Rabs (p10 E - y) < Rabs (decimal s e' - y)).
    { destruct (Rlt_le_dec y (p10 E)) as [L|L].
      - pose proof (tiny_case T Kt IE L) as TC. specialize (TC (ex_intro _ _ (conj HI L9))).
        rewrite (Rabs_pos_eq (p10 E - y)) by lra. rewrite (Rabs_left (decimal s e' - y)) by lra. lra.
      - rewrite (Rabs_left1 (p10 E - y)) by lra. rewrite (Rabs_left (decimal s e' - y)) by lra. lra. }
    split; [lra|]. intros Q. lra.
Qed.
End Grid.
End Main.
