(** * The decimal Ryu computes is the one [grisu_exact] computes *)

From Coq Require Import ZArith Reals List Lra Lia Bool.
From Flocq Require Import Core.
From Verif Require Import Machine Tables Model Arith ExpFacts Products IntCheck Core Nearest Link
  Spec Reading Bridge ReadsBack Shortest Main Results Claims
  Users CharsModel RyuTables RyuModel RyuArith RyuCore RyuScale RyuScaled RyuLoops.
Open Scope R_scope.

(** ** The coarsest grid with a point inside, and its closest point *)
Record grid_best (I : R -> Prop) (V : R) (t E : Z) : Prop := {
  gb_in : I (decimal t E);
  gb_no : forall u, ~ I (decimal u (E + 1));
  gb_close : forall u, I (decimal u E) -> Rabs (decimal t E - V) <= Rabs (decimal u E - V) /\
    (Rabs (decimal t E - V) = Rabs (decimal u E - V) -> u <> t -> Z.even t = true) }.

Lemma decimal_inj a b e : decimal a e = decimal b e -> a = b.
Proof. rewrite !decimal_eq. intros H. apply eq_IZR. apply Rmult_eq_reg_r in H; [exact H|]. pose proof (bpow_gt_0 radix10 e). lra. Qed.

Lemma grid_unique (I : R -> Prop) V t E t' E' : (forall a b c, a <= b <= c -> I a -> I c -> I b) ->
  grid_best I V t E -> grid_best I V t' E' -> t = t' /\ E = E'.
Proof.
  intros Cv A B.
  assert (E = E') as <-.
  { apply Z.le_antisymm; [apply (no_higher I E' (gb_no _ _ _ _ B) t), A | apply (no_higher I E (gb_no _ _ _ _ A) t'), B]. }
  split; [|reflexivity]. destruct (Z.eq_dec t t') as [|N]; [assumption|exfalso].
  destruct (gb_close _ _ _ _ A t' (gb_in _ _ _ _ B)) as [A1 A2]. destruct (gb_close _ _ _ _ B t (gb_in _ _ _ _ A)) as [B1 B2].
  assert (EQ : Rabs (decimal t E - V) = Rabs (decimal t' E - V)) by lra.
  specialize (A2 EQ (not_eq_sym N)). specialize (B2 (eq_sym EQ) N).
  apply Z.even_spec in A2, B2. destruct A2 as [a ->], B2 as [b ->].
  assert (ND : decimal (2 * a) E <> decimal (2 * b) E) by (intros H; apply decimal_inj in H; contradiction).
  assert (M : 2 * V = decimal (2 * a) E + decimal (2 * b) E) by (unfold Rabs in EQ; repeat destruct Rcase_abs; lra).
  assert (H : decimal (a + b) E = V).
  { rewrite !decimal_eq, !mult_IZR in M. rewrite decimal_eq, plus_IZR. lra. }
  assert (HI : I (decimal (a + b) E)).
  { destruct (Rle_dec (decimal (2 * a) E) (decimal (2 * b) E)).
    - apply (Cv (decimal (2 * a) E) _ (decimal (2 * b) E)); [lra|apply A|apply B].
    - apply (Cv (decimal (2 * b) E) _ (decimal (2 * a) E)); [lra|apply B|apply A]. }
  destruct (gb_close _ _ _ _ A _ HI) as [C _]. destruct (gb_close _ _ _ _ B _ HI) as [D _].
  rewrite H in C, D. replace (V - V) with 0 in C, D by ring. rewrite Rabs_R0 in C, D.
  apply ND. unfold Rabs in C, D. repeat destruct Rcase_abs; lra.
Qed.

(** ** Ryu's scaled integers as real numbers *)
Lemma rq_nonneg f e2 : (0 <= rq f e2)%Z.
Proof.
  unfold rq. destruct (Z.leb_spec 0 e2).
  - assert (0 <= e2 * 78913 / 2 ^ 18)%Z by (apply Z.div_pos; lia).
    destruct f; [lia|]. destruct (Z.ltb_spec 3 e2); cbn [b2z]; [|lia].
    assert (1 <= e2 * 78913 / 2 ^ 18)%Z by (apply Z.div_le_lower_bound; lia). lia.
  - assert (0 <= - e2 * 732923 / 2 ^ 20)%Z by (apply Z.div_pos; lia).
    destruct f; [lia|]. destruct (Z.ltb_spec 1 (- e2)); cbn [b2z]; [|lia].
    assert (1 <= - e2 * 732923 / 2 ^ 20)%Z by (apply Z.div_le_lower_bound; lia). lia.
Qed.
Lemma SD_ratio f e2 : IZR (rS f e2) = bpow radix2 e2 * p10 (- e10_of f e2) * IZR (rD f e2).
Proof.
  pose proof (rq_nonneg f e2) as Q. destruct (rq_bound f e2) as [B1 B2]. unfold rS, rD, e10_of. rewrite bpow10_split.
  destruct (Z.leb_spec 0 e2).
  - specialize (B1 H). change 2%Z with (radix_val radix2) at 1. change 5%Z with (radix_val radix5). rewrite !IZR_Zpower by lia.
    unfold Z.sub. rewrite bpow_plus, !bpow_opp. field. repeat split; apply Rgt_not_eq, bpow_gt_0.
  - specialize (B2 ltac:(lia)). change 2%Z with (radix_val radix2). change 5%Z with (radix_val radix5). rewrite !IZR_Zpower by lia.
    replace (- (rq f e2 + e2))%Z with (- e2 - rq f e2)%Z by ring.
    replace (bpow radix2 e2 * (bpow radix2 (- e2 - rq f e2) * bpow radix5 (- e2 - rq f e2)) * bpow radix2 (rq f e2))
      with (bpow radix5 (- e2 - rq f e2) * (bpow radix2 e2 * bpow radix2 (- e2 - rq f e2) * bpow radix2 (rq f e2))) by ring.
    rewrite <- !bpow_plus. replace (e2 + (- e2 - rq f e2) + rq f e2)%Z with 0%Z by ring. change (bpow radix2 0) with 1. ring.
Qed.

Section Compare.
Variables (f : fmt) (e2 : Z).
Hypothesis HD : (0 < rD f e2)%Z.
Local Notation S := (rS f e2).
Local Notation D := (rD f e2).
Local Notation F := (p10 (- e10_of f e2) * IZR D).

Lemma F_pos : 0 < F.
Proof. apply Rmult_lt_0_compat; [apply bpow_gt_0|apply IZR_lt, HD]. Qed.
Lemma diff g k : IZR (g * D - k * S) = (decimal g (e10_of f e2) - IZR k * bpow radix2 e2) * F.
Proof.
  rewrite minus_IZR, !mult_IZR, SD_ratio, decimal_eq.
  assert (E : p10 (e10_of f e2) * p10 (- e10_of f e2) = 1) by (rewrite <- bpow_plus, Z.add_opp_diag_r; reflexivity).
  transitivity (IZR g * (p10 (e10_of f e2) * p10 (- e10_of f e2)) * IZR D - IZR k * (bpow radix2 e2 * p10 (- e10_of f e2) * IZR D)).
  - rewrite E. ring.
  - ring.
Qed.
Lemma r_lt g k : (k * S < g * D)%Z <-> IZR k * bpow radix2 e2 < decimal g (e10_of f e2).
Proof.
  pose proof (diff g k) as H. pose proof F_pos as P. split; intros L.
  - assert (0 < IZR (g * D - k * S)) by (apply IZR_lt; lia). rewrite H in H0.
    apply Rmult_lt_reg_r with (1 := P). lra.
  - assert (0 < IZR (g * D - k * S)); [|apply lt_IZR in H0; lia]. rewrite H. apply Rmult_lt_0_compat; lra.
Qed.
Lemma r_eq g k : (k * S = g * D)%Z <-> decimal g (e10_of f e2) = IZR k * bpow radix2 e2.
Proof.
  pose proof (diff g k) as H. pose proof F_pos as P. split; intros L.
  - replace (g * D - k * S)%Z with 0%Z in H by lia. symmetry in H. apply Rmult_integral in H. destruct H; lra.
  - assert (IZR (g * D - k * S) = 0) by (rewrite H, L; ring). apply eq_IZR in H0. lia.
Qed.
Lemma r_gt g k : (g * D < k * S)%Z <-> decimal g (e10_of f e2) < IZR k * bpow radix2 e2.
Proof.
  pose proof (r_lt g k) as A. pose proof (r_eq g k) as B. split; intros H.
  - destruct (Rtotal_order (decimal g (e10_of f e2)) (IZR k * bpow radix2 e2)) as [L|[L|L]]; [exact L| |].
    + apply B in L. lia.
    + apply A in L. lia.
  - destruct (Z.lt_trichotomy (g * D) (k * S)) as [L|[L|L]]; [exact L| |].
    + symmetry in L. apply B in L. lra.
    + apply A in L. lra.
Qed.
Lemma r_abs g k : IZR (Z.abs (g * D - k * S)) = Rabs (decimal g (e10_of f e2) - IZR k * bpow radix2 e2) * F.
Proof. rewrite abs_IZR, diff, Rabs_mult. f_equal. apply Rabs_pos_eq. pose proof F_pos. lra. Qed.
End Compare.

Section Input.
Variables (f : fmt) (x : Z).
Hypothesis Hin : input f x.
Local Notation n := (n_of f x).
Local Notation e := (e_of f x).
Local Notation p := (delegate f nearest_to_even x).
Local Notation itv := (provider_call f p x).
Local Notation I := (rin f to_nearest_tag itv e n).
Local Notation y := (IZR n * bpow radix2 (e0_of f x)).
Local Notation e2 := (e0_of f x - 2)%Z.
Definition shift : Z := b2z (negb (is_edge f e n)).

Lemma lo_shift : lo_u f to_nearest_tag e n = (4 * n - 1 - shift)%Z.
Proof. unfold lo_u, shift. destruct (is_edge f e n); cbn [negb b2z]; lia. Qed.
Lemma closed_even : include_left_endpoint itv = Z.even n /\ include_right_endpoint itv = Z.even n.
Proof. cbn [delegate provider_call]. rewrite <- (even_n f x). destruct (Z.even n); auto. Qed.

Lemma args : arguments f e2 n shift.
Proof.
  destruct (input_facts f x Hin) as (_ & _ & _ & He & Hn & _). unfold e0_of. constructor.
  - destruct f; cbn in *; lia.
  - destruct f; exact Hn.
  - unfold shift. destruct (is_edge f e n); auto.
  - unfold shift, is_edge. destruct (Z.eqb_spec n (2 ^ precision f)) as [->|]; [|discriminate].
    destruct (Z.eqb_spec e (exp_min f)); [discriminate|]. intros _. split; [destruct f; reflexivity|]. destruct f; cbn in *; lia.
Qed.

Lemma inside_rin g : (0 < rD f e2)%Z ->
  (inside ((4 * n + 2) * rS f e2) ((4 * n - 1 - shift) * rS f e2) (rD f e2) (Z.even n) g <-> I (decimal g (e10_of f e2))).
Proof.
  intros HD. unfold inside, rin. rewrite q_eq, lo_shift. unfold hi_u. destruct closed_even as [-> ->].
  rewrite !r_lt, !r_gt, !r_eq by exact HD. split.
  - intros [A B]. split; [exact A|]. destruct B as [B|[B1 B2]]; [left; exact B|right]. split; [exact B1|]. apply r_eq; [exact HD|lia].
  - intros [A B]. split; [exact A|]. destruct B as [B|[B1 B2]]; [left; exact B|right]. split; [exact B1|]. apply r_eq in B2; [lia|exact HD].
Qed.

Lemma best_grid T out : (0 < rD f e2)%Z ->
  best (4 * n * rS f e2) ((4 * n + 2) * rS f e2) ((4 * n - 1 - shift) * rS f e2) (rD f e2) (Z.even n) T out ->
  grid_best I y out (e10_of f e2 + Z.of_nat T).
Proof.
  intros HD (B1 & B2 & B3).
  assert (DS : forall u k, decimal (u * 10 ^ Z.of_nat k) (e10_of f e2) = decimal u (e10_of f e2 + Z.of_nat k)) by (intros; apply decimal_shift; lia).
  assert (Y : y = IZR (4 * n) * bpow radix2 e2) by (rewrite (x_quarters f x), q_eq; reflexivity).
  constructor.
  - rewrite <- DS. apply inside_rin; assumption.
  - intros u H. apply (B2 u). apply inside_rin; [exact HD|]. rewrite DS. replace (e10_of f e2 + Z.of_nat (Datatypes.S T))%Z with (e10_of f e2 + Z.of_nat T + 1)%Z by lia. exact H.
  - intros u H. rewrite <- DS in H. apply inside_rin in H; [|exact HD]. destruct (B3 u H) as [C1 C2].
    pose proof (F_pos f e2 HD) as P. rewrite <- !DS, Y. split.
    + apply IZR_le in C1. rewrite !r_abs in C1 by exact HD. apply Rmult_le_reg_r in C1; assumption.
    + intros Q. apply C2. apply eq_IZR. rewrite !r_abs by exact HD. rewrite Q. reflexivity.
Qed.

Lemma grisu_grid cfg : exists t E, compute cfg f p tie_to_even x = Ok (t, E) /\ grid_best I y t E.
Proof.
  pose proof (tag_nearest f nearest_to_even x eq_refl) as T.
  destruct (input_facts f x Hin) as (Hx & Hf & Hz & He & Hn & _).
  rewrite compute_is_tail by assumption.
  destruct (Nearest.nearest_result cfg f tie_to_even itv e n He Hn eq_refl) as (kap & t & Et & Hk & Hi & Hno & Hcl).
  assert (M0 : (0 <= min_kappa f)%Z) by (destruct f; discriminate). assert (Hk0 : (0 <= kap)%Z) by lia.
  exists t, (kap - kexp e)%Z. rewrite T. split; [exact Et|].
  constructor.
  - apply (g_in f nearest_to_even x kap t Hk0). rewrite T. exact Hi.
  - apply (g_no f nearest_to_even x kap Hk0). rewrite T. exact Hno.
  - intros u Hu. rewrite <- dec_unscale in Hu by exact Hk0. apply in_int_rin in Hu. destruct (Hcl u Hu) as [C1 C2].
    rewrite <- !(dec_unscale f x) by exact Hk0. split.
    + apply abs_le. exact C1.
    + intros Q. apply abs_eq in Q. exact (C2 Q).
Qed.

(** ** The general path *)
Definition decimal_of (cfg : config) (v : floating_decimal) : Prop :=
  compute cfg f p tie_to_even x = Ok (mantissa v, exponent v).

Lemma best_result cfg T out : (0 < rD f e2)%Z ->
  best (4 * n * rS f e2) ((4 * n + 2) * rS f e2) ((4 * n - 1 - shift) * rS f e2) (rD f e2) (Z.even n) T out ->
  decimal_of cfg (mk_decimal out (e10_of f e2 + Z.of_nat T)).
Proof.
  intros HD B. destruct (grisu_grid cfg) as (t & E & Et & G). unfold decimal_of. rewrite Et. cbn [mantissa exponent].
  destruct (grid_unique I y t E out (e10_of f e2 + Z.of_nat T)) as [-> ->]; [|exact G|apply best_grid; assumption|reflexivity].
  intros a b c. pose proof (I_convex f nearest_to_even x a b c) as C. rewrite (tag_nearest f nearest_to_even x eq_refl) in C. exact C.
Qed.
End Input.

(** ** f2d and d2d *)
Lemma land_1 n : (Z.land n 1 =? 0)%Z = Z.even n.
Proof. change 1%Z with (Z.ones 1). rewrite Z.land_ones by lia. rewrite Zeven_mod. unfold Zeq_bool. rewrite <- Z.eqb_compare. reflexivity. Qed.
Lemma to_int_field f x : to_int (expo f x) = expo f x.
Proof. apply to_int_small. pose proof (expo_range f x). destruct f; cbn in *; lia. Qed.
Lemma lor_frac f x k : k = precision f -> Z.lor (2 ^ k) (frac f x) = (2 ^ k + frac f x)%Z.
Proof. intros ->. rewrite Z.lor_comm, lor_top; [ring|destruct f; discriminate|apply frac_range]. Qed.
Lemma shift_eq f x : b2z (negb (frac f x =? 0) || (expo f x <=? 1))%Z = shift f x.
Proof.
  unfold shift, is_edge, n_of, e_of. f_equal. pose proof (frac_range f x) as F. pose proof (expo_range f x) as E.
  destruct (Z.eqb_spec (expo f x) 0) as [E0|E0].
  - rewrite E0. rewrite (proj2 (Z.eqb_neq (frac f x) (2 ^ precision f))) by lia. apply orb_true_r.
  - replace (2 ^ precision f + frac f x =? 2 ^ precision f)%Z with (frac f x =? 0)%Z by (apply eq_iff_eq_true; rewrite !Z.eqb_eq; lia).
    replace (exp_min f + expo f x - 1 =? exp_min f)%Z with (expo f x <=? 1)%Z by (apply eq_iff_eq_true; rewrite Z.eqb_eq, Z.leb_le; lia).
    destruct (frac f x =? 0)%Z, (expo f x <=? 1)%Z; reflexivity.
Qed.

Lemma f2d_ok rc cfg x : input Binary32 x ->
  exists v, f2d rc (frac Binary32 x) (expo Binary32 x) = Ok v /\ decimal_of Binary32 x cfg v.
Proof.
  intros Hin. pose proof (args Binary32 x Hin) as A. pose proof (ar_n _ _ _ _ A) as Hn. cbn [frac_bits] in Hn. change (2 ^ (23 + 1))%Z with (2 ^ 24)%Z in Hn.
  pose proof (ar_sh _ _ _ _ A) as Hs. unfold f2d. rewrite shift_eq, to_int_field, (lor_frac Binary32) by reflexivity.
  replace (if (expo Binary32 x =? 0)%Z then (1 - 127 - 23 - 2, frac Binary32 x)%Z else (expo Binary32 x - 127 - 23 - 2, 2 ^ 23 + frac Binary32 x)%Z)
    with (e0_of Binary32 x - 2, n_of Binary32 x)%Z.
  2:{ unfold e0_of, e_of, n_of. destruct (expo Binary32 x =? 0)%Z; [reflexivity|]. f_equal. change (exp_min Binary32) with (-157)%Z. change (exponent_bits Binary32) with 8%Z. lia. }
  rewrite land_1. set (n := n_of Binary32 x) in *. set (e2 := (e0_of Binary32 x - 2)%Z) in *. set (sh := shift Binary32 x) in *.
  rewrite !wrap_small by lia.
  assert (C : exists c, (if (0 <=? e2)%Z then f2d_inv rc e2 (4 * n) (4 * n + 2) (4 * n - 1 - sh) (Z.even n)
     else f2d_pow rc e2 (4 * n) (4 * n + 2) (4 * n - 1 - sh) sh (Z.even n)) = Ok c /\ scaled_ok Binary32 e2 n sh c).
  { destruct (Z.leb_spec 0 e2); [apply f2d_inv_ok|apply f2d_pow_ok]; assumption. }
  destruct C as (c & -> & C). cbn [bind].
  destruct (f2d_shorten_ok e2 n sh c A C) as (T & out & -> & HT & HO & B). cbn [bind].
  destruct (so_e10 _ _ _ _ _ C) as [-> HE]. rewrite i32_small by lia. cbn [bind].
  exists (mk_decimal out (e10_of Binary32 e2 + Z.of_nat T)). split; [reflexivity|].
  apply (best_result Binary32 x Hin cfg T out); [apply (so_D _ _ _ _ _ C)|exact B].
Qed.

Lemma d2d_ok rc cfg x : input Binary64 x ->
  exists v, d2d rc (frac Binary64 x) (expo Binary64 x) = Ok v /\ decimal_of Binary64 x cfg v.
Proof.
  intros Hin. pose proof (args Binary64 x Hin) as A. pose proof (ar_n _ _ _ _ A) as Hn. cbn [frac_bits] in Hn. change (2 ^ (52 + 1))%Z with (2 ^ 53)%Z in Hn.
  pose proof (ar_sh _ _ _ _ A) as Hs. unfold d2d. rewrite shift_eq, to_int_field, (lor_frac Binary64) by reflexivity.
  replace (if (expo Binary64 x =? 0)%Z then (1 - 1023 - 52 - 2, frac Binary64 x)%Z else (expo Binary64 x - 1023 - 52 - 2, 2 ^ 52 + frac Binary64 x)%Z)
    with (e0_of Binary64 x - 2, n_of Binary64 x)%Z.
  2:{ unfold e0_of, e_of, n_of. destruct (expo Binary64 x =? 0)%Z; [reflexivity|]. f_equal. change (exp_min Binary64) with (-1085)%Z. change (exponent_bits Binary64) with 11%Z. lia. }
  rewrite land_1. set (n := n_of Binary64 x) in *. set (e2 := (e0_of Binary64 x - 2)%Z) in *. set (sh := shift Binary64 x) in *.
  rewrite !wrap_small by lia.
  assert (C : exists c, (if (0 <=? e2)%Z then d2d_inv rc e2 n (4 * n) sh (Z.even n)
     else d2d_pow rc e2 n (4 * n) sh (Z.even n)) = Ok c /\ scaled_ok Binary64 e2 n sh c).
  { destruct (Z.leb_spec 0 e2); [apply d2d_inv_ok|apply d2d_pow_ok]; assumption. }
  destruct C as (c & -> & C). cbn [bind].
  destruct (d2d_shorten_ok rc e2 n sh c A C) as (T & out & -> & HT & HO & B). cbn [bind].
  destruct (so_e10 _ _ _ _ _ C) as [-> HE]. rewrite i32_small by lia. cbn [bind].
  exists (mk_decimal out (e10_of Binary64 e2 + Z.of_nat T)). split; [reflexivity|].
  apply (best_result Binary64 x Hin cfg T out); [apply (so_D _ _ _ _ _ C)|exact B].
Qed.

(** ** Small integers *)
Lemma strip_ok rc : forall fuel m e, (0 < m < 10 ^ Z.of_nat fuel)%Z -> (m < 2 ^ 64)%Z -> (0 <= e)%Z -> (e + Z.of_nat fuel <= 1000)%Z ->
  exists t k, strip_zeros rc fuel (mk_decimal m e) = Ok (mk_decimal t (e + k)) /\ (0 <= k)%Z /\ m = (t * 10 ^ k)%Z /\ (t mod 10 <> 0)%Z.
Proof.
  induction fuel as [|fuel IH]; intros m e Hm H64 He Hf; [cbn in Hm; lia|].
  cbn [strip_zeros mantissa exponent]. rewrite div10_ok, low_rem_ok by lia.
  destruct (Z.eqb_spec (m mod 10) 0) as [M|M]; cbn [negb].
  - rewrite i32_small by lia. cbn [bind]. pose proof (Z.div_mod m 10 ltac:(lia)) as DM. rewrite p10_S in Hm.
    assert (m / 10 < 10 ^ Z.of_nat fuel)%Z by (apply Z.div_lt_upper_bound; lia).
    destruct (IH (m / 10)%Z (e + 1)%Z) as (t & k & E & Hk & Em & Ht); try lia.
    exists t, (k + 1)%Z. rewrite E. rewrite Z.pow_add_r by lia. split; [do 2 f_equal; ring|]. split; [lia|]. split; [lia|exact Ht].
  - exists m, 0%Z. rewrite Z.add_0_r. repeat split; lia.
Qed.

Lemma trimmed_unique t k t' k' : (0 <= k)%Z -> (0 <= k')%Z -> (t * 10 ^ k = t' * 10 ^ k')%Z -> (t mod 10 <> 0)%Z -> (t' mod 10 <> 0)%Z -> t = t' /\ k = k'.
Proof.
  assert (W : forall a i b j, (0 <= i)%Z -> (i < j)%Z -> (a * 10 ^ i = b * 10 ^ j)%Z -> (a mod 10 = 0)%Z).
  { intros a i b j Hi Hj E. replace j with (i + (1 + (j - i - 1)))%Z in E by ring. rewrite !Z.pow_add_r in E by lia.
    assert (0 < 10 ^ i)%Z by (apply Z.pow_pos_nonneg; lia). replace a with (b * 10 ^ (j - i - 1) * 10)%Z by nia. apply Z.mod_mul. lia. }
  intros Hk Hk' E Ht Ht'. destruct (Z.lt_trichotomy k k') as [L|[L|L]].
  - exfalso. apply Ht. apply (W t k t' k'); assumption.
  - split; [|exact L]. subst k'. assert (0 < 10 ^ k)%Z by (apply Z.pow_pos_nonneg; lia). nia.
  - exfalso. apply Ht'. apply (W t' k' t k); [assumption|assumption|congruence].
Qed.

Lemma small_int_ok rc cfg x : input Binary64 x ->
  match d2d_small_int (frac Binary64 x) (expo Binary64 x) with
  | Ok (Some v) => exists v', strip_zeros rc 21 v = Ok v' /\ decimal_of Binary64 x cfg v'
  | Ok None => True
  | _ => False
  end.
Proof.
  intros Hin. unfold d2d_small_int. rewrite to_int_field, (lor_frac Binary64) by reflexivity.
  pose proof (frac_range Binary64 x) as Fr. cbn [precision] in Fr. pose proof (expo_range Binary64 x) as Er.
  set (d := (expo Binary64 x - 1023 - 52)%Z). destruct (Z.ltb_spec 0 d); [exact Logic.I|]. destruct (Z.ltb_spec d (-52)); [exact Logic.I|].
  unfold shl. rewrite (proj2 (Z.leb_le _ _)), (proj2 (Z.ltb_lt _ _)) by lia. cbn [andb bind]. rewrite Z.shiftl_1_l.
  assert (P : (1 <= 2 ^ (- d) <= 2 ^ 52)%Z) by (split; [change 1%Z with (2 ^ 0)%Z|]; apply Z.pow_le_mono_r; lia).
  rewrite (wrap_small 64 (2 ^ (- d))) by lia. rewrite (wrap_small 64) by lia. replace (2 ^ (- d) - 1)%Z with (Z.ones (- d)) by (rewrite Z.ones_equiv; lia). rewrite Z.land_ones by lia.
  set (m2 := (2 ^ 52 + frac Binary64 x)%Z). destruct (Z.eqb_spec (m2 mod 2 ^ (- d)) 0) as [M|M]; cbn [negb]; [|exact Logic.I].
  rewrite shr_ok by lia. cbn [bind]. set (w := (m2 / 2 ^ (- d))%Z).
  assert (W : m2 = (w * 2 ^ (- d))%Z) by (pose proof (Z.div_mod m2 (2 ^ (- d)) ltac:(lia)); fold w in H1; lia).
  assert (Hw : (0 < w < 2 ^ 53)%Z) by nia.
  destruct (strip_ok rc 21 w 0) as (t & k & E & Hk & Ew & Ht); try lia.
  exists (mk_decimal t k). split; [exact E|].
  assert (V : value Binary64 x = IZR (cond_Zopp (negative Binary64 x) w)).
  { rewrite (neg_ok Binary64 x Hin), (magnitude Binary64 x Hin).
    assert (VV : IZR (n_of Binary64 x) * bpow radix2 (e0_of Binary64 x) = IZR w).
    { unfold n_of, e0_of, e_of. rewrite (proj2 (Z.eqb_neq (expo Binary64 x) 0)) by lia. cbn [precision]. fold m2.
      replace (exp_min Binary64 + expo Binary64 x - 1 + exponent_bits Binary64)%Z with d by (unfold d; change (exp_min Binary64) with (-1085)%Z; change (exponent_bits Binary64) with 11%Z; lia).
      rewrite W, mult_IZR. change (2 ^ (- d))%Z with (radix2 ^ (- d))%Z. rewrite IZR_Zpower by lia. rewrite Rmult_assoc, <- bpow_plus, Z.add_opp_diag_l. cbn [bpow]. ring. }
    rewrite VV. destruct (is_negative Binary64 x); cbn [cond_Ropp cond_Zopp]; [rewrite opp_IZR|]; reflexivity. }
  destruct (nearest_good cfg Binary64 nearest_to_even tie_to_even x Hin eq_refl) as (t' & E' & Ec & G).
  destruct (integers cfg Binary64 true nearest_to_even tie_to_even assert_finite x _ Hin V) as (r & Er' & Hr & Eq).
  { rewrite abs_cond_Zopp. cbn [prec]. lia. }
  rewrite (grisu_exact_ok cfg Binary64 true nearest_to_even tie_to_even assert_finite x t' E' Hin Ec) in Er'. injection Er' as <-.
  cbn [fp_exponent fp_significand] in *. unfold signed in Eq. cbn [fp_significand] in Eq.
  assert (Eq2 : (t * 10 ^ k = t' * 10 ^ E')%Z) by (destruct (negative Binary64 x); cbn [cond_Zopp] in Eq; lia).
  destruct (trimmed_unique t k t' E' Hk Hr Eq2 Ht (b_mod _ _ _ _ _ (g_basic _ _ _ _ _ _ G))) as [-> ->]. exact Ec.
Qed.

(** ** Every finite nonzero number *)
Definition ryu_decimal (rc : ryu_config) (f : fmt) (x : Z) : outcome floating_decimal :=
  match f with
  | Binary32 => f2d rc (frac f x) (expo f x)
  | Binary64 => s <- d2d_small_int (frac f x) (expo f x) ;;
      match s with Some v => strip_zeros rc 21 v | None => d2d rc (frac f x) (expo f x) end
  end.
Theorem ryu_decimal_ok rc cfg f x : input f x -> exists v, ryu_decimal rc f x = Ok v /\ decimal_of f x cfg v.
Proof.
  intros Hin. destruct f; cbn [ryu_decimal]; [apply f2d_ok; exact Hin|].
  pose proof (small_int_ok rc cfg x Hin) as S. destruct (d2d_small_int _ _) as [[v|]| | |]; cbn [bind]; try contradiction; [exact S|].
  apply d2d_ok. exact Hin.
Qed.
