(** * The specification determines the output *)

From Coq Require Import ZArith Znumtheory Zpow_facts Reals List Lra Lia Bool.
From Flocq Require Import Core.
From Verif Require Import Machine Model Spec Link Reading Bridge ReadsBack Shortest Main Results Claims Signs.
Open Scope R_scope.

(** ** Among positive decimals *)
Section Candidates.
Variables (I : R -> Prop) (V : R).
Hypothesis I_convex : forall a b c, a <= b <= c -> I a -> I c -> I b.
Hypothesis I_V : I V.

Record candidate (s e : Z) : Prop := {
  c_pos : (0 < s)%Z;
  c_in : I (decimal s e);
  c_short : forall s' e', (0 < s')%Z -> I (decimal s' e') -> (digits s <= digits s')%Z;
  c_close : forall s' e', (0 < s')%Z -> I (decimal s' e') -> (digits s' <= digits s)%Z ->
    Rabs (decimal s e - V) <= Rabs (decimal s' e' - V)
}.

Lemma same_digits s e s' e' : candidate s e -> candidate s' e' -> digits s = digits s'.
Proof. intros A B. apply Z.le_antisymm; [apply (c_short _ _ A _ e') | apply (c_short _ _ B _ e)]; try apply A; apply B. Qed.
Lemma same_error s e s' e' : candidate s e -> candidate s' e' -> Rabs (decimal s e - V) = Rabs (decimal s' e' - V).
Proof.
  intros A B. pose proof (same_digits s e s' e' A B). apply Rle_antisym; [apply (c_close _ _ A) | apply (c_close _ _ B)];
    try apply A; try apply B; lia.
Qed.
Lemma middle s e s' e' : candidate s e -> candidate s' e' -> decimal s e <> decimal s' e' ->
  2 * V = decimal s e + decimal s' e'.
Proof. intros A B N. pose proof (same_error _ _ _ _ A B) as E. unfold Rabs in E. repeat destruct Rcase_abs; lra. Qed.

Lemma same_exponent s s' e : candidate s e -> candidate s' e -> Z.even s = Z.even s' -> s = s'.
Proof.
  intros A B P. destruct (Z.eq_dec s s') as [|N]; [assumption|]. exfalso.
  assert (ND : decimal s e <> decimal s' e).
  { rewrite !decimal_eq. intros H. apply N, eq_IZR. apply Rmult_eq_reg_r in H; [exact H | apply Rgt_not_eq, bpow_gt_0]. }
  pose proof (middle _ _ _ _ A B ND) as M. pose proof (c_pos _ _ A). pose proof (c_pos _ _ B).
  assert (Hh : exists h, (s + s' = 2 * h)%Z).
  { apply Z.even_spec. rewrite Z.even_add, P. destruct (Z.even s'); reflexivity. }
  destruct Hh as [h Hh]. assert (EV : decimal h e = V).
  { assert (2 * decimal h e = decimal s e + decimal s' e); [|lra]. rewrite !decimal_eq.
    rewrite <- Rmult_plus_distr_r, <- plus_IZR, Hh, mult_IZR. ring. }
  assert (D : (digits h <= digits s)%Z).
  { destruct (Z.le_ge_cases s s').
    - rewrite (same_digits _ _ _ _ A B). apply Zdigits_le; lia.
    - apply Zdigits_le; lia. }
  pose proof (c_close _ _ A h e ltac:(lia) ltac:(rewrite EV; exact I_V) D) as C. rewrite EV in C.
  replace (V - V) with 0 in C by ring. rewrite Rabs_R0 in C. pose proof (same_error _ _ _ _ A B) as E.
  unfold Rabs in *. repeat destruct Rcase_abs; lra.
Qed.

Lemma exponents s e s' e' : candidate s e -> candidate s' e' -> (e < e')%Z ->
  s = 9%Z /\ s' = 1%Z /\ e' = (e + 1)%Z /\ 2 * V = 19 * p10 e.
Proof.
  intros A B L. pose proof (c_pos _ _ A) as S0. pose proof (c_pos _ _ B) as S0'. pose proof (same_digits _ _ _ _ A B) as D.
  pose proof (digits_bounds s e S0) as [_ D1]. pose proof (digits_bounds s' e' S0') as [D2 _].
  set (P := p10 (digits s + e)) in *.
  assert (P <= decimal s' e'). { apply Rle_trans with (2 := D2). apply bpow_le. lia. }
  assert (ND : decimal s e <> decimal s' e') by lra. pose proof (middle _ _ _ _ A B ND) as M.
  assert (EP : decimal 1 (digits s + e) = P) by (rewrite decimal_eq; unfold P; ring).
  assert (IP : I P) by (apply (I_convex (decimal s e) P (decimal s' e')); [lra | apply A | apply B]).
  assert (D1' : (digits s = 1)%Z).
  { pose proof (c_short _ _ A 1%Z (digits s + e)%Z eq_refl ltac:(rewrite EP; exact IP)) as X.
    pose proof (digits_pos s S0). change (digits 1) with 1%Z in X. lia. }
  assert (E1 : P = decimal s' e').
  { pose proof (c_close _ _ A 1%Z (digits s + e)%Z eq_refl ltac:(rewrite EP; exact IP) ltac:(rewrite D1'; reflexivity)) as X.
    rewrite EP in X. unfold Rabs in X. repeat destruct Rcase_abs; lra. }
  assert (PE : P = 10 * p10 e) by (unfold P; rewrite D1', Z.add_comm; apply p10_succ).
  assert (S9 : (s < 10)%Z).
  { apply lt_IZR. apply Rmult_lt_reg_r with (p10 e); [apply bpow_gt_0|]. rewrite <- PE. exact D1. }
  assert (E' : (e' = e + 1)%Z).
  { assert (p10 e' <= p10 (e + 1)); [|apply le_bpow in H0; lia].
    rewrite p10_succ, <- PE, E1, decimal_eq. rewrite <- (Rmult_1_l (p10 e')) at 1.
    apply Rmult_le_compat_r; [apply bpow_ge_0 | apply IZR_le; lia]. }
  assert (S1 : s' = 1%Z).
  { apply eq_IZR. apply Rmult_eq_reg_r with (p10 e'); [|apply Rgt_not_eq, bpow_gt_0].
    rewrite <- (decimal_eq s' e'), <- E1, PE, E', p10_succ. ring. }
  assert (S8 : s = 9%Z).
  { destruct (Z.eq_dec s 9) as [|N9]; [assumption|]. exfalso.
    assert (Dd : (digits (s + 1) <= digits s)%Z).
    { rewrite D1'. apply Z.le_trans with (digits 9); [apply Zdigits_le; lia | discriminate]. }
    assert (B1 : decimal s e < decimal (s + 1) e < P).
    { rewrite PE, !decimal_eq. split; apply Rmult_lt_compat_r; try apply bpow_gt_0; apply IZR_lt; lia. }
    assert (II : I (decimal (s + 1) e)) by (apply (I_convex (decimal s e) _ (decimal s' e')); [lra | apply A | apply B]).
    pose proof (c_close _ _ A (s + 1) e ltac:(lia) II Dd) as X. unfold Rabs in X. repeat destruct Rcase_abs; lra. }
  repeat split; try assumption. rewrite M, <- E1, PE, S8, decimal_eq. ring.
Qed.
End Candidates.

(** ** 9.5 * 10^e is never half way between two decimals reading back to it *)
Lemma no_five_19 a : (0 <= a)%Z -> ~ (5 | 19 * 2 ^ a)%Z.
Proof.
  intros Ha H. assert (R : rel_prime 5 (2 ^ a)%Z) by (apply rel_prime_Zpower_r; [exact Ha | apply Zgcd_1_rel_prime; reflexivity]).
  rewrite Z.mul_comm in H. apply Gauss in H; [|exact R]. apply Zdivide_mod in H. discriminate H.
Qed.
Lemma not_dyadic n k j : (0 < j)%Z -> 19 * bpow radix2 (- j - 1) <> IZR n * bpow radix2 k * IZR (5 ^ j).
Proof.
  intros Hj H. set (g := Z.max (j + 1) (- k)).
  assert (E : (19 * 2 ^ (g - j - 1) = n * 2 ^ (k + g) * 5 ^ j)%Z).
  { apply eq_IZR. rewrite !mult_IZR. change 2%Z with (radix_val radix2). rewrite !IZR_Zpower by lia.
    replace (g - j - 1)%Z with (- j - 1 + g)%Z by ring. rewrite !bpow_plus.
    apply (f_equal (fun z => z * bpow radix2 g)) in H. lra. }
  apply (no_five_19 (g - j - 1)); [lia|]. rewrite E. apply Z.divide_mul_r.
  replace j with (1 + (j - 1))%Z by ring. rewrite Z.pow_add_r by lia. exists (5 ^ (j - 1))%Z. ring.
Qed.
Lemma p10_split e : p10 e = bpow radix2 e * (if (0 <=? e)%Z then IZR (5 ^ e) else / IZR (5 ^ - e)).
Proof.
  assert (Q : forall j, (0 <= j)%Z -> p10 j = bpow radix2 j * IZR (5 ^ j)).
  { intros j Hj. rewrite <- !IZR_Zpower by exact Hj. rewrite <- mult_IZR, <- Z.pow_mul_l. reflexivity. }
  destruct (Z.leb_spec 0 e); [apply Q; assumption|].
  assert (Hj : exists j, (e = - j /\ 0 <= j)%Z) by (exists (- e)%Z; lia). destruct Hj as (j & -> & Hj).
  rewrite Z.opp_involutive, !bpow_opp, Q by exact Hj. apply Rinv_mult.
Qed.

Lemma bpow2_pred e : bpow radix2 e = 2 * bpow radix2 (e - 1).
Proof. replace e with (1 + (e - 1))%Z at 1 by ring. rewrite bpow_plus. reflexivity. Qed.

Section Input.
Variables (f : fmt) (m : rounding_mode) (x : Z).
Hypothesis Hin : input f x.
Local Notation neg := (negative f x).
Local Notation n := (n_of f x).
Local Notation e0 := (e0_of f x).
Local Notation I := (fun y => read f m (cond_Ropp neg y) = value f x).
Local Notation V := (IZR n * bpow radix2 e0).

Lemma input_value : value f x = cond_Ropp neg V.
Proof. rewrite (magnitude f x Hin). rewrite (neg_ok f x Hin). reflexivity. Qed.

Lemma read_le u v : u <= v -> read f m u <= read f m v.
Proof.
  intros H. unfold read. pose proof (valid_reading m) as W.
  assert (P : Prec_gt_0 (prec f)) by (destruct f; reflexivity). apply round_le; [apply FLT_exp_valid, P | exact W | exact H].
Qed.
Lemma read_generic v : generic_format radix2 (FLT_exp (emin f) (prec f)) v -> read f m v = v.
Proof. intros H. unfold read. pose proof (valid_reading m) as W. apply round_generic; [exact W | exact H]. Qed.
Lemma generic_int k a : (Z.abs k < 2 ^ prec f)%Z -> (emin f <= a)%Z ->
  generic_format radix2 (FLT_exp (emin f) (prec f)) (IZR k * bpow radix2 a).
Proof.
  intros Hk Ha. apply generic_format_FLT. exists (Float radix2 k a); [reflexivity | | exact Ha].
  cbn [Fnum]. exact Hk.
Qed.
Lemma generic_cond b k a : (Z.abs k < 2 ^ prec f)%Z -> (emin f <= a)%Z ->
  generic_format radix2 (FLT_exp (emin f) (prec f)) (cond_Ropp b (IZR k * bpow radix2 a)).
Proof.
  intros Hk Ha. destruct b; cbn [cond_Ropp]; [|apply generic_int; assumption].
  rewrite Ropp_mult_distr_l, <- opp_IZR. apply generic_int; [rewrite Z.abs_opp; exact Hk | exact Ha].
Qed.

Lemma I_convex a b c : a <= b <= c -> I a -> I c -> I b.
Proof.
  intros [H1 H2] A C. apply Rle_antisym; destruct neg; cbn [cond_Ropp] in *; first [rewrite <- A; apply read_le; lra | rewrite <- C; apply read_le; lra].
Qed.
Lemma I_V : I V.
Proof.
  pose proof (spec_n f x Hin). rewrite input_value. apply read_generic, generic_cond; [lia | apply spec_e0, Hin].
Qed.
Lemma I_pos y : I y -> 0 < y.
Proof. intros H. rewrite (neg_ok f x Hin) in H. exact (reads_pos f m x Hin y H). Qed.

Lemma no_half e : I (decimal 9 e) -> I (decimal 1 (e + 1)) -> 2 * V <> 19 * p10 e.
Proof.
  intros I9 I10 H. destruct (Z.lt_ge_cases e 0) as [He|He].
  - apply (not_dyadic n e0 (- e)); [lia|]. rewrite p10_split in H. destruct (Z.leb_spec 0 e); [lia|].
    assert (N5 : IZR (5 ^ (- e)) <> 0) by (apply not_0_IZR, Z.pow_nonzero; lia).
    replace (- - e - 1)%Z with (e + (-1))%Z by ring. rewrite bpow_plus.
    change (bpow radix2 (-1)) with (/ 2). replace (19 * (bpow radix2 e * / 2)) with (19 * (bpow radix2 e * / IZR (5 ^ - e)) / 2 * IZR (5 ^ - e)) by (field; exact N5).
    rewrite <- H. field.
  - rewrite p10_split in H. destruct (Z.leb_spec 0 e); [|lia].
    set (u := (19 * 5 ^ e)%Z). pose proof (spec_n f x Hin) as N. pose proof (spec_e0 f x Hin) as E0.
    assert (P5 : (0 < 5 ^ e)%Z) by (apply Z.pow_pos_nonneg; lia).
    assert (HV : V = IZR u * bpow radix2 (e - 1)).
    { unfold u. rewrite mult_IZR. rewrite (bpow2_pred e) in H. lra. }
    assert (Hu : (u < 2 ^ prec f)%Z).
    { destruct (Z.le_gt_cases e0 (e - 1)) as [G|G].
      - apply Z.le_lt_trans with n; [|lia]. apply le_IZR. apply Rmult_le_reg_r with (bpow radix2 e0); [apply bpow_gt_0|].
        rewrite HV. apply Rmult_le_compat_l; [apply IZR_le; unfold u; lia | apply bpow_le; exact G].
      - exfalso. assert (U : (u = n * 2 ^ (e0 - e + 1))%Z).
        { apply eq_IZR. rewrite mult_IZR. change 2%Z with (radix_val radix2). rewrite IZR_Zpower by lia.
          apply Rmult_eq_reg_r with (bpow radix2 (e - 1)); [|apply Rgt_not_eq, bpow_gt_0]. rewrite Rmult_assoc, <- bpow_plus.
          replace (e0 - e + 1 + (e - 1))%Z with e0 by ring. symmetry. exact HV. }
        assert (O : Z.odd u = true).
        { unfold u. rewrite Z.odd_mul. destruct (Z.eq_dec e 0) as [->|]; [reflexivity|].
          replace e with (e - 1 + 1)%Z by ring. rewrite Z.odd_pow by lia. reflexivity. }
        rewrite U in O. rewrite Z.odd_mul in O. replace (e0 - e + 1)%Z with (e0 - e + 1)%Z in O by ring.
        rewrite (Z.odd_pow 2) in O by lia. rewrite andb_false_r in O. discriminate O. }
    assert (Em : (emin f <= e - 1)%Z) by (assert (emin f <= -1)%Z by (destruct f; discriminate); lia).
    assert (R9 : read f m (cond_Ropp neg (decimal 9 e)) = cond_Ropp neg (decimal 9 e)).
    { replace (decimal 9 e) with (IZR (18 * 5 ^ e) * bpow radix2 (e - 1)).
      - apply read_generic, generic_cond; [unfold u in Hu; lia | exact Em].
      - rewrite decimal_eq, p10_split. destruct (Z.leb_spec 0 e); [|lia]. rewrite mult_IZR, (bpow2_pred e). ring. }
    cbv beta in I9. rewrite R9, input_value in I9. apply cond_Ropp_inj in I9. rewrite HV, decimal_eq, p10_split in I9. destruct (Z.leb_spec 0 e); [|lia].
    unfold u in I9. rewrite mult_IZR in I9. rewrite (bpow2_pred e) in I9.
    assert (0 < bpow radix2 (e - 1) * IZR (5 ^ e)) by (apply Rmult_lt_0_compat; [apply bpow_gt_0 | apply IZR_lt; exact P5]). lra.
Qed.

Lemma to_candidate s e : shortest f m x s e -> closest f m x s e -> candidate I V (cond_Zopp neg s) e.
Proof.
  intros [R S] C. assert (RB : forall s' e', I (decimal s' e') -> reads_back f m x (cond_Zopp neg s') e').
  { intros s' e' H. unfold reads_back. rewrite decimal_signed. exact H. }
  assert (RI : I (decimal (cond_Zopp neg s) e)).
  { cbv beta. rewrite <- decimal_signed, cond_Zopp_twice. exact R. }
  assert (ER : forall s' e', error f x (cond_Zopp neg s') e' = Rabs (decimal s' e' - V)).
  { intros. unfold error. rewrite decimal_signed, input_value. destruct neg; cbn [cond_Ropp]; [|reflexivity].
    rewrite <- Rabs_Ropp. f_equal. ring. }
  constructor.
  - apply (decimal_pos _ e), I_pos, RI.
  - exact RI.
  - intros s' e' _ H. rewrite digits_signed. rewrite <- (digits_signed neg s'). apply (S _ e'), RB, H.
  - intros s' e' _ H D. rewrite <- !ER, cond_Zopp_twice. apply C; [apply RB, H|]. rewrite digits_signed. rewrite digits_signed in D. exact D.
Qed.

Lemma determined_pair crs s e s' e' : crs <> do_not_care ->
  shortest f m x s e -> closest f m x s e -> (decimal s' e' <> decimal s e -> wins_tie crs s e s' e') ->
  shortest f m x s' e' -> closest f m x s' e' -> (decimal s e <> decimal s' e' -> wins_tie crs s' e' s e) -> s = s' /\ e = e'.
Proof.
  intros Hc S C T S' C' T'. pose proof (to_candidate s e S C) as A. pose proof (to_candidate s' e' S' C') as A'.
  assert (EV : Z.even s = Z.even s' -> s = s' /\ e = e').
  { intros Ev. assert (Q : forall t, Z.even (cond_Zopp neg t) = Z.even t) by (intros t; destruct neg; [apply Z.even_opp | reflexivity]).
    destruct (Z.lt_trichotomy e e') as [L|[->|L]].
    - destruct (exponents _ _ I_convex _ _ _ _ A A' L) as (E1 & E2 & -> & HH). exfalso. rewrite E1 in A. rewrite E2 in A'.
      apply (no_half e); [apply A | apply A' | exact HH].
    - split; [|reflexivity]. rewrite <- (cond_Zopp_twice neg s), <- (cond_Zopp_twice neg s').
      rewrite (same_exponent _ _ I_V _ _ _ A A'); [reflexivity | rewrite !Q; exact Ev].
    - destruct (exponents _ _ I_convex _ _ _ _ A' A L) as (E1 & E2 & -> & HH). exfalso. rewrite E2 in A. rewrite E1 in A'.
      apply (no_half e'); [apply A' | apply A | exact HH]. }
  destruct S as [R Sm], S' as [R' Sm'].
  assert (D : digits s = digits s') by (apply Z.le_antisymm; [apply (Sm _ e') | apply (Sm' _ e)]; assumption).
  destruct (Req_dec (decimal s e) (decimal s' e')) as [E|N].
  - (* equal decimals with equally many digits *)
    assert (Sg : cond_Zopp neg s = cond_Zopp neg s' /\ e = e').
    { pose proof (c_pos _ _ _ _ A) as P. pose proof (c_pos _ _ _ _ A') as P'.
      pose proof (digits_bounds _ e P) as B. pose proof (digits_bounds _ e' P') as B'. rewrite !digits_signed, !decimal_signed in B, B'. rewrite <- D, <- E in B'.
      assert (p10 (digits s - 1 + e) < p10 (digits s + e')) by lra. assert (p10 (digits s - 1 + e') < p10 (digits s + e)) by lra.
      apply lt_bpow in H. apply lt_bpow in H0. assert (e = e') by lia. subst e'. split; [|reflexivity].
      rewrite !decimal_eq in E. apply Rmult_eq_reg_r in E; [|apply Rgt_not_eq, bpow_gt_0]. apply eq_IZR in E. rewrite E. reflexivity. }
    destruct Sg as [Sg ->]. split; [|reflexivity]. rewrite <- (cond_Zopp_twice neg s), Sg. apply cond_Zopp_twice.
  - pose proof (T (not_eq_sym N)) as W. pose proof (T' N) as W'.
    destruct crs; cbn [wins_tie] in W, W'; try congruence; try (apply EV; congruence); lra.
Qed.
Lemma determined crs s e s' e' : crs <> do_not_care ->
  shortest f m x s e -> closest f m x s e -> breaks_ties crs f m x s e ->
  shortest f m x s' e' -> closest f m x s' e' -> breaks_ties crs f m x s' e' -> s = s' /\ e = e'.
Proof.
  intros Hc S C T S' C' T'. pose proof S as [R Sm]. pose proof S' as [R' Sm'].
  assert (D : digits s = digits s') by (apply Z.le_antisymm; [apply (Sm _ e') | apply (Sm' _ e)]; assumption).
  assert (Er : error f x s e = error f x s' e') by (apply Rle_antisym; [apply C | apply C']; try assumption; lia).
  apply (determined_pair crs); try assumption; intros N; [apply T | apply T']; try assumption; try lia. symmetry; exact Er.
Qed.
End Input.

Lemma unique cfg f rs m crs h x : input f x -> nearest_or_outward m (negative f x) = true -> crs <> do_not_care ->
  exists r, grisu_exact cfg f rs m crs h x = Ok r /\
  forall s e, shortest f m x s e /\ closest f m x s e /\ breaks_ties crs f m x s e <-> s = signed f x r /\ e = fp_exponent r.
Proof.
  intros Hin Hm Hc. destruct (total cfg f rs m crs h x Hin Hm) as [r E]. exists r. split; [exact E|].
  pose proof (either_result cfg f rs m crs h x Hin r Hm E) as G. pose proof (cares_true Hc) as C.
  assert (S0 : shortest f m x (signed f x r) (fp_exponent r)) by apply G.
  intros s e. split.
  - intros (S & Cl & T). apply (determined f m x Hin crs); try assumption; [exact (g_close _ _ _ _ _ _ G C) | exact (g_ties _ _ _ _ _ _ G C)].
  - intros [-> ->]. split; [exact S0|]. split; [exact (g_close _ _ _ _ _ _ G C) | exact (g_ties _ _ _ _ _ _ G C)].
Qed.
Lemma unique_largest cfg f rs m h x : input f x -> nearest_or_outward m (negative f x) = true ->
  exists r, grisu_exact cfg f rs m do_not_care h x = Ok r /\
  forall s e, shortest f m x s e /\ largest f m x s e <-> s = signed f x r /\ e = fp_exponent r.
Proof.
  intros Hin Hm. destruct (total cfg f rs m do_not_care h x Hin Hm) as [r E]. exists r. split; [exact E|].
  pose proof (either_result cfg f rs m do_not_care h x Hin r Hm E) as G.
  assert (S0 : shortest f m x (signed f x r) (fp_exponent r)) by apply G.
  pose proof (g_large _ _ _ _ _ _ G eq_refl) as L0. fold (signed f x r) in L0.
  intros s e. split; [|intros [-> ->]; split; assumption].
  intros ([R S] & L). destruct S0 as [R0 S0]. assert (D : digits s = digits (signed f x r)) by (apply Z.le_antisymm; [apply (S _ (fp_exponent r)) | apply (S0 _ e)]; assumption).
  assert (Eq : Rabs (decimal s e) = Rabs (decimal (signed f x r) (fp_exponent r))) by (apply Rle_antisym; [apply L0 | apply L]; try assumption; lia).
  set (s0 := signed f x r) in *. set (e0 := fp_exponent r) in *.
  assert (P : forall t a, reads_back f m x t a -> (0 < cond_Zopp (negative f x) t)%Z /\ Rabs (decimal t a) = decimal (cond_Zopp (negative f x) t) a).
  { intros t a H. assert (T : (0 < cond_Zopp (negative f x) t)%Z).
    { apply (decimal_pos _ a), (I_pos f m x Hin). cbv beta. rewrite <- decimal_signed, cond_Zopp_twice. exact H. }
    split; [exact T|]. rewrite <- (cond_Zopp_twice (negative f x) t) at 1. rewrite (neg_ok f x Hin) in *. apply abs_signed; assumption. }
  destruct (P _ _ R) as [T E1]. destruct (P _ _ R0) as [T0 E0]. rewrite E1, E0 in Eq.
  pose proof (digits_bounds _ e T) as B. pose proof (digits_bounds _ e0 T0) as B0. rewrite !digits_signed in B, B0. rewrite <- D, <- Eq in B0.
  assert (H : p10 (digits s - 1 + e) < p10 (digits s + e0)) by lra. assert (H0 : p10 (digits s - 1 + e0) < p10 (digits s + e)) by lra.
  apply lt_bpow in H. apply lt_bpow in H0. assert (e = e0) by lia. subst e. split; [|reflexivity].
  rewrite !decimal_eq in Eq. apply Rmult_eq_reg_r in Eq; [|apply Rgt_not_eq, bpow_gt_0]. apply eq_IZR in Eq.
  rewrite <- (cond_Zopp_twice (negative f x) s), Eq. apply cond_Zopp_twice.
Qed.
