(** * The results of [grisu_exact] for the nearest modes and the modes rounding away from zero *)

From Coq Require Import ZArith Reals List Lra Lia Bool.
From Flocq Require Import Core.
From Verif Require Import Machine Tables Model Arith ExpFacts Products IntCheck Core Nearest Directed Link
  Spec Reading Bridge ReadsBack Shortest Main.
Open Scope R_scope.


(** everything but closeness and ties *)
Record basic (f : fmt) (m : rounding_mode) (x t E : Z) : Prop := {
  b_pos : (0 < t)%Z;
  b_short : shortest f m x (cond_Zopp (negative f x) t) E;
  b_mod : (t mod 10 <> 0)%Z;
  b_digits : (digits t <= max_digits f)%Z;
  b_sci : (sci_min f <= E + digits t - 1 <= sci_max f)%Z
}.
Record good (f : fmt) (m : rounding_mode) (crs : crs_tag) (x t E : Z) : Prop := {
  g_basic : basic f m x t E;
  g_close : cares crs = true -> closest f m x (cond_Zopp (negative f x) t) E;
  g_ties : cares crs = true -> breaks_ties crs f m x (cond_Zopp (negative f x) t) E;
  g_large : cares crs = false -> largest f m x (cond_Zopp (negative f x) t) E
}.

Lemma grisu_exact_ok cfg f rs m crs h x t E : input f x -> compute cfg f (delegate f m x) crs x = Ok (t, E) ->
  grisu_exact cfg f rs m crs h x = Ok (mk_fp t E (if rs then Some (is_negative f x) else None)).
Proof.
  intros Hin H. unfold grisu_exact.
  assert (Hh : run_case_handler cfg f h x = Ok tt).
  { destruct h; [|reflexivity]. cbn. unfold cassert. destruct (input_facts f x Hin) as (_ & -> & _). destruct (cfg_ndebug cfg); reflexivity. }
  rewrite Hh. cbn [bind]. rewrite H. reflexivity.
Qed.

Section Results.
Variables (cfg : config) (f : fmt) (m : rounding_mode) (crs : crs_tag) (x : Z).
Hypothesis Hin : input f x.
Local Notation neg := (is_negative f x).
Local Notation n := (n_of f x).
Local Notation e := (e_of f x).
Local Notation p := (delegate f m x).
Local Notation tag := (provider_tag p).
Local Notation itv := (provider_call f p x).
Local Notation I := (rin f tag itv e n).
Local Notation y := (IZR n * bpow radix2 (e0_of f x)).

Lemma neg_ok : negative f x = neg. Proof. apply negative_model, Hin. Qed.

Lemma digits_le t b : (0 < t)%Z -> (t < 10 ^ b)%Z -> (digits t <= b)%Z.
Proof. intros H0 H. apply Zdigits_le_Zpower. rewrite Z.abs_eq by lia. exact H. Qed.

Lemma grid_basic kap t : (0 <= kap)%Z -> in_int f tag itv e n (t * 10 ^ kap) = true -> no_coarser f tag itv e n kap ->
  y <= 2 * decimal t (kap - kexp e) -> basic f m x t (kap - kexp e).
Proof.
  intros Hk Hi Hn Hy. split.
  - apply (g_pos f m x Hin kap t Hk Hi).
  - rewrite neg_ok. apply (g_shortest f m x Hin kap t Hk Hi Hn).
  - apply (g_mod f m x kap t Hk Hi Hn).
  - pose proof (g_pos f m x Hin kap t Hk Hi) as T0. pose proof (t_small f m x Hin kap t Hk Hi Hn) as T1.
    apply digits_le; [exact T0|]. apply Z.le_lt_trans with (1 := T1). destruct f; reflexivity.
  - apply (g_sci f m x Hin kap t Hk Hi Hn Hy).
Qed.

(** competitors, by magnitude *)
Lemma competitors (P : Z -> Z -> Prop) t :
  (forall s e', (0 < s)%Z -> I (decimal s e') -> (digits s <= digits t)%Z -> P (cond_Zopp neg s) e') ->
  forall s' e', reads_back f m x s' e' -> (digits s' <= digits (cond_Zopp neg t))%Z -> P s' e'.
Proof.
  intros H s' e' HR Hd. rewrite <- (cond_Zopp_twice neg s') in HR |- *. apply (reads_back_iff f m x Hin) in HR.
  rewrite digits_signed in Hd. rewrite <- (digits_signed neg s') in Hd.
  apply H; [|exact HR|exact Hd]. apply (decimal_pos _ e'). apply (I_pos f m x Hin _ HR).
Qed.

Lemma abs_signed s e' : (0 < s)%Z -> Rabs (decimal (cond_Zopp neg s) e') = decimal s e'.
Proof.
  intros H. rewrite decimal_signed. assert (0 < decimal s e') by (apply decimal_pos; exact H).
  destruct neg; cbn [cond_Ropp]; [rewrite Rabs_Ropp|]; apply Rabs_pos_eq; lra.
Qed.

Lemma grid_largest kap t : (0 <= kap)%Z -> in_int f tag itv e n (t * 10 ^ kap) = true -> no_coarser f tag itv e n kap ->
  (forall u, in_int f tag itv e n (u * 10 ^ kap) = true -> (u <= t)%Z) ->
  forall s e', (0 < s)%Z -> I (decimal s e') -> (digits s <= digits t)%Z -> decimal s e' <= decimal t (kap - kexp e).
Proof.
  intros Hk Hi Hn Hmax s e' Hs HI Hd.
  pose proof (g_pos f m x Hin kap t Hk Hi) as T0.
  destruct (grid_competitor I (I_convex f m x) t (kap - kexp e) T0 (g_in f m x kap t Hk Hi) (g_no f m x kap Hk Hn) s e' Hs HI Hd)
    as [->|(_ & _ & _ & L)].
  - apply decimal_le. apply Hmax. apply in_int_rin. rewrite dec_unscale by exact Hk. exact HI.
  - apply Rlt_le, Rlt_le_trans with (1 := L). rewrite decimal_eq.
    rewrite <- (Rmult_1_l (p10 _)) at 1. apply Rmult_le_compat_r; [apply bpow_ge_0 | apply IZR_le; lia].
Qed.

(** ** Nearest modes *)
Theorem nearest_good : is_nearest m = true ->
  exists t E, compute cfg f p crs x = Ok (t, E) /\ good f m crs x t E.
Proof.
  intros Hm. pose proof (tag_nearest f m x Hm) as T.
  destruct (input_facts f x Hin) as (Hx & Hf & Hz & He & Hn & _).
  rewrite compute_is_tail by assumption.
  assert (M0 : (0 <= min_kappa f)%Z) by (destruct f; discriminate).
  assert (TR : tag <> right_closed_directed_tag) by (rewrite T; discriminate).
  destruct (cares crs) eqn:Hc.
  - destruct (nearest_result cfg f crs itv e n He Hn Hc) as (kap & t & Et & Hk & Hi & Hno & Hcl).
    rewrite <- T in Et, Hi, Hno. exists t, (kap - kexp e)%Z. split; [exact Et|].
    assert (Hk0 : (0 <= kap)%Z) by lia.
    pose proof (g_pos f m x Hin kap t Hk0 Hi) as T0.
    pose proof (n_closest f m x Hin kap t Hk0 Hi Hno crs T (proj2 Hk) Hcl) as NC.
    split.
    + apply grid_basic; try assumption.
      apply (I_lower f m x Hin kap t Hk0 Hi Hno _ TR). apply (g_in f m x kap t Hk0 Hi).
    + intros _. rewrite neg_ok. unfold closest. apply (competitors (fun s' e' => _ <= error f x s' e')).
      intros s e' Hs HI Hd. rewrite !(error_signed f x Hin). apply (NC s e' Hs HI Hd).
    + intros _. rewrite neg_ok. unfold breaks_ties.
      apply (competitors (fun s' e' => error f x s' e' = _ -> decimal s' e' <> _ -> wins_tie crs _ _ s' e')).
      intros s e' Hs HI Hd. rewrite !(error_signed f x Hin), !decimal_signed. intros EQ NE.
      destruct (NC s e' Hs HI Hd) as [_ N2]. destruct N2 as [-> Tk]; [congruence | intros Q; apply NE; rewrite Q; reflexivity |].
      assert (Ev : Z.even (cond_Zopp neg t) = Z.even t) by (destruct neg; cbn [cond_Zopp]; [apply Z.even_opp | reflexivity]).
      unfold wins_tie. rewrite Ev, !abs_signed by assumption.
      destruct crs; cbn [tie_ok] in Tk; try exact Tk; try exact Logic.I.
      * rewrite <- Z.negb_odd, Tk. reflexivity.
      * rewrite !decimal_eq. apply Rmult_lt_compat_r; [apply bpow_gt_0 | apply IZR_lt, Tk].
      * rewrite !decimal_eq. apply Rmult_lt_compat_r; [apply bpow_gt_0 | apply IZR_lt, Tk].
    + congruence.
  - destruct (largest_result cfg f tag crs itv e n He Hn (itvL f m x) (itvR f m x)) as (kap & t & Et & Hk & Hi & Hno & Hmax).
    { intros kap _ _ _. apply (right_integer_ok cfg f tag itv e n He Hn (itvL f m x) (itvR f m x)); [|exact TR].
      rewrite T. discriminate. }
    { left. exact Hc. }
    exists t, (kap - kexp e)%Z. split; [exact Et|]. assert (Hk0 : (0 <= kap)%Z) by lia.
    pose proof (g_pos f m x Hin kap t Hk0 Hi) as T0.
    split; try congruence.
    + apply grid_basic; try assumption. apply (I_lower f m x Hin kap t Hk0 Hi Hno _ TR). apply (g_in f m x kap t Hk0 Hi).
    + intros _. rewrite neg_ok. unfold largest. apply (competitors (fun s' e' => Rabs (decimal s' e') <= _)).
      intros s e' Hs HI Hd. rewrite !abs_signed by assumption. apply grid_largest; assumption.
Qed.

(** ** Modes rounding away from zero *)
Theorem outward_good : rounds_outward m neg = true ->
  exists t E, compute cfg f p crs x = Ok (t, E) /\ good f m crs x t E /\
    closest f m x (cond_Zopp (negative f x) t) E /\ largest f m x (cond_Zopp (negative f x) t) E.
Proof.
  intros Hm. pose proof (outward_call f m x Hm) as Hp.
  destruct (input_facts f x Hin) as (Hx & Hf & Hz & He & Hn & _).
  rewrite compute_is_tail by assumption.
  assert (M0 : (0 <= min_kappa f)%Z) by (destruct f; discriminate).
  assert (T : tag = right_closed_directed_tag) by (rewrite Hp; reflexivity).
  destruct (largest_result cfg f tag crs itv e n He Hn (itvL f m x) (itvR f m x)) as (kap & t & Et & Hk & Hi & Hno & Hmax).
  { intros kap _ H. congruence. }
  { right. exact T. }
  exists t, (kap - kexp e)%Z. split; [exact Et|]. assert (Hk0 : (0 <= kap)%Z) by lia.
  pose proof (g_pos f m x Hin kap t Hk0 Hi) as T0.
  assert (Up : forall a, I a -> a <= y).
  { intros a [_ C]. rewrite (x_quarters f x). rewrite T in C. unfold hi_u in C. rewrite Z.add_0_r in C. destruct C as [C|[_ C]]; lra. }
  pose proof (grid_largest kap t Hk0 Hi Hno Hmax) as GL.
  pose proof (g_in f m x kap t Hk0 Hi) as G0.
  assert (CL : forall s e', (0 < s)%Z -> I (decimal s e') -> (digits s <= digits t)%Z ->
     Rabs (decimal t (kap - kexp e) - y) <= Rabs (decimal s e' - y) /\
     (Rabs (decimal s e' - y) = Rabs (decimal t (kap - kexp e) - y) -> decimal s e' = decimal t (kap - kexp e))).
  { intros s e' Hs HI Hd. pose proof (Up _ HI). pose proof (Up _ G0). pose proof (GL s e' Hs HI Hd).
    rewrite !Rabs_left1 by lra. split; lra. }
  assert (C1 : closest f m x (cond_Zopp neg t) (kap - kexp e)).
  { unfold closest. apply (competitors (fun s' e' => _ <= error f x s' e')).
    intros s e' Hs HI Hd. rewrite !(error_signed f x Hin). apply (CL s e' Hs HI Hd). }
  assert (C2 : largest f m x (cond_Zopp neg t) (kap - kexp e)).
  { unfold largest. apply (competitors (fun s' e' => Rabs (decimal s' e') <= _)).
    intros s e' Hs HI Hd. rewrite !abs_signed by assumption. apply GL; assumption. }
  rewrite neg_ok. split; [split|split]; rewrite ?neg_ok; auto.
  - apply grid_basic; try assumption.
    (* the next multiple of 10^kap is beyond y *)
    set (E := (kap - kexp e)%Z) in *.
    assert (D1 : decimal (t + 1) E = decimal t E + p10 E) by (rewrite !decimal_eq, plus_IZR; ring).
    assert (D2 : p10 E <= decimal t E).
    { rewrite decimal_eq. rewrite <- (Rmult_1_l (p10 E)) at 1. apply Rmult_le_compat_r; [apply bpow_ge_0 | apply IZR_le; lia]. }
    destruct (Rlt_le_dec y (decimal (t + 1) E)) as [L|L]; [lra|exfalso].
    assert (IS : I (decimal (t + 1) E)).
    { apply (I_convex f m x (decimal t E) _ y); [|exact G0|].
      - pose proof (bpow_gt_0 radix10 E). lra.
      - rewrite (x_quarters f x). split.
        + left. pose proof (Up _ G0) as U. destruct G0 as [A _]. rewrite (x_quarters f x) in U.
          destruct A as [A|[A _]]; [lra|]. rewrite (itvR f m x T) in A. discriminate.
        + right. rewrite (itvR f m x T). split; [reflexivity|]. rewrite T. unfold hi_u. rewrite Z.add_0_r. reflexivity. }
    assert (in_int f tag itv e n ((t + 1) * 10 ^ kap) = true).
    { apply in_int_rin. rewrite dec_unscale by exact Hk0. exact IS. }
    specialize (Hmax _ H). lia.
  - intros _. unfold breaks_ties. apply (competitors (fun s' e' => error f x s' e' = _ -> decimal s' e' <> _ -> wins_tie crs _ _ s' e')).
    intros s e' Hs HI Hd. rewrite !(error_signed f x Hin), !decimal_signed. intros EQ NE.
    destruct (CL s e' Hs HI Hd) as [_ N2]. exfalso. apply NE. f_equal. apply N2. exact EQ.
Qed.
End Results.
