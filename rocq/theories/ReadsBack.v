(** * Reading back: the rounding interval of an input is exactly what the algorithm searches *)

From Coq Require Import ZArith Reals Lra Lia Bool.
From Flocq Require Import Core IEEE754.Binary IEEE754.Bits.
From Verif Require Import Machine Tables Model Arith ExpFacts Products IntCheck Core Link Spec Reading Bridge.
Open Scope R_scope.

(** the rounding function as seen from the magnitude *)
Definition side (m : rounding_mode) (neg : bool) : R -> Z :=
  if neg then Zrnd_opp (reading m) else reading m.

Local Instance valid_reading m : Valid_rnd (reading m).
Proof. destruct m; cbn [reading]; auto with typeclass_instances. Qed.
Local Instance valid_side m neg : Valid_rnd (side m neg).
Proof. destruct neg; cbn [side]; auto with typeclass_instances. Qed.

Lemma read_side f m neg y : read f m (cond_Ropp neg y) = cond_Ropp neg (round radix2 (FLT_exp (emin f) (prec f)) (side m neg) y).
Proof. unfold read. destruct neg; cbn [cond_Ropp side]; [apply round_opp | reflexivity]. Qed.

Lemma cond_Ropp_inj b u v : cond_Ropp b u = cond_Ropp b v <-> u = v.
Proof. destruct b; cbn; split; intros; lra. Qed.

Definition ch_of (m : rounding_mode) (neg : bool) (t : Z) : bool :=
  let ch := match m with
    | nearest_to_even | nearest_to_even_static_boundary => fun t => negb (Z.even t)
    | nearest_to_odd | nearest_to_odd_static_boundary => Z.even
    | nearest_toward_plus_infinity | nearest_toward_plus_infinity_static_boundary => fun _ => true
    | nearest_toward_zero => fun t => (t <? 0)%Z
    | nearest_away_from_zero => fun t => (0 <=? t)%Z
    | _ => fun _ => false
    end in
  if neg then negb (ch (- (t + 1))%Z) else ch t.

Lemma side_nearest m neg z : is_nearest m = true -> side m neg z = Znearest (ch_of m neg) z.
Proof.
  intros H. destruct neg; unfold side, Zrnd_opp; destruct m; try discriminate H; cbn [reading]; try reflexivity;
    rewrite Znearest_opp, Z.opp_involutive; reflexivity.
Qed.

Lemma side_inward m neg z : rounds_inward m neg = true -> 0 < z -> side m neg z = Zfloor z.
Proof.
  intros H Hz. destruct neg; unfold side, Zrnd_opp; destruct m; try discriminate H; cbn [reading]; try reflexivity.
  - unfold Zceil. rewrite Z.opp_involutive, Ropp_involutive. reflexivity.
  - rewrite Ztrunc_opp, Z.opp_involutive. apply Ztrunc_floor. lra.
  - apply Ztrunc_floor. lra.
Qed.
Lemma side_outward m neg z : rounds_outward m neg = true -> 0 < z -> side m neg z = Zceil z.
Proof.
  intros H Hz. destruct neg; unfold side, Zrnd_opp; destruct m; try discriminate H; cbn [reading]; try reflexivity.
  - rewrite Zaway_opp, Z.opp_involutive. apply Zaway_ceil. lra.
  - apply Zaway_ceil. lra.
Qed.

Lemma quarter_bpow f e : quarter f e = bpow radix2 (e + exponent_bits f - 2).
Proof.
  unfold quarter. replace (IZR (unit f)) with (bpow radix2 (exponent_bits f - 2)) by (destruct f; reflexivity).
  rewrite <- bpow_plus. f_equal. ring.
Qed.

Lemma parity f x : (n_of f x mod 2 = x mod 2)%Z.
Proof.
  unfold n_of, frac. replace (2 ^ precision f)%Z with (2 ^ (precision f - 1) * 2)%Z by (destruct f; reflexivity).
  set (A := (2 ^ (precision f - 1))%Z). assert (0 < A)%Z by (unfold A; destruct f; reflexivity).
  assert (E : (x mod (A * 2) mod 2 = x mod 2)%Z).
  { rewrite (Z.mul_comm A 2), Z.rem_mul_r by lia. rewrite (Z.mul_comm 2 (_ mod _)), Z_mod_plus_full. apply Z.mod_mod. lia. }
  destruct (expo f x =? 0)%Z; [exact E|]. rewrite Z.add_comm, Z_mod_plus_full. exact E.
Qed.

Section Reads.
Variables (f : fmt) (m : rounding_mode) (x : Z).
Hypothesis Hin : input f x.
Local Notation neg := (is_negative f x).
Local Notation n := (n_of f x).
Local Notation e := (e_of f x).
Local Notation e0 := (e0_of f x).
Local Notation p := (delegate f m x).

Lemma spec_n : (0 < n < 2 ^ prec f)%Z.
Proof. destruct (input_facts f x Hin) as (_ & _ & _ & _ & H & _). destruct f; exact H. Qed.
Lemma spec_e0 : (emin f <= e0)%Z.
Proof.
  destruct (input_facts f x Hin) as (_ & _ & _ & H & _). unfold e0_of.
  assert (emin f = exp_min f + exponent_bits f)%Z by (destruct f; reflexivity). lia.
Qed.
Lemma spec_norm : (e0 = emin f \/ 2 ^ (prec f - 1) <= n)%Z.
Proof.
  destruct (input_facts f x Hin) as (_ & _ & _ & _ & _ & H). unfold e0_of.
  assert (emin f = exp_min f + exponent_bits f)%Z by (destruct f; reflexivity).
  assert (precision f = prec f - 1)%Z as E by (destruct f; reflexivity). rewrite E in H. destruct H; [left; lia | right; assumption].
Qed.
Lemma spec_prec : (1 < prec f)%Z. Proof. destruct f; reflexivity. Qed.
Lemma spec_edge : on_edge (emin f) (prec f) n e0 = is_edge f e n.
Proof.
  unfold on_edge, is_edge, e0_of. assert (emin f = exp_min f + exponent_bits f)%Z as -> by (destruct f; reflexivity).
  replace (prec f - 1)%Z with (precision f) by (destruct f; reflexivity). f_equal. f_equal.
  apply eq_iff_eq_true. rewrite !Z.eqb_eq. lia.
Qed.

Lemma magnitude : value f x = cond_Ropp neg (IZR n * bpow radix2 e0).
Proof. destruct Hin as (Hx & Hf & _). rewrite (value_fields f x Hf), sgn_negative by exact Hx. reflexivity. Qed.

Lemma two2 a : bpow radix2 a = 4 * bpow radix2 (a - 2).
Proof. replace a with (2 + (a - 2))%Z at 1 by ring. rewrite bpow_plus. reflexivity. Qed.
Lemma two1 a : bpow radix2 (a - 1) = 2 * bpow radix2 (a - 2).
Proof. replace (a - 1)%Z with (1 + (a - 2))%Z by ring. rewrite bpow_plus. reflexivity. Qed.

Lemma q_eq : quarter f e = bpow radix2 (e0 - 2).
Proof. apply quarter_bpow. Qed.

Lemma x_quarters : IZR n * bpow radix2 e0 = IZR (4 * n) * quarter f e.
Proof. rewrite q_eq, (two2 e0), mult_IZR. ring. Qed.

Lemma half_hi_eq : half_hi n e0 = IZR (hi_u to_nearest_tag n) * quarter f e.
Proof. unfold half_hi, hi_u. rewrite q_eq, two1. rewrite !plus_IZR, !mult_IZR. ring. Qed.
Lemma half_lo_eq : half_lo (emin f) (prec f) n e0 = IZR (lo_u f to_nearest_tag e n) * quarter f e.
Proof.
  unfold half_lo, lo_u, n1, e1. rewrite spec_edge, q_eq. destruct (is_edge f e n).
  - replace (e0 - 1 - 1)%Z with (e0 - 2)%Z by ring. f_equal. f_equal. ring.
  - rewrite two1. rewrite !minus_IZR, !mult_IZR. ring.
Qed.
Lemma up_eq : IZR (n + 1) * bpow radix2 e0 = IZR (hi_u left_closed_directed_tag n) * quarter f e.
Proof. unfold hi_u. rewrite q_eq, (two2 e0). rewrite !plus_IZR, !mult_IZR. ring. Qed.
Lemma dn_eq : IZR (n1 (emin f) (prec f) n e0 - 1) * bpow radix2 (e1 (emin f) (prec f) n e0)
  = IZR (lo_u f right_closed_directed_tag e n) * quarter f e.
Proof.
  unfold lo_u, n1, e1. rewrite spec_edge, q_eq. destruct (is_edge f e n).
  - rewrite two1. rewrite !minus_IZR, !mult_IZR. ring.
  - rewrite (two2 e0). rewrite !minus_IZR, !mult_IZR. ring.
Qed.

(** the end points of the nearest modes *)
Lemma even_n : Z.even n = (x mod 2 =? 0)%Z.
Proof. rewrite Zeven_mod. unfold Zeq_bool. rewrite <- Z.eqb_compare, parity. reflexivity. Qed.
Lemma even_n1 : Z.even (n1 (emin f) (prec f) n e0) = Z.even n.
Proof.
  unfold n1. destruct (on_edge (emin f) (prec f) n e0) eqn:E; [|reflexivity].
  apply edge_facts in E; try apply spec_prec; try apply spec_n; try apply spec_e0; try apply spec_norm. destruct E as [E _]. rewrite E, Z.even_mul.
  destruct f; reflexivity.
Qed.
Lemma n1_pos : (0 <= n1 (emin f) (prec f) n e0 - 1)%Z.
Proof. pose proof spec_n. unfold n1. destruct on_edge; lia. Qed.

Lemma ends : is_nearest m = true ->
  ch_of m neg (n1 (emin f) (prec f) n e0 - 1)%Z = include_left_endpoint (provider_call f p x) /\
  negb (ch_of m neg n) = include_right_endpoint (provider_call f p x).
Proof.
  intros H. pose proof even_n as En. pose proof even_n1 as En1. pose proof n1_pos as N1. pose proof spec_n as N.
  assert (Em : Z.even (n1 (emin f) (prec f) n e0 - 1) = negb (Z.even n)).
  { rewrite Z.sub_1_r, Z.even_pred, <- Z.negb_even, En1. reflexivity. }
  assert (Eo : forall t, Z.even (- (t + 1)) = negb (Z.even t)).
  { intros t. rewrite Z.even_opp, Z.add_1_r, Z.even_succ, <- Z.negb_even. reflexivity. }
  unfold ch_of. set (m1 := (n1 (emin f) (prec f) n e0 - 1)%Z) in *.
  assert (A1 : (m1 <? 0)%Z = false) by (apply Z.ltb_ge; lia).
  assert (A2 : (n <? 0)%Z = false) by (apply Z.ltb_ge; lia).
  assert (A3 : (0 <=? m1)%Z = true) by (apply Z.leb_le; lia).
  assert (A4 : (0 <=? n)%Z = true) by (apply Z.leb_le; lia).
  assert (A5 : (- (m1 + 1) <? 0)%Z = true) by (apply Z.ltb_lt; lia).
  assert (A6 : (- (n + 1) <? 0)%Z = true) by (apply Z.ltb_lt; lia).
  assert (A7 : (0 <=? - (m1 + 1))%Z = false) by (apply Z.leb_gt; lia).
  assert (A8 : (0 <=? - (n + 1))%Z = false) by (apply Z.leb_gt; lia).
  destruct m; try discriminate H; unfold delegate; destruct neg eqn:Ng; cbn [provider_call];
    try destruct (x mod 2 =? 0)%Z eqn:Q; cbn [provider_call include_left_endpoint include_right_endpoint];
    rewrite ?Ng, ?Eo, ?Em, ?En, ?Q, ?A1, ?A2, ?A3, ?A4, ?A5, ?A6, ?A7, ?A8; split; reflexivity.
Qed.

Lemma tag_nearest : is_nearest m = true -> provider_tag p = to_nearest_tag.
Proof. intros H. destruct m; try discriminate H; unfold delegate; try destruct (x mod 2 =? 0)%Z; try destruct neg; reflexivity. Qed.
Lemma inward_call : rounds_inward m neg = true -> p = p_left_closed_directed.
Proof. intros H. destruct m; try discriminate H; unfold delegate; cbn in H; try reflexivity; destruct neg; (reflexivity || discriminate). Qed.
Lemma outward_call : rounds_outward m neg = true -> p = p_right_closed_directed.
Proof. intros H. destruct m; try discriminate H; unfold delegate; cbn in H; try reflexivity; destruct neg; (reflexivity || discriminate). Qed.

Lemma mode_cases : is_nearest m = true \/ rounds_inward m neg = true \/ rounds_outward m neg = true.
Proof. destruct m, neg; cbn; auto. Qed.

Theorem reads_iff y : 0 < y ->
  (read f m (cond_Ropp neg y) = value f x <-> rin f (provider_tag p) (provider_call f p x) e n y).
Proof.
  intros Hy. rewrite magnitude, read_side, cond_Ropp_inj. unfold rin.
  destruct mode_cases as [H|[H|H]].
  - rewrite (nearest_iff (emin f) (prec f) spec_prec n e0 spec_n spec_e0 spec_norm (side m neg) (ch_of m neg) y) by
      (intros; try apply side_nearest; assumption).
    destruct (ends H) as [<- <-]. rewrite (tag_nearest H), half_lo_eq, half_hi_eq, negb_true_iff. tauto.
  - rewrite (floor_iff (emin f) (prec f) spec_prec n e0 spec_n spec_e0 spec_norm (side m neg) y) by
      (intros; try apply side_inward; assumption).
    rewrite (inward_call H). cbn [provider_tag provider_call include_left_endpoint include_right_endpoint].
    rewrite up_eq, x_quarters. unfold lo_u. replace (4 * n - 0)%Z with (4 * n)%Z by ring.
    split; [intros [A C]; split; [destruct A; auto | auto] | intros [A [C|[C _]]]; [|discriminate]; destruct A as [A|[_ A]]; lra].
  - rewrite (ceil_iff (emin f) (prec f) spec_prec n e0 spec_n spec_e0 spec_norm (side m neg) y) by
      (intros; try apply side_outward; assumption).
    rewrite (outward_call H). cbn [provider_tag provider_call include_left_endpoint include_right_endpoint].
    rewrite dn_eq, x_quarters. unfold hi_u. replace (4 * n + 0)%Z with (4 * n)%Z by ring.
    split; [intros [A C]; split; [auto | destruct C; auto] | intros [[A|[A _]] C]; [|discriminate]; destruct C as [C|[_ C]]; lra].
Qed.

Lemma reads_pos y : read f m (cond_Ropp neg y) = value f x -> 0 < y.
Proof.
  rewrite magnitude, read_side, cond_Ropp_inj. intros E.
  destruct (Rlt_le_dec 0 y) as [|H]; [assumption|]. exfalso.
  eapply (round_nonpos (emin f) (prec f) spec_prec n e0 spec_n (side m neg) y H). exact E.
Qed.
End Reads.
