(** * The printed text is the shortest one *)

From Coq Require Import ZArith Reals List Bool Lia Lra.
From Flocq Require Import Core.
From Verif Require Import Machine Model Link CharsModel Spec TextSpec FormSpec UserSpec Bridge ReadsBack Results Claims Main Shortest Chars Texts Outputs Users RandomModel RandomClaims Forms.
Import ListNotations.
Open Scope Z_scope.

(** ** Lengths *)
Lemma digits_mono a b : 0 < a <= b -> digits a <= digits b.
Proof. intros H. destruct (Chars.digits_bounds b ltac:(lia)) as [A B]. apply Chars.digits_le; lia. Qed.
Lemma digits_succ a : 0 < a -> digits (a + 1) <= digits a + 1.
Proof.
  intros H. destruct (Chars.digits_bounds a H) as [A B]. apply Chars.digits_le; try lia. rewrite Z.pow_add_r by lia.
  assert (1 <= 10 ^ digits a) by lia. lia.
Qed.
Lemma sci_length neg s e : 0 < s -> text_length (scientific neg s e) =
  (if neg then 1 else 0) + digits s + (if 1 <? digits s then 1 else 0) + 1 + text_length (exponent_text (e + digits s - 1)).
Proof.
  intros Hs. rewrite scientific_minus, text_length_app, minus_length.
  change (scientific false s e) with (pointed (integer_text s) ++ 69 :: exponent_text (e + digits s - 1)).
  rewrite text_length_app, text_length_cons, pointed_length, (integer_text_length s Hs). destruct (1 <? digits s); lia.
Qed.
Lemma integer_length z : 0 <= z -> text_length (integer_text z) = if z =? 0 then 1 else digits z.
Proof. intros H. destruct (Z.eqb_spec z 0) as [->|N]; [reflexivity | apply integer_text_length; lia]. Qed.
Lemma exponent_length q : text_length (exponent_text q) = (if q <? 0 then 1 else 0) + (if q =? 0 then 1 else digits (Z.abs q)).
Proof.
  unfold exponent_text. destruct (Z.ltb_spec q 0).
  - rewrite text_length_cons, integer_length by lia. rewrite Z.abs_neq by lia. replace (- q =? 0) with (q =? 0) by (destruct (Z.eqb_spec q 0), (Z.eqb_spec (- q) 0); lia). lia.
  - rewrite integer_length by lia. rewrite Z.abs_eq by lia. lia.
Qed.
Lemma exponent_step q : text_length (exponent_text q) <= text_length (exponent_text (q - 1)) + 2.
Proof.
  rewrite !exponent_length. destruct (Z.eqb_spec q 0) as [->|N]; [discriminate|]. destruct (Z.eqb_spec (q - 1) 0) as [E|N'].
  { replace q with 1 by lia. discriminate. }
  destruct (Z.ltb_spec q 0), (Z.ltb_spec (q - 1) 0); try lia.
  - rewrite !Z.abs_neq by lia. pose proof (digits_mono (- q) (- (q - 1)) ltac:(lia)). lia.
  - rewrite !Z.abs_eq by lia. pose proof (digits_succ (q - 1) ltac:(lia)) as D. replace (q - 1 + 1) with q in D by ring. lia.
Qed.

(** ** The decimals that read back *)
Open Scope R_scope.
Section Input.
Variables (f : fmt) (m : rounding_mode) (x : Z).
Hypothesis Hin : input f x.
Let neg := negative f x.
Let mag := Rabs (value f x).

Lemma round_mono a b : a <= b -> read f m a <= read f m b.
Proof. pose proof (valid_reading m). pose proof (Users.valid_fexp f). apply round_le; assumption. Qed.
Lemma read_zero : read f m 0 = 0.
Proof. pose proof (valid_reading m). apply round_0, H. Qed.
Lemma value_signed : value f x = cond_Ropp neg mag /\ 0 < mag.
Proof.
  assert (P : 0 < mag) by (apply Rabs_pos_lt, Hin). split; [|exact P]. unfold mag in *. pose proof (magnitude f x Hin) as M. fold neg in M.
  set (w := IZR (n_of f x) * bpow radix2 (e0_of f x)) in *.
  assert (W : 0 <= w) by (apply Rmult_le_pos; [apply IZR_le, Z.lt_le_incl, (input_facts f x Hin) | apply bpow_ge_0]).
  unfold neg in *. rewrite M. clear P. rewrite (Results.neg_ok f x Hin). destruct (Model.is_negative f x); cbn [cond_Ropp]; [rewrite Rabs_Ropp|]; rewrite Rabs_pos_eq by exact W; reflexivity.
Qed.
Lemma same_sign neg' a : 0 < a -> read f m (cond_Ropp neg' a) = value f x -> neg' = neg.
Proof.
  intros P R. destruct value_signed as [V Q]. rewrite V in R. pose proof read_zero as Z0.
  destruct neg', neg; cbn [cond_Ropp] in R; try reflexivity; exfalso.
  - pose proof (round_mono (- a) 0 ltac:(lra)). lra.
  - pose proof (round_mono 0 a ltac:(lra)). lra.
Qed.
Lemma between a b c : a <= b <= c -> read f m (cond_Ropp neg a) = value f x -> read f m (cond_Ropp neg c) = value f x -> read f m (cond_Ropp neg b) = value f x.
Proof.
  intros [L1 L2] Ra Rc. destruct neg; cbn [cond_Ropp] in *;
    [pose proof (round_mono (- c) (- b) ltac:(lra)); pose proof (round_mono (- b) (- a) ltac:(lra))
    |pose proof (round_mono a b L1); pose proof (round_mono b c L2)]; lra.
Qed.
Lemma power_digits q : decimal 1 q = p10 q /\ digits 1 = 1%Z.
Proof. split; [rewrite decimal_eq; ring | reflexivity]. Qed.
Lemma close s e : (0 < s)%Z -> normal f x -> reads_back f m x (cond_Zopp neg s) e -> mag * (999 / 1000) < decimal s e < mag * (1001 / 1000).
Proof.
  intros Hs Hn R. pose proof (directed_error f m x Hin _ _ R) as E. unfold error in E. rewrite decimal_signed in E.
  destruct value_signed as [V P].
  assert (S : spacing f x <= mag * / 1000).
  { unfold spacing. assert (Hp : Prec_gt_0 (prec f)) by (destruct f; reflexivity).
    eapply Rle_trans; [apply (ulp_FLT_le radix2 (emin f) (prec f)); destruct f; exact Hn|]. fold mag. apply Rmult_le_compat_l; [lra|].
    apply Rle_trans with (bpow radix2 (-23)); [apply bpow_le; destruct f; discriminate|].
    change (bpow radix2 (-23)) with (/ IZR (2 ^ 23)). apply Rinv_le; [lra | apply IZR_le; discriminate]. }
  rewrite V in E. assert (A : Rabs (decimal s e - mag) < mag * / 1000).
  { eapply Rlt_le_trans; [|exact S]. destruct neg; cbn [cond_Ropp] in E; [|exact E]. rewrite Rabs_minus_sym in E.
    replace (- mag - - decimal s e) with (decimal s e - mag) in E by ring. exact E. }
  apply Rabs_def2 in A. lra.
Qed.

Section Two.
Variables s e s' e' : Z.
Hypothesis Hs : (0 < s)%Z.
Hypothesis Hs' : (0 < s')%Z.
Hypothesis R : reads_back f m x (cond_Zopp neg s) e.
Hypothesis Short : forall a b, reads_back f m x a b -> (digits s <= digits a)%Z.
Hypothesis R' : reads_back f m x (cond_Zopp neg s') e'.
Let q := (e + digits s - 1)%Z.
Let q' := (e' + digits s' - 1)%Z.

Lemma one_digit a b : (0 < a)%Z -> digits a = 1%Z -> decimal a b <= 9 / 10 * p10 (b + digits a - 1 + 1).
Proof.
  intros P D. destruct (Chars.digits_bounds a P) as [_ B]. rewrite D in *. replace (b + 1 - 1 + 1)%Z with (b + 1)%Z by ring. rewrite p10_succ, decimal_eq.
  pose proof (bpow_gt_0 radix10 b). replace (9 / 10 * (10 * p10 b)) with (9 * p10 b) by field. apply Rmult_le_compat_r; [lra|]. apply IZR_le. change (10 ^ 1)%Z with 10%Z in B. lia.
Qed.
Lemma power_one p : (exists a c, a <= p10 p <= c /\ read f m (cond_Ropp neg a) = value f x /\ read f m (cond_Ropp neg c) = value f x) -> digits s = 1%Z.
Proof.
  intros (a & c & B & Ra & Rc). pose proof (between a (p10 p) c B Ra Rc) as Rb. destruct (power_digits p) as [Ep Dp]. rewrite <- Ep, <- decimal_signed in Rb.
  pose proof (Short _ _ Rb) as L. assert (D : digits (cond_Zopp neg 1) = 1%Z) by (destruct neg; reflexivity). rewrite D in L.
  pose proof (proj1 (Chars.digits_bounds s Hs)). lia.
Qed.
Lemma normal_case : normal f x -> (digits s + (if 1 <? digits s then 1 else 0) + text_length (exponent_text q) <=
  digits s' + (if 1 <? digits s' then 1 else 0) + text_length (exponent_text q'))%Z.
Proof using All.
  intros Hn. pose proof (close s e Hs Hn R) as C. pose proof (close s' e' Hs' Hn R') as C'. destruct value_signed as [_ P].
  assert (D : (digits s <= digits s')%Z).
  { pose proof (Short _ _ R') as L. unfold digits in *. destruct neg; cbn [cond_Zopp] in L; [rewrite Zdigits_opp in L|]; exact L. }
  pose proof (Shortest.digits_bounds s e Hs) as B. pose proof (Shortest.digits_bounds s' e' Hs') as B'.
  replace (digits s - 1 + e)%Z with q in B by (unfold q; ring). replace (digits s + e)%Z with (q + 1)%Z in B by (unfold q; ring).
  replace (digits s' - 1 + e')%Z with q' in B' by (unfold q'; ring). replace (digits s' + e')%Z with (q' + 1)%Z in B' by (unfold q'; ring).
  assert (Ra : read f m (cond_Ropp neg (decimal s e)) = value f x) by (rewrite <- decimal_signed; exact R).
  assert (Ra' : read f m (cond_Ropp neg (decimal s' e')) = value f x) by (rewrite <- decimal_signed; exact R').
  destruct (Z.eq_dec q' q) as [Eq|Nq]; [rewrite Eq; destruct (Z.ltb_spec 1 (digits s)), (Z.ltb_spec 1 (digits s')); lia|].
  assert (L1 : (q' < q)%Z \/ (q < q')%Z) by lia. destruct L1 as [L|L].
  - assert (Q : p10 (q' + 1) <= p10 q) by (apply bpow_le; lia).
    assert (Eq : (q' = q - 1)%Z).
    { destruct (Z.eq_dec q' (q - 1)) as [E|N]; [exact E|exfalso]. assert (Q' : p10 (q' + 1 + 1) <= p10 q) by (apply bpow_le; lia). rewrite (p10_succ (q' + 1)) in Q'. lra. }
    assert (D1 : digits s = 1%Z) by (apply (power_one q); exists (decimal s' e'), (decimal s e); repeat split; try assumption; lra).
    assert (D2 : digits s' <> 1%Z).
    { intros D2. pose proof (one_digit s' e' Hs' D2) as O. fold q' in O. lra. }
    pose proof (proj1 (Chars.digits_bounds s' Hs')). pose proof (exponent_step q) as S. rewrite <- Eq in S. rewrite D1. change (1 <? 1)%Z with false.
    destruct (Z.ltb_spec 1 (digits s')); lia.
  - exfalso. assert (Q : p10 (q + 1) <= p10 q') by (apply bpow_le; lia).
    assert (D1 : digits s = 1%Z) by (apply (power_one (q + 1)); exists (decimal s e), (decimal s' e'); repeat split; try assumption; lra).
    pose proof (one_digit s e Hs D1) as O. fold q in O. lra.
Qed.
Lemma subnormal_case : ~ normal f x -> (sci_min f <= q <= sci_max f)%Z -> (digits s + (if 1 <? digits s then 1 else 0) + text_length (exponent_text q) <=
  digits s' + (if 1 <? digits s' then 1 else 0) + text_length (exponent_text q'))%Z.
Proof using All.
  intros Hn Hq.
  assert (D : (digits s <= digits s')%Z).
  { pose proof (Short _ _ R') as L. unfold digits in *. destruct neg; cbn [cond_Zopp] in L; [rewrite Zdigits_opp in L|]; exact L. }
  assert (Low : forall a b, (0 < a)%Z -> reads_back f m x (cond_Zopp neg a) b -> (b + digits a - 1 < min_exponent10 f)%Z).
  { intros a b Pa Rab. destruct (Z_lt_le_dec (b + digits a - 1) (min_exponent10 f)) as [G|G]; [exact G|exfalso]. apply Hn. unfold normal. rewrite <- Rab. unfold read.
    pose proof (valid_reading m). pose proof (Users.valid_fexp f).
    apply (abs_round_ge_generic radix2 (FLT_exp (emin f) (prec f)) (reading m)); [apply normal_format|]. rewrite decimal_abs.
    replace (Z.abs (cond_Zopp neg a)) with a by (destruct neg; cbn [cond_Zopp]; lia). apply (decimal_above f (digits a)); [exact Pa | reflexivity | lia]. }
  pose proof (Low s e Hs R) as Lq. pose proof (Low s' e' Hs' R') as Lq'. fold q in Lq. fold q' in Lq'.
  assert (X : (text_length (exponent_text q) <= text_length (exponent_text q'))%Z).
  { rewrite !exponent_length. destruct f; cbn [min_exponent10 sci_min sci_max] in *.
    - destruct (Z.ltb_spec q 0); [|lia]. destruct (Z.ltb_spec q' 0); [|lia]. destruct (Z.eqb_spec q 0); [lia|]. destruct (Z.eqb_spec q' 0); [lia|].
      rewrite !Z.abs_neq by lia. pose proof (proj2 (Chars.digits_le (- q) 2 ltac:(lia) ltac:(lia)) ltac:(cbn; lia)).
      pose proof (digits_mono 37 (- q') ltac:(lia)). change (digits 37) with 2%Z in *. lia.
    - destruct (Z.ltb_spec q 0); [|lia]. destruct (Z.ltb_spec q' 0); [|lia]. destruct (Z.eqb_spec q 0); [lia|]. destruct (Z.eqb_spec q' 0); [lia|].
      rewrite !Z.abs_neq by lia. pose proof (proj2 (Chars.digits_le (- q) 3 ltac:(lia) ltac:(lia)) ltac:(cbn; lia)).
      pose proof (digits_mono 307 (- q') ltac:(lia)). change (digits 307) with 3%Z in *. lia. }
  destruct (Z.ltb_spec 1 (digits s)), (Z.ltb_spec 1 (digits s')); lia.
Qed.
End Two.
End Input.
Close Scope R_scope.

Lemma shortest_text cfg f m crs x : input f x -> minimal m f x = true ->
  exists t,
    (forall b, text_length t <= capacity b -> exists b', fp_to_chars_n cfg f m crs x b = Ok (b', text_length t) /\ written b 0 t b') /\
    (forall b, text_length t + 1 <= capacity b -> exists b', fp_to_chars cfg f m crs x b = Ok (b', text_length t) /\ written b 0 (t ++ [0]) b') /\
    in_form t /\ (exists v, stands_for t v /\ read f m v = value f x) /\
    forall t' v, in_form t' -> stands_for t' v -> read f m v = value f x -> text_length t <= text_length t'.
Proof.
  intros Hin Hm. destruct (minimal_result cfg f false m crs assert_finite x Hin Hm) as (r & E & [Ps Pm Pd Pe] & [RB Sh]).
  assert (Hr : returns m f x = true).
  { revert Hm. unfold minimal, returns. destruct (nearest_or_outward m (negative f x)), (halts f x), (lengthened f x); auto. }
  destruct (printed cfg f m crs x Hin Hr) as (r' & t & E' & F & S & W1 & W2). assert (r' = r) by congruence. subst r'.
  exists t. split; [exact W1|]. split; [exact W2|]. split; [exact F|]. split; [exists (decimal (signed f x r) (fp_exponent r)); split; assumption|].
  intros t' v F' S' Rv.
  assert (Et : t = scientific (negative f x) (fp_significand r) (fp_exponent r)).
  { apply (one_text _ _ _ F (scientific_form _ _ _ Ps Pm) S). exists (negative f x), (fp_significand r), (fp_exponent r). split; [apply read_scientific, Ps | reflexivity]. }
  destruct (form_scientific t' F') as (neg' & s' & e' & Et' & P' & M'). destruct S' as (n0 & s0 & e0 & Q & V).
  rewrite Et', read_scientific in Q by exact P'. injection Q as <- <- <-. rewrite <- V in Rv.
  assert (N : neg' = negative f x).
  { apply (same_sign f m x Hin neg' (decimal s' e')); [apply decimal_positive, P' | rewrite <- decimal_signed; exact Rv]. }
  subst neg'. rewrite Et, Et', !sci_length by assumption.
  assert (Sh' : forall a b, reads_back f m x a b -> digits (fp_significand r) <= digits a).
  { intros a b H. pose proof (Sh a b H) as L. unfold signed, digits in *. destruct (negative f x); cbn [cond_Zopp] in L; [rewrite Zdigits_opp in L|]; exact L. }
  assert (G : digits (fp_significand r) + (if 1 <? digits (fp_significand r) then 1 else 0) + text_length (exponent_text (fp_exponent r + digits (fp_significand r) - 1)) <=
    digits s' + (if 1 <? digits s' then 1 else 0) + text_length (exponent_text (e' + digits s' - 1))).
  { destruct (Rle_dec (bpow radix2 (emin f + prec f - 1)) (Rabs (value f x))) as [Y|Y].
    - apply (normal_case f m x Hin); assumption.
    - apply (subnormal_case f m x); assumption. }
  lia.
Qed.
