(** * The result is the decimal std::to_chars is required to write *)

From Coq Require Import ZArith Reals List Bool Lia Lra.
From Flocq Require Import Core.
From Verif Require Import Machine Model Link CharsModel Spec TextSpec FormSpec UserSpec CppSpec Bridge ReadsBack Results Claims Main Shortest Chars Texts Outputs Users RandomModel RandomClaims Forms ShortText Unique.
Import ListNotations.
Open Scope Z_scope.

(** ** Lengths *)
Definition pad_length (q : Z) : Z := Z.max 2 (digits (Z.abs q)).
Lemma e_exponent_length q : text_length (e_exponent q) = 1 + pad_length q.
Proof.
  unfold e_exponent, pad_length. rewrite text_length_cons, text_length_app. destruct (Z.ltb_spec (Z.abs q) 10) as [L|L].
  - assert (D : text_length (integer_text (Z.abs q)) = 1 /\ digits (Z.abs q) <= 1).
    { assert (C : Z.abs q = 0 \/ Z.abs q = 1 \/ Z.abs q = 2 \/ Z.abs q = 3 \/ Z.abs q = 4 \/ Z.abs q = 5 \/ Z.abs q = 6 \/ Z.abs q = 7 \/ Z.abs q = 8 \/ Z.abs q = 9) by lia.
      repeat (destruct C as [->|C]; [split; [reflexivity | discriminate]|]). rewrite C. split; [reflexivity | discriminate]. }
    destruct D as [D1 D2]. rewrite D1. change (text_length [48]) with 1. lia.
  - rewrite (integer_text_length (Z.abs q)) by lia. change (text_length []) with 0.
    pose proof (digits_mono 10 (Z.abs q) ltac:(lia)) as D. change (digits 10) with 2 in D. lia.
Qed.
Lemma digits_opp s : digits (- s) = digits s.
Proof. apply Zdigits_opp. Qed.
Lemma e_length_signed neg s e : 0 < s -> e_length (cond_Zopp neg s) e =
  (if neg then 1 else 0) + digits s + (if 1 <? digits s then 1 else 0) + 2 + pad_length (e + digits s - 1).
Proof.
  intros Hs. unfold e_length, e_text. rewrite !text_length_app, text_length_cons, e_exponent_length, pointed_length.
  assert (A : Z.abs (cond_Zopp neg s) = s) by (destruct neg; cbn [cond_Zopp]; lia). rewrite A, (integer_text_length s Hs).
  assert (D : digits (cond_Zopp neg s) = digits s) by (destruct neg; [apply digits_opp | reflexivity]). rewrite D.
  destruct neg; cbn [cond_Zopp]; destruct (Z.ltb_spec (- s) 0), (Z.ltb_spec s 0); try lia; destruct (1 <? digits s); cbn [text_length length]; change (text_length [45]) with 1; change (text_length []) with 0; lia.
Qed.
Lemma pad_step q : pad_length q <= pad_length (q - 1) + 1.
Proof.
  unfold pad_length. destruct (Z_lt_le_dec q 1) as [L|L].
  - destruct (Z.eq_dec q 0) as [->|N]; [discriminate|]. rewrite !Z.abs_neq by lia. pose proof (digits_mono (- q) (- (q - 1)) ltac:(lia)). lia.
  - destruct (Z.eq_dec q 1) as [->|N]; [discriminate|]. rewrite !Z.abs_eq by lia.
    pose proof (digits_succ (q - 1) ltac:(lia)) as D. replace (q - 1 + 1) with q in D by ring. lia.
Qed.

(** ** Two decimals that read back *)
Open Scope R_scope.
Section Two.
Variables (f : fmt) (m : rounding_mode) (x : Z).
Hypothesis Hin : input f x.
Let neg := negative f x.
Let mag := Rabs (value f x).
Variables s e s' e' : Z.
Hypothesis Hs : (0 < s)%Z.
Hypothesis Hs' : (0 < s')%Z.
Hypothesis R : reads_back f m x (cond_Zopp neg s) e.
Hypothesis Short : forall a b, reads_back f m x a b -> (digits s <= digits a)%Z.
Hypothesis R' : reads_back f m x (cond_Zopp neg s') e'.
Let q := (e + digits s - 1)%Z.
Let q' := (e' + digits s' - 1)%Z.
Let cost a b := (digits a + (if 1 <? digits a then 1 else 0) + pad_length b)%Z.

Lemma fewest : (digits s <= digits s')%Z.
Proof. pose proof (Short _ _ R') as L. unfold digits in *. destruct neg; cbn [cond_Zopp] in L; [rewrite Zdigits_opp in L|]; exact L. Qed.
Lemma normal_cost : normal f x -> (cost s q <= cost s' q')%Z /\ (cost s q = cost s' q' -> digits s = digits s').
Proof using All.
  intros Hn. pose proof (close f m x Hin s e Hs Hn R) as C. pose proof (close f m x Hin s' e' Hs' Hn R') as C'. destruct (value_signed f x Hin) as [_ P].
  pose proof fewest as D. fold mag in C, C', P. unfold cost.
  pose proof (Shortest.digits_bounds s e Hs) as B. pose proof (Shortest.digits_bounds s' e' Hs') as B'.
  replace (digits s - 1 + e)%Z with q in B by (unfold q; ring). replace (digits s + e)%Z with (q + 1)%Z in B by (unfold q; ring).
  replace (digits s' - 1 + e')%Z with q' in B' by (unfold q'; ring). replace (digits s' + e')%Z with (q' + 1)%Z in B' by (unfold q'; ring).
  assert (Ra : read f m (cond_Ropp neg (decimal s e)) = value f x) by (rewrite <- decimal_signed; exact R).
  assert (Ra' : read f m (cond_Ropp neg (decimal s' e')) = value f x) by (rewrite <- decimal_signed; exact R').
  destruct (Z.eq_dec q' q) as [Eq|Nq]; [rewrite Eq; destruct (Z.ltb_spec 1 (digits s)), (Z.ltb_spec 1 (digits s')); lia|].
  assert (L1 : (q' < q)%Z \/ (q < q')%Z) by lia. destruct L1 as [L|L].
  - assert (Q : p10 (q' + 1) <= p10 q) by (apply bpow_le; lia).
    assert (Eq : (q' = q - 1)%Z).
    { destruct (Z.eq_dec q' (q - 1)) as [E|N]; [exact E|exfalso]. assert (Q' : p10 (q' + 1 + 1) <= p10 q) by (apply bpow_le; lia). rewrite (p10_succ (q' + 1)) in Q'. lra. }
    assert (D1 : digits s = 1%Z) by (eapply power_one with (f := f) (m := m) (x := x) (p := q); try eassumption; exists (decimal s' e'), (decimal s e); repeat split; try eassumption; lra).
    assert (D2 : digits s' <> 1%Z).
    { intros D2. pose proof (one_digit s e s' e' s' e' Hs' D2) as O. fold q' in O. lra. }
    pose proof (proj1 (Chars.digits_bounds s' Hs')). pose proof (pad_step q) as S. rewrite <- Eq in S. rewrite D1. change (1 <? 1)%Z with false.
    destruct (Z.ltb_spec 1 (digits s')); lia.
  - exfalso. assert (Q : p10 (q + 1) <= p10 q') by (apply bpow_le; lia).
    assert (D1 : digits s = 1%Z) by (eapply power_one with (f := f) (m := m) (x := x) (p := (q + 1)%Z); try eassumption; exists (decimal s e), (decimal s' e'); repeat split; try eassumption; lra).
    pose proof (one_digit s e s' e' s e Hs D1) as O. fold q in O. lra.
Qed.
Lemma subnormal_cost : ~ normal f x -> (sci_min f <= q <= sci_max f)%Z -> (cost s q <= cost s' q')%Z /\ (cost s q = cost s' q' -> digits s = digits s').
Proof using All.
  intros Hn Hq. pose proof fewest as D. unfold cost.
  assert (Low : forall a b, (0 < a)%Z -> reads_back f m x (cond_Zopp neg a) b -> (b + digits a - 1 < min_exponent10 f)%Z).
  { intros a b Pa Rab. destruct (Z_lt_le_dec (b + digits a - 1) (min_exponent10 f)) as [G|G]; [exact G|exfalso]. apply Hn. unfold normal. rewrite <- Rab. unfold read.
    pose proof (valid_reading m). pose proof (Users.valid_fexp f).
    apply (abs_round_ge_generic radix2 (FLT_exp (emin f) (prec f)) (reading m)); [apply normal_format|]. rewrite decimal_abs.
    replace (Z.abs (cond_Zopp neg a)) with a by (destruct neg; cbn [cond_Zopp]; lia). apply (decimal_above f (digits a)); [exact Pa | reflexivity | lia]. }
  pose proof (Low s e Hs R) as Lq. pose proof (Low s' e' Hs' R') as Lq'. fold q in Lq. fold q' in Lq'.
  assert (X : (pad_length q <= pad_length q')%Z).
  { unfold pad_length. destruct f; cbn [min_exponent10 sci_min sci_max] in *.
    - rewrite !Z.abs_neq by lia. pose proof (proj2 (Chars.digits_le (- q) 2 ltac:(lia) ltac:(lia)) ltac:(cbn; lia)). lia.
    - rewrite !Z.abs_neq by lia. pose proof (proj2 (Chars.digits_le (- q) 3 ltac:(lia) ltac:(lia)) ltac:(cbn; lia)).
      pose proof (digits_mono 307 (- q') ltac:(lia)). change (digits 307) with 3%Z in *. lia. }
  destruct (Z.ltb_spec 1 (digits s)), (Z.ltb_spec 1 (digits s')); lia.
Qed.
End Two.
Close Scope R_scope.

Lemma shape f m x s e : input f x -> reads_back f m x s e -> exists a, 0 < a /\ s = cond_Zopp (negative f x) a.
Proof.
  intros Hin Rd. exists (cond_Zopp (negative f x) s). split; [|symmetry; apply cond_Zopp_twice].
  apply (decimal_pos _ e), (I_pos f m x Hin). cbv beta. rewrite <- decimal_signed, cond_Zopp_twice. exact Rd.
Qed.

Lemma chosen cfg f rs m crs h x : input f x -> nearest_or_outward m (negative f x) = true -> crs <> do_not_care ->
  exists r, grisu_exact cfg f rs m crs h x = Ok r /\
  forall s e, to_chars_choice m crs f x s e <-> s = signed f x r /\ e = fp_exponent r.
Proof.
  intros Hin Hm Hc. assert (Mn : minimal m f x = true) by (unfold minimal; rewrite Hm; reflexivity).
  destruct (minimal_result cfg f rs m crs h x Hin Mn) as (r & E & [Ps Pm Pd Pe] & Sh).
  destruct (unique cfg f rs m crs h x Hin Hm Hc) as (r' & E' & U). assert (r' = r) by congruence. subst r'. clear E'.
  destruct (proj2 (U _ _) (conj eq_refl eq_refl)) as (_ & Cl & Ti).
  exists r. split; [exact E|]. destruct Sh as [RB Sh].
  set (s0 := fp_significand r) in *. set (e0 := fp_exponent r) in *.
  assert (Sg : signed f x r = cond_Zopp (negative f x) s0) by reflexivity. rewrite Sg in *.
  assert (D0 : digits (cond_Zopp (negative f x) s0) = digits s0) by (destruct (negative f x); [apply digits_opp | reflexivity]).
  assert (Sh' : forall a b, reads_back f m x a b -> digits s0 <= digits a) by (intros a b H; rewrite <- D0; exact (Sh a b H)).
  assert (K : forall s e, reads_back f m x s e -> e_length (cond_Zopp (negative f x) s0) e0 <= e_length s e /\
    (e_length s e = e_length (cond_Zopp (negative f x) s0) e0 -> digits s = digits s0)).
  { intros s e Rd. destruct (shape f m x s e Hin Rd) as (a & Pa & ->). rewrite !e_length_signed by assumption.
    assert (Da : digits (cond_Zopp (negative f x) a) = digits a) by (destruct (negative f x); [apply digits_opp | reflexivity]). rewrite Da.
    destruct (Rle_dec (bpow radix2 (emin f + prec f - 1)) (Rabs (value f x))) as [Y|Y].
    - pose proof (normal_cost f m x Hin s0 e0 a e Ps Pa RB Sh' Rd Y). cbv beta zeta in H. split; [|intros Q; symmetry; apply (proj2 H)]; lia.
    - pose proof (subnormal_cost f m x Hin s0 e0 a e Ps Pa RB Sh' Rd Y Pe). cbv beta zeta in H. split; [|intros Q; symmetry; apply (proj2 H)]; lia. }
  intros s e. split.
  - intros (Rd & Ch). destruct (Ch _ _ RB) as [L1 Ch1]. destruct (K _ _ Rd) as [L2 K1].
    assert (Le : e_length s e = e_length (cond_Zopp (negative f x) s0) e0) by lia.
    pose proof (K1 Le) as Dg. destruct (Ch1 (eq_sym Le)) as [Er1 Ti1].
    assert (Er : error f x s e = error f x (cond_Zopp (negative f x) s0) e0).
    { apply Rle_antisym; [exact Er1 | apply Cl; [exact Rd | lia]]. }
    apply (determined_pair f m x Hin crs); try assumption.
    + split; [exact Rd|]. intros a b H. rewrite Dg. apply (Sh' a b H).
    + intros a b H Dl. rewrite Er. apply Cl; [exact H | lia].
    + intros N. apply Ti1; [symmetry; exact Er | exact N].
    + split; assumption.
    + intros N. apply Ti; [exact Rd | lia | exact Er | exact N].
  - intros [-> ->]. split; [exact RB|]. intros s e Rd. destruct (K _ _ Rd) as [L K1]. split; [exact L|].
    intros Q. pose proof (K1 Q) as Dg. split; [apply Cl; [exact Rd | lia]|]. intros Er N. apply Ti; [exact Rd | lia | exact Er | exact N].
Qed.
Lemma standard_chosen cfg f rs h x : input f x ->
  exists r, grisu_exact cfg f rs nearest_to_even tie_to_even h x = Ok r /\
  forall s e, to_chars_choice nearest_to_even tie_to_even f x s e <-> s = signed f x r /\ e = fp_exponent r.
Proof. intros Hin. apply chosen; [exact Hin | reflexivity | discriminate]. Qed.
