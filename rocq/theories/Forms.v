(** * The form of the printed texts: proofs *)

From Coq Require Import ZArith Reals List Bool Lia Lra.
From Flocq Require Import Core.
From Verif Require Import Machine Tables Model CharsModel Link Spec Reading Bridge Results Signs Claims TextSpec Chars Texts UserSpec Shortest RyuDecimal Outputs Users RandomModel ProgramSpec RandomClaims Reader FormSpec.
Import ListNotations.
Open Scope Z_scope.

Lemma digit_is c : decimal_digit c -> is_digit c = true.
Proof. unfold decimal_digit, is_digit. intros H. apply andb_true_iff. rewrite !Z.leb_le. lia. Qed.
Lemma is_decimal c : is_digit c = true -> decimal_digit c.
Proof. unfold decimal_digit, is_digit. intros H. apply andb_prop in H. rewrite !Z.leb_le in H. lia. Qed.
Lemma all_decimal t : all_digits t = true -> Forall decimal_digit t.
Proof. induction t as [|c t IH]; [constructor|]. cbn [all_digits]. intros H. apply andb_prop in H. constructor; [apply is_decimal, H | apply IH, H]. Qed.

Lemma continue_last_one t c : continue 0 (t ++ [c]) = 10 * continue 0 t + (c - 48).
Proof. rewrite continue_app. reflexivity. Qed.
Lemma continue_range t : Forall decimal_digit t -> 0 <= continue 0 t < 10 ^ text_length t.
Proof.
  induction t as [|c t IH] using rev_ind; [cbn; lia|]. intros H. apply Forall_app in H. destruct H as [H1 H2]. inversion H2 as [|? ? D _]; subst.
  specialize (IH H1). rewrite continue_last_one. unfold text_length in *. rewrite app_length, Nat2Z.inj_add. cbn [length].
  change (Z.of_nat 1) with 1. rewrite Z.pow_add_r by lia. unfold decimal_digit in D. lia.
Qed.
Lemma last_continue t : Forall decimal_digit t -> last_digits (length t) (continue 0 t) = t.
Proof.
  induction t as [|c t IH] using rev_ind; [reflexivity|]. intros H. apply Forall_app in H. destruct H as [H1 H2]. inversion H2 as [|? ? D _]; subst.
  rewrite continue_last_one, app_length, Nat.add_comm. cbn [length Nat.add last_digits]. unfold decimal_digit in D.
  replace ((10 * continue 0 t + (c - 48)) / 10) with (continue 0 t) by (apply (Z.div_unique _ 10 _ (c - 48)); lia).
  replace ((10 * continue 0 t + (c - 48)) mod 10) with (c - 48) by (apply (Z.mod_unique _ 10 (continue 0 t)); lia).
  rewrite (IH H1). do 2 f_equal. lia.
Qed.
Lemma continue_lower c t : decimal_digit c -> c <> 48 -> Forall decimal_digit t -> 10 ^ text_length t <= continue 0 (c :: t).
Proof.
  intros Hc N. induction t as [|d t IH] using rev_ind; intros H.
  - cbn. unfold decimal_digit in Hc. lia.
  - apply Forall_app in H. destruct H as [H1 H2]. inversion H2 as [|? ? D _]; subst. specialize (IH H1).
    rewrite app_comm_cons, continue_last_one. unfold text_length in *. rewrite app_length, Nat2Z.inj_add. cbn [length].
    change (Z.of_nat 1) with 1. rewrite Z.pow_add_r by lia. unfold decimal_digit in D. lia.
Qed.
Lemma numeral_first c t : decimal_digit c -> c <> 48 -> Forall decimal_digit t ->
  integer_text (continue 0 (c :: t)) = c :: t /\ 0 < continue 0 (c :: t) /\ digits (continue 0 (c :: t)) = 1 + text_length t.
Proof.
  intros Hc N Ht. pose proof (continue_lower c t Hc N Ht) as L. pose proof (continue_range (c :: t) ltac:(constructor; assumption)) as U.
  pose proof (text_length_nonneg t). pose proof (pow10_pos (text_length t) ltac:(lia)). rewrite text_length_cons in U.
  assert (D : digits (continue 0 (c :: t)) = 1 + text_length t).
  { apply digits_unique; [lia|]. replace (1 + text_length t - 1) with (text_length t) by lia. split; [exact L|]. rewrite (Z.add_comm 1). lia. }
  split; [|split; [lia | exact D]]. unfold integer_text. destruct (Z.eqb_spec (continue 0 (c :: t)) 0); [lia|]. rewrite D.
  replace (Z.to_nat (1 + text_length t)) with (length (c :: t)) by (unfold text_length; cbn [length]; lia).
  apply last_continue. constructor; assumption.
Qed.
Lemma numeral_text t : numeral t -> t = integer_text (continue 0 t) /\ 0 <= continue 0 t /\ (t <> [48] -> 0 < continue 0 t).
Proof.
  intros (N & F & Z). destruct t as [|c t]; [contradiction|]. cbn [hd] in Z. inversion F as [|? ? Hc Ht]; subst.
  destruct (Z.eq_dec c 48) as [->|E].
  - rewrite (Z eq_refl). split; [reflexivity|]. split; [cbn; lia|]. intros H. contradiction.
  - destruct (numeral_first c t Hc E Ht) as (I & P & _). rewrite I. split; [reflexivity|]. split; [lia | intros _; exact P].
Qed.

(** ** The form is the scientific notation of a number not divisible by ten *)
Lemma form_scientific t : in_form t -> exists neg s e, t = scientific neg s e /\ 0 < s /\ s mod 10 <> 0.
Proof.
  intros (neg & c & more & minus & exponent & -> & Hc & N & Hm & Hl & He & Z). destruct (numeral_first c more Hc N Hm) as (I & P & D).
  destruct (numeral_text exponent He) as (Ie & Pe & Pe').
  exists neg, (continue 0 (c :: more)), ((if minus then - continue 0 exponent else continue 0 exponent) - text_length more).
  split; [|split; [exact P|]].
  - unfold scientific. rewrite I, D. cbv zeta. f_equal.
    replace (pointed (c :: more)) with (c :: match more with [] => [] | _ => 46 :: more end) by (destruct more; reflexivity).
    cbn [app]. f_equal. f_equal. f_equal.
    replace ((if minus then - continue 0 exponent else continue 0 exponent) - text_length more + (1 + text_length more) - 1)
      with (if minus then - continue 0 exponent else continue 0 exponent) by (destruct minus; lia).
    destruct minus.
    + specialize (Pe' (Z eq_refl)). destruct (Z.ltb_spec (- continue 0 exponent) 0); [|lia]. rewrite Z.opp_involutive, <- Ie. reflexivity.
    + destruct (Z.ltb_spec (continue 0 exponent) 0); [lia|]. exact Ie.
  - destruct more as [|d more] using rev_ind.
    + cbn [continue]. unfold decimal_digit in Hc. rewrite Z.mod_small by lia. lia.
    + rewrite last_last in Hl. rewrite app_comm_cons, continue_last_one. apply Forall_app in Hm. destruct Hm as [_ Hd]. inversion Hd as [|? ? D' _]; subst.
      unfold decimal_digit in D'. rewrite Z.add_comm, Z.mul_comm, Z_mod_plus_full, Z.mod_small by lia. lia.
Qed.
Lemma numeral_integer z : 0 <= z -> numeral (integer_text z).
Proof.
  intros H. destruct (Z.eq_dec z 0) as [->|N].
  - split; [discriminate|]. split; [repeat constructor; unfold decimal_digit; lia | intros _; reflexivity].
  - destruct (integer_text_nonempty z H) as (c & t & E & _). split; [rewrite E; discriminate|].
    pose proof (all_decimal _ (integer_text_all z)) as A. split; [exact A|]. rewrite E. cbn [hd]. intros ->. exfalso.
    pose proof (integer_text_value z H) as V. pose proof (integer_text_length z ltac:(lia)) as L. rewrite E in A, V, L. change (continue 0 (48 :: t)) with (continue 0 t) in V.
    pose proof (continue_range t (Forall_inv_tail A)) as U. rewrite text_length_cons in L.
    rewrite V in U. destruct (Chars.digits_bounds z ltac:(lia)) as [_ B].
    rewrite <- L in B. replace (text_length t + 1 - 1) with (text_length t) in B by lia. lia.
Qed.
Lemma scientific_form neg s e : 0 < s -> s mod 10 <> 0 -> in_form (scientific neg s e).
Proof.
  intros P M. destruct (integer_text_nonempty s ltac:(lia)) as (c & more & E & Hc).
  pose proof (all_decimal _ (integer_text_all s)) as A. pose proof (numeral_integer s ltac:(lia)) as (_ & _ & Nz). pose proof (integer_text_value s ltac:(lia)) as V.
  rewrite E in A, Nz, V. cbn [hd] in Nz. inversion A as [|? ? _ Am]; subst.
  set (x := e + digits (continue 0 (c :: more)) - 1). exists neg, c, more, (x <? 0), (integer_text (Z.abs x)).
  split; [|split; [apply is_decimal, Hc|split; [|split; [exact Am|split; [|split]]]]].
  - unfold scientific. fold x. rewrite E. cbv zeta. f_equal.
    replace (pointed (c :: more)) with (c :: match more with [] => [] | _ => 46 :: more end) by (destruct more; reflexivity).
    cbn [app]. f_equal. f_equal. f_equal. destruct (Z.ltb_spec x 0); [rewrite Z.abs_neq by lia | rewrite Z.abs_eq by lia]; reflexivity.
  - intros ->. specialize (Nz eq_refl). injection Nz as ->. cbn in P. lia.
  - destruct more as [|d more] using rev_ind; [discriminate|]. rewrite last_last. intros ->. apply M. rewrite app_comm_cons, continue_last_one.
    replace (10 * continue 0 (c :: more) + (48 - 48)) with (continue 0 (c :: more) * 10) by ring. apply Z.mod_mul. discriminate.
  - apply numeral_integer. lia.
  - intros X Y. apply Z.ltb_lt in X. pose proof (integer_text_value (Z.abs x) ltac:(lia)) as W. rewrite Y in W. cbn in W. lia.
Qed.

(** ** One text for a number *)
Lemma decimal_unique s e s' e' : 0 < s -> s mod 10 <> 0 -> 0 < s' -> s' mod 10 <> 0 -> decimal s e = decimal s' e' -> s = s' /\ e = e'.
Proof.
  assert (G : forall s e s' e', s mod 10 <> 0 -> e <= e' -> decimal s e = decimal s' e' -> s = s' /\ e = e').
  { clear. intros s e s' e' M L E. replace e' with (e + (e' - e)) in E by ring. rewrite <- decimal_shift in E by lia. apply decimal_inj in E.
    destruct (Z.eq_dec e e') as [->|N]; [rewrite Z.sub_diag, Z.mul_1_r in E; auto|]. exfalso. apply M. rewrite E.
    replace (e' - e) with (e' - e - 1 + 1) by ring. rewrite Z.pow_add_r, Z.mul_assoc by lia. apply Z.mod_mul. discriminate. }
  intros P M P' M' E. destruct (Z.le_ge_cases e e') as [L|L].
  - apply (G s e s' e' M L E).
  - destruct (G s' e' s e M' L (eq_sym E)) as [-> ->]. split; reflexivity.
Qed.
Lemma decimal_positive s e : 0 < s -> (0 < decimal s e)%R.
Proof. intros H. apply F2R_gt_0. exact H. Qed.
Lemma one_text t t' v : in_form t -> in_form t' -> stands_for t v -> stands_for t' v -> t = t'.
Proof.
  intros F F' (neg0 & s0 & e0 & R & V) (neg0' & s0' & e0' & R' & V').
  destruct (form_scientific t F) as (neg & s & e & -> & P & M). destruct (form_scientific t' F') as (neg' & s' & e' & -> & P' & M').
  rewrite read_scientific in R by exact P. rewrite read_scientific in R' by exact P'. injection R as <- <- <-. injection R' as <- <- <-.
  rewrite <- V' in V. rewrite !Main.decimal_signed in V. pose proof (decimal_positive s e P). pose proof (decimal_positive s' e' P').
  assert (N : neg = neg') by (destruct neg, neg'; cbn [cond_Ropp] in V; try reflexivity; lra). subst neg'.
  assert (E : decimal s e = decimal s' e') by (destruct neg; cbn [cond_Ropp] in V; lra).
  destruct (decimal_unique s e s' e' P M P' M' E) as [-> ->]. reflexivity.
Qed.

(** ** What is printed *)
Lemma printed cfg f m crs x : input f x -> returns m f x = true -> exists r t, grisu_exact cfg f false m crs assert_finite x = Ok r /\
  in_form t /\ stands_for t (decimal (signed f x r) (fp_exponent r)) /\
  (forall b, text_length t <= capacity b -> exists b', fp_to_chars_n cfg f m crs x b = Ok (b', text_length t) /\ written b 0 t b') /\
  (forall b, text_length t + 1 <= capacity b -> exists b', fp_to_chars cfg f m crs x b = Ok (b', text_length t) /\ written b 0 (t ++ [0]) b').
Proof.
  intros Hin Hr. destruct (text_ok cfg f m crs x (proj1 Hin) (fun _ => Hr)) as (t & _ & W1 & W2 & T & _). destruct (T Hin) as (r & E & Et).
  destruct (all_ranges cfg f false m crs assert_finite x Hin Hr) as (r1 & E1 & P & _). destruct (all_trimmed cfg f false m crs assert_finite x Hin Hr) as (r2 & E2 & M).
  assert (r1 = r) by congruence. assert (r2 = r) by congruence. subst r1 r2. exists r, t. split; [exact E|]. split; [rewrite Et; apply scientific_form; assumption|].
  split; [|split; assumption]. exists (negative f x), (fp_significand r), (fp_exponent r). split; [rewrite Et; apply read_scientific, P | reflexivity].
Qed.
Lemma printed_form cfg f m crs x : input f x -> returns m f x = true -> exists t, in_form t /\
  (forall b, text_length t <= capacity b -> exists b', fp_to_chars_n cfg f m crs x b = Ok (b', text_length t) /\ written b 0 t b') /\
  (forall b, text_length t + 1 <= capacity b -> exists b', fp_to_chars cfg f m crs x b = Ok (b', text_length t) /\ written b 0 (t ++ [0]) b').
Proof. intros Hin Hr. destruct (printed cfg f m crs x Hin Hr) as (r & t & _ & F & _ & W). exists t. split; [exact F | exact W]. Qed.

Lemma shown_stop t u : all_digits t = true -> digits_shown (t ++ 69 :: u) = text_length t.
Proof.
  induction t as [|c t IH]; [reflexivity|]. cbn [all_digits app digits_shown]. intros H. apply andb_prop in H. destruct H as [Hc Ht].
  rewrite (digit_not c 69 Hc eq_refl), Hc, (IH Ht), text_length_cons. lia.
Qed.
Lemma shown_digits neg s e : 0 < s -> digits_shown (scientific neg s e) = digits s.
Proof.
  intros P. unfold scientific. cbv zeta. pose proof (integer_text_length s P) as L. destruct (integer_text_nonempty s ltac:(lia)) as (c & t & E & Hc).
  pose proof (integer_text_all s) as A. rewrite E in *. rewrite text_length_cons in L. cbn [all_digits] in A. rewrite Hc in A. cbn [andb] in A.
  assert (G : forall u, digits_shown (pointed (c :: t) ++ [69] ++ u) = digits s).
  { intros u. destruct t as [|d t]; cbn [pointed app digits_shown]; rewrite (digit_not c 69 Hc eq_refl), Hc.
    - cbn [digits_shown Z.eqb Pos.eqb]. change (text_length []) with 0 in L. lia.
    - change (46 =? 69) with false. cbn [is_digit]. change (is_digit 46) with false. cbv iota. 
      change (d :: t ++ 69 :: u) with ((d :: t) ++ 69 :: u). 
      change (if d =? 69 then 0 else (if is_digit d then 1 else 0) + digits_shown (t ++ 69 :: u)) with (digits_shown ((d :: t) ++ 69 :: u)).
      rewrite (shown_stop (d :: t) u A). lia. }
  destruct neg; match goal with |- digits_shown (_ ++ ?X) = _ => change (digits_shown X = digits s) end; apply G.
Qed.
Lemma short_text cfg f m crs x t v : in_form t -> stands_for t v -> digits_shown t <= dig f -> input f x -> normal f x -> minimal m f x = true ->
  read f m v = value f x ->
  (forall b, text_length t <= capacity b -> exists b', fp_to_chars_n cfg f m crs x b = Ok (b', text_length t) /\ written b 0 t b') /\
  (forall b, text_length t + 1 <= capacity b -> exists b', fp_to_chars cfg f m crs x b = Ok (b', text_length t) /\ written b 0 (t ++ [0]) b').
Proof.
  intros F S D Hin Hn Hm Hv. assert (Hr : returns m f x = true).
  { revert Hm. unfold minimal, returns. destruct (nearest_or_outward m (negative f x)), (halts f x), (lengthened f x); auto. }
  destruct (printed cfg f m crs x Hin Hr) as (r & t' & E & F' & S' & W).
  assert (T : t = t').
  { destruct (form_scientific t F) as (neg & s & e & Et & P & M). assert (S0 := S). destruct S0 as (neg0 & s0 & e0 & R & V).
    rewrite Et, read_scientific in R by exact P. injection R as <- <- <-. rewrite Et, shown_digits in D by exact P.
    destruct (short_survives cfg f false m crs assert_finite x (cond_Zopp neg s) e Hin Hn Hm) as (r' & E' & V').
    - unfold digits in *. destruct neg; cbn [cond_Zopp]; [rewrite Zdigits_opp|]; exact D.
    - rewrite V. exact Hv.
    - assert (r' = r) by congruence. subst r'. rewrite V' in S'. rewrite V in S'. exact (one_text t t' v F F' S S'). }
  subst t'. exact W.
Qed.

(** ** Every short text is printed for some number *)
Open Scope R_scope.
Lemma highest f : exists v, generic_format radix2 (FLT_exp (emin f) (prec f)) v /\ bpow radix10 (whole_range f + 1) <= v < bpow radix2 (emax f).
Proof.
  exists (F2R (Float radix2 (2 ^ prec f - 1) (emax f - prec f))). split; [|split].
  - apply generic_format_FLT. exists (Float radix2 (2 ^ prec f - 1) (emax f - prec f)); [reflexivity | destruct f; reflexivity | destruct f; discriminate].
  - unfold F2R. cbn [Fnum Fexp]. destruct f; cbn [whole_range prec emax]; rewrite <- !IZR_Zpower, <- mult_IZR by discriminate; apply IZR_le; vm_compute; discriminate.
  - unfold F2R. cbn [Fnum Fexp]. destruct f; cbn [prec emax]; rewrite <- !IZR_Zpower, <- mult_IZR by discriminate; apply IZR_lt; vm_compute; reflexivity.
Qed.
Lemma in_range f s e : (0 < s)%Z -> (- whole_range f <= e + digits s - 1 <= whole_range f)%Z -> forall neg,
  exists x, pattern f x /\ finite f x = true /\ normal f x /\ value f x = read f nearest_to_even (decimal (cond_Zopp neg s) e).
Proof.
  intros P L neg. assert (A : Rabs (decimal (cond_Zopp neg s) e) = decimal s e).
  { rewrite decimal_abs. f_equal. destruct neg; cbn [cond_Zopp]; lia. }
  assert (Lo : bpow radix2 (emin f + prec f - 1) <= decimal s e).
  { apply (decimal_above f (digits s)); [exact P | reflexivity|]. destruct f; cbn [min_exponent10 whole_range] in *; lia. }
  assert (Hi : decimal s e <= bpow radix10 (whole_range f + 1)).
  { destruct (Shortest.digits_bounds s e P) as [_ B]. apply Rlt_le. eapply Rlt_le_trans; [exact B|]. apply bpow_le. lia. }
  pose proof (ReadsBack.valid_reading nearest_to_even) as W. assert (Hp : (0 < prec f)%Z) by (destruct f; reflexivity).
  pose proof (FLT_exp_valid (emin f) (prec f) (prec_gt_0_ := Hp)) as V.
  assert (RLo : bpow radix2 (emin f + prec f - 1) <= Rabs (read f nearest_to_even (decimal (cond_Zopp neg s) e))).
  { apply (abs_round_ge_generic radix2 (FLT_exp (emin f) (prec f)) (reading nearest_to_even)); [apply normal_format | rewrite A; exact Lo]. }
  assert (RHi : Rabs (read f nearest_to_even (decimal (cond_Zopp neg s) e)) < bpow radix2 (emax f)).
  { destruct (highest f) as (v & G & H1 & H2). eapply Rle_lt_trans; [|exact H2].
    apply (abs_round_le_generic radix2 (FLT_exp (emin f) (prec f)) (reading nearest_to_even)); [exact G | rewrite A; lra]. }
  pose proof (reader_correct f (cond_Zopp neg s) e) as C. destruct (reader f (cond_Zopp neg s) e) as [x|].
  - destruct C as (Px & Fx & Vx). exists x. split; [exact Px|]. split; [exact Fx|]. split; [unfold normal; rewrite Vx; exact RLo | exact Vx].
  - exfalso. destruct C as [C|C]; [lra|]. rewrite A in C. lra.
Qed.
Close Scope R_scope.
Lemma every_text cfg f crs t neg s e : in_form t -> read_text t = Some (Number neg s e) -> digits_shown t <= dig f ->
  - whole_range f <= e + digits_shown t - 1 <= whole_range f ->
  exists x, input f x /\ read f nearest_to_even (decimal (cond_Zopp neg s) e) = value f x /\
    (forall b, text_length t <= capacity b -> exists b', fp_to_chars_n cfg f nearest_to_even crs x b = Ok (b', text_length t) /\ written b 0 t b') /\
    (forall b, text_length t + 1 <= capacity b -> exists b', fp_to_chars cfg f nearest_to_even crs x b = Ok (b', text_length t) /\ written b 0 (t ++ [0]) b').
Proof.
  intros F R D L. destruct (form_scientific t F) as (neg' & s' & e' & Et & P & M). assert (R0 := R).
  rewrite Et, read_scientific in R0 by exact P. injection R0 as -> -> ->.
  assert (L' := L). rewrite Et, shown_digits in L' by exact P. destruct (in_range f s e P L' neg) as (x & Px & Fx & Nx & Vx).
  assert (Hin : input f x).
  { split; [exact Px|]. split; [exact Fx|]. intros Z. unfold normal in Nx. rewrite Z, Rabs_R0 in Nx. pose proof (bpow_gt_0 radix2 (emin f + prec f - 1)). lra. }
  exists x. split; [exact Hin|]. split; [symmetry; exact Vx|].
  apply (short_text cfg f nearest_to_even crs x t (decimal (cond_Zopp neg s) e)); try assumption; [|reflexivity | symmetry; exact Vx].
  exists neg, s, e. split; [exact R | reflexivity].
Qed.
Lemma form_of_reading t neg s e : in_form t -> read_text t = Some (Number neg s e) -> t = scientific neg s e /\ s mod 10 <> 0.
Proof. intros F R. destruct (form_scientific t F) as (neg' & s' & e' & -> & P & M). rewrite read_scientific in R by exact P. injection R as -> -> ->. auto. Qed.
