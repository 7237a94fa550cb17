(** * What a build with assertions returns, every build returns *)

From Coq Require Import ZArith List Bool Lia.
From Verif Require Import Machine Tables Model Arith Products.
Open Scope Z_scope.

(** [o'] returns whatever [o] returns *)
Definition below {A} (o o' : outcome A) : Prop := forall a, o = Ok a -> o' = Ok a.
Lemma below_refl {A} (o : outcome A) : below o o. Proof. intros a H; exact H. Qed.
Lemma below_bind {A B} (o o' : outcome A) (k k' : A -> outcome B) :
  below o o' -> (forall a, o = Ok a -> below (k a) (k' a)) -> below (bind o k) (bind o' k').
Proof.
  intros H K b E. destruct o as [a| | |]; cbn [bind] in E; try discriminate.
  rewrite (H a eq_refl). cbn [bind]. exact (K a eq_refl b E).
Qed.
Lemma below_if {A} (c : bool) (a b a' b' : outcome A) : below a a' -> below b b' -> below (if c then a else b) (if c then a' else b').
Proof. destruct c; auto. Qed.

Section Builds.
Variables (cfg cfg' : config).
Hypothesis Hd : cfg_ndebug cfg = false.

Lemma cassert_below b : below (cassert cfg b) (cassert cfg' b).
Proof using Hd. intros [] E. unfold cassert in *. rewrite Hd in E. destruct b; [|discriminate]. destruct (cfg_ndebug cfg'); reflexivity. Qed.
Lemma cassert_true b : cassert cfg b = Ok tt -> b = true.
Proof using Hd. unfold cassert. rewrite Hd. destruct b; [reflexivity | discriminate]. Qed.

Definition cache_ok (f : fmt) (c : cache_entry) : Prop :=
  match f, c with
  | Binary32, Cache64 v => 0 <= v < 2 ^ 64
  | Binary64, Cache128 v => 0 <= u128_high v < 2 ^ 64 /\ 0 <= u128_low v < 2 ^ 64
  | _, _ => False
  end.
Definition word (f : fmt) (x : Z) : Prop := 0 <= x < 2 ^ extended_precision f.

Lemma mul_eq f x c mb : word f x -> cache_ok f c -> compute_mul cfg f x c mb = compute_mul cfg' f x c mb.
Proof using.
  intros Hx Hc. destruct f, c; try contradiction; cbn [compute_mul].
  - rewrite !umul96_upper32_exact by assumption. reflexivity.
  - destruct Hc. rewrite !umul192_upper64_exact by assumption. reflexivity.
Qed.
Lemma divisible_2_below w x e : (w = 32 \/ w = 64) -> 0 <= x < 2 ^ w ->
  below (divisible_by_power_of_2 cfg w x e) (divisible_by_power_of_2 cfg' w x e).
Proof using Hd.
  intros Hw Hx a E.
  assert (P : 1 <= e /\ 0 < x).
  { unfold divisible_by_power_of_2 in E.
    destruct (cassert cfg (1 <=? e)) as [[]| | |] eqn:A; try discriminate. cbn [bind] in E.
    destruct (cassert cfg (negb (x =? 0))) as [[]| | |] eqn:B; try discriminate.
    apply cassert_true in A, B. apply negb_true_iff, Z.eqb_neq in B. apply Z.leb_le in A. lia. }
  rewrite divisible_by_power_of_2_exact in * by (try lia; destruct Hw as [-> | ->]; reflexivity). exact E.
Qed.
Lemma divisible_5_below f w x e : below (divisible_by_power_of_5 cfg f w x e) (divisible_by_power_of_5 cfg' f w x e).
Proof using Hd. unfold divisible_by_power_of_5. cbv zeta. apply below_bind; [apply cassert_below|]. intros; apply below_refl. Qed.

Lemma product_integer_below f c x e k : word f x -> below (is_product_integer cfg f c x e k) (is_product_integer cfg' f c x e k).
Proof using Hd.
  intros Hx. unfold is_product_integer. cbv zeta.
  assert (W : extended_precision f = 32 \/ extended_precision f = 64) by (destruct f; auto).
  destruct c; try apply below_refl;
  repeat match goal with
  | |- below (if _ then _ else _) (if _ then _ else _) => apply below_if
  | |- below (Ok _) (Ok _) => apply below_refl
  | |- below (bind _ _) (bind _ _) => apply below_bind; [apply cassert_below | intros _ _]
  | |- _ => first [apply divisible_5_below | apply divisible_2_below; assumption]
  end.
Qed.
Lemma equal_fractional_below f t x e k : word f x -> below (equal_fractional_parts cfg f t x e k) (equal_fractional_parts cfg' f t x e k).
Proof using Hd.
  intros Hx. unfold equal_fractional_parts. destruct t; [|apply product_integer_below, Hx | apply below_refl].
  apply below_if; apply product_integer_below, Hx.
Qed.
Lemma wrap_word f x : word f (wrap (extended_precision f) x).
Proof using. apply Z.mod_pos_bound. destruct f; reflexivity. Qed.
Lemma left_endpoint_word f t fc e : word f fc -> word f (left_endpoint f t fc e).
Proof using. intros H. unfold left_endpoint. destruct t; [|exact H|]; destruct (_ && _); apply wrap_word. Qed.

Section Context.
Variables (f : fmt) (cx : compute_ctx).
Hypothesis (Hs : word f (cx_significand cx)) (Hf : word f (cx_fr cx)) (Hc : cache_ok f (cx_cache cx)).

Lemma zf_below : below (ctx_zf_smaller cfg f cx) (ctx_zf_smaller cfg' f cx).
Proof using Hd Hs Hc.
  unfold ctx_zf_smaller, is_zf_smaller_than_deltaf. cbv zeta.
  pose proof (left_endpoint_word f (cx_tag cx) _ (cx_exponent cx) Hs) as Hl.
  unfold is_zf_strictly_smaller_than_deltaf. rewrite (mul_eq f _ _ _ Hl Hc). apply below_bind; [apply below_refl|]. intros b _.
  apply below_if; [apply below_refl|]. apply below_if; [|apply below_refl]. apply equal_fractional_below, Hl.
Qed.
Lemma increasing_below l b st : below (increasing_search cfg f l b cx st) (increasing_search cfg' f l b cx st).
Proof using Hd Hs Hc.
  unfold increasing_search. cbv zeta. apply below_if; [apply below_refl|]. apply below_if; [|apply below_refl].
  destruct (st_zf_vs_deltaf st); try apply below_refl. apply below_bind; [apply zf_below|]. intros; apply below_refl.
Qed.
Lemma kappa_0_below st : below (correct_rounding_search_when_kappa_is_0_label cfg f cx st)
  (correct_rounding_search_when_kappa_is_0_label cfg' f cx st).
Proof using Hd Hs Hc.
  unfold correct_rounding_search_when_kappa_is_0_label. cbv zeta. rewrite (mul_eq f _ _ _ Hs Hc).
  apply below_bind; [apply below_refl|]. intros y _.
  destruct (cx_crs cx); try apply below_refl; (apply below_bind; [apply product_integer_below, Hs|]; intros; apply below_refl).
Qed.
Lemma left_search_below a : forall fuel steps st,
  below (left_closed_search fuel cfg f cx a steps st) (left_closed_search fuel cfg' f cx a steps st).
Proof using Hd Hs Hc.
  induction fuel as [|n IH]; intros steps st; [apply below_refl|]. cbn [left_closed_search].
  apply below_if; [apply below_refl|]. cbv zeta. apply below_if; [apply IH|]. apply below_if; [|apply IH].
  destruct (st_zf_vs_deltaf st); try apply below_refl.
  rewrite (mul_eq f _ _ _ Hs Hc). apply below_bind; [apply below_refl|]. intros xi _.
  apply below_if; [|apply below_refl]. apply below_bind; [apply equal_fractional_below, Hs|]. intros; apply below_refl.
Qed.
Lemma adjust_below st y s e : below (adjust_steps cfg f cx st y s e) (adjust_steps cfg' f cx st y s e).
Proof using Hd Hs Hc.
  unfold adjust_steps. cbv zeta. apply below_if; [|apply below_refl]. rewrite (mul_eq f _ _ _ Hs Hc).
  apply below_bind; [apply below_refl|]. intros yi _. apply below_if; [|apply below_refl].
  destruct (cx_crs cx); try apply below_refl; (apply below_bind; [apply product_integer_below, Hs|]; intros; apply below_refl).
Qed.
Lemma rounding_below st : below (correct_rounding_search_label cfg f cx st) (correct_rounding_search_label cfg' f cx st).
Proof using Hd Hs Hc.
  unfold correct_rounding_search_label. cbv zeta. apply below_if; [|apply below_refl].
  destruct (cx_tag cx); [|apply left_search_below | apply below_refl].
  apply below_bind; [apply cassert_below|]. intros _ _. apply below_bind; [apply below_refl|]. intros d _.
  apply below_if; [|apply below_refl]. destruct (count_steps f _ _) as [s e].
  apply below_bind; [apply adjust_below|]. intros; apply below_refl.
Qed.
Lemma boundary_below st : below (boundary_adjustment_label cfg f cx st) (boundary_adjustment_label cfg' f cx st).
Proof using Hd Hs Hf Hc.
  unfold boundary_adjustment_label. cbv zeta. apply below_if; [|apply rounding_below].
  apply below_bind; [apply product_integer_below, Hf|]. intros b _. apply below_if; [|apply rounding_below].
  apply below_bind; [apply below_refl|]. intros s _. apply below_if; [apply kappa_0_below | apply rounding_below].
Qed.
Lemma increasing_label_below st : below (increasing_search_label cfg f cx st) (increasing_search_label cfg' f cx st).
Proof using Hd Hs Hf Hc.
  pose proof increasing_below as IB. pose proof boundary_below as BB.
  unfold increasing_search_label. cbv zeta. apply below_bind; [|intros; apply BB].
  destruct f; repeat (apply below_bind; [apply IB|]; intros ? _); apply IB.
Qed.
Lemma decreasing_below st : below (decreasing_search cfg f cx st) (decreasing_search cfg' f cx st).
Proof using Hd Hs Hf Hc.
  pose proof boundary_below as BB. pose proof kappa_0_below as KB. pose proof rounding_below as RB. pose proof zf_below as ZB.
  unfold decreasing_search. cbv zeta.
  assert (D2 : forall z,
    below (let '(s, r) := match f with
      | Binary32 => (cx_zi cx, 0)
      | Binary64 => (wrap (extended_precision f) (wrap (extended_precision f) (st_significand st * 100) +
          wrap 32 (wrap 32 (10 * (wrap 32 (st_r st) / wrap 32 (power_of_10 f (initial_kappa f - 1)))) +
            wrap 32 (st_r st) mod wrap 32 (power_of_10 f (initial_kappa f - 1)) / 10)),
           wrap 32 (st_r st) mod wrap 32 (power_of_10 f (initial_kappa f - 1)) mod 10)
      end in
      if cares (cx_crs cx) && (match cx_tag cx with to_nearest_tag => true | _ => false end) then
        if min_kappa f =? 0 then correct_rounding_search_when_kappa_is_0_label cfg f cx (mk_state s (st_exponent st - 2) r (power_of_10 f (initial_kappa f - 2)) (st_deltai st) z)
        else correct_rounding_search_label cfg f cx (mk_state s (st_exponent st - 2) r (power_of_10 f (initial_kappa f - 2)) (st_deltai st) z)
      else boundary_adjustment_label cfg f cx (mk_state s (st_exponent st - 2) r (power_of_10 f (initial_kappa f - 2)) (st_deltai st) z))
     (let '(s, r) := match f with
      | Binary32 => (cx_zi cx, 0)
      | Binary64 => (wrap (extended_precision f) (wrap (extended_precision f) (st_significand st * 100) +
          wrap 32 (wrap 32 (10 * (wrap 32 (st_r st) / wrap 32 (power_of_10 f (initial_kappa f - 1)))) +
            wrap 32 (st_r st) mod wrap 32 (power_of_10 f (initial_kappa f - 1)) / 10)),
           wrap 32 (st_r st) mod wrap 32 (power_of_10 f (initial_kappa f - 1)) mod 10)
      end in
      if cares (cx_crs cx) && (match cx_tag cx with to_nearest_tag => true | _ => false end) then
        if min_kappa f =? 0 then correct_rounding_search_when_kappa_is_0_label cfg' f cx (mk_state s (st_exponent st - 2) r (power_of_10 f (initial_kappa f - 2)) (st_deltai st) z)
        else correct_rounding_search_label cfg' f cx (mk_state s (st_exponent st - 2) r (power_of_10 f (initial_kappa f - 2)) (st_deltai st) z)
      else boundary_adjustment_label cfg' f cx (mk_state s (st_exponent st - 2) r (power_of_10 f (initial_kappa f - 2)) (st_deltai st) z))).
  { intros z. match goal with |- context [match ?p with pair _ _ => _ end] => destruct p as [s r] end.
    apply below_if; [apply below_if; [apply KB | apply RB] | apply BB]. }
  apply below_if; [apply BB|]. apply below_if; [|apply D2].
  destruct (st_zf_vs_deltaf st); try apply D2.
  apply below_bind; [apply ZB|]. intros b _. apply below_if; [apply BB | apply D2].
Qed.
End Context.

Lemma lor_range w a b : 0 < w -> 0 <= a < 2 ^ w -> 0 <= b < 2 ^ w -> 0 <= Z.lor a b < 2 ^ w.
Proof using.
  intros Hw Ha Hb. assert (N : 0 <= Z.lor a b) by (apply Z.lor_nonneg; lia). split; [exact N|].
  destruct (Z.eq_dec (Z.lor a b) 0) as [->|NZ]; [lia|].
  apply Z.log2_lt_pow2; [lia|]. rewrite Z.log2_lor by lia.
  destruct (Z.eq_dec a 0) as [->|Na], (Z.eq_dec b 0) as [->|Nb]; apply Z.max_lub_lt;
    try (apply Z.log2_lt_pow2; lia); try (change (Z.log2 0) with 0; exact Hw).
Qed.
Lemma decompose_word f x : word f (fst (decompose f x)).
Proof using.
  unfold decompose. cbv zeta. destruct (negb _); cbn [fst]; [|apply wrap_word].
  apply lor_range; [destruct f; reflexivity | apply wrap_word | destruct f; split; (discriminate || reflexivity)].
Qed.
Lemma right_endpoint_word f t s : word f s -> word f (right_endpoint f t s).
Proof using.
  intros H. unfold right_endpoint. destruct t; [|apply wrap_word | exact H].
  apply lor_range; [destruct f; reflexivity | exact H | destruct f; split; (discriminate || reflexivity)].
Qed.
Lemma get_cache_facts f k c : get_cache cfg f k = Ok c -> get_cache cfg' f k = Ok c /\ cache_ok f c.
Proof using Hd.
  intros H. assert (R : min_k f <= k <= max_k f).
  { unfold get_cache in H. destruct (cassert cfg _) as [[]| | |] eqn:A in H; try discriminate.
    apply cassert_true in A. lia. }
  rewrite get_cache_ok in * by exact R. injection H as <-. split; [reflexivity|].
  unfold cache_at. destruct f; cbn [cache_ok].
  - apply cache_float_range. cbn in R |- *. lia.
  - cbv zeta. pose proof (cache_double_range (Z.to_nat (k - min_k Binary64))) as C.
    destruct (nth _ cache_double (0, 0)) as [h l]. apply C. cbn in R |- *. lia.
Qed.
Lemma zi_eq f t fr c mb : word f fr -> cache_ok f c -> compute_zi cfg f t fr c mb = compute_zi cfg' f t fr c mb.
Proof using. intros Hf Hc. unfold compute_zi. rewrite (mul_eq f _ _ _ Hf Hc). reflexivity. Qed.

Theorem compute_below f p crs x : below (compute cfg f p crs x) (compute cfg' f p crs x).
Proof using Hd.
  unfold compute. pose proof (decompose_word f x) as Hs. destruct (decompose f x) as [s e]. cbn [fst] in Hs. cbv zeta.
  pose proof (right_endpoint_word f (provider_tag p) s Hs) as Hf.
  apply below_bind. { unfold floor_log10_pow2. apply below_bind; [apply cassert_below | intros; apply below_refl]. }
  intros mk _. apply below_bind. { unfold floor_log2_pow10. apply below_bind; [apply cassert_below | intros; apply below_refl]. }
  intros l _. apply below_bind; [apply below_refl|]. intros mb _. apply below_bind; [apply cassert_below|]. intros _ _.
  apply below_bind. { intros c E. apply get_cache_facts, E. }
  intros c Ec. apply get_cache_facts in Ec. destruct Ec as [_ Hc].
  rewrite (zi_eq f _ _ _ _ Hf Hc). apply below_bind; [apply below_refl|]. intros z _.
  apply below_bind; [apply below_refl|]. intros d _.
  assert (IL : forall st, below (increasing_search_label cfg f (mk_ctx (provider_tag p) crs (provider_call f p x) s e (right_endpoint f (provider_tag p) s) mk mb c z) st)
    (increasing_search_label cfg' f (mk_ctx (provider_tag p) crs (provider_call f p x) s e (right_endpoint f (provider_tag p) s) mk mb c z) st))
    by (intros; apply increasing_label_below; assumption).
  assert (DL : forall st, below (decreasing_search cfg f (mk_ctx (provider_tag p) crs (provider_call f p x) s e (right_endpoint f (provider_tag p) s) mk mb c z) st)
    (decreasing_search cfg' f (mk_ctx (provider_tag p) crs (provider_call f p x) s e (right_endpoint f (provider_tag p) s) mk mb c z) st))
    by (intros; apply decreasing_below; assumption).
  apply below_if; [apply IL|]. apply below_if; [|apply DL].
  apply below_bind; [apply zf_below; assumption|]. intros b _. apply below_if; [apply IL | apply DL].
Qed.
Theorem grisu_exact_below f rs m crs h x : below (grisu_exact cfg f rs m crs h x) (grisu_exact cfg' f rs m crs h x).
Proof using Hd.
  unfold grisu_exact. apply below_bind; [destruct h; [apply cassert_below | apply below_refl]|]. intros _ _.
  apply below_bind; [apply compute_below | intros; apply below_refl].
Qed.
End Builds.
