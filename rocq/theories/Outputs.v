(** * Properties of every returned result, of the texts, of builds and of pairs of inputs *)

From Coq Require Import ZArith Reals List Lra Lia Bool.
From Flocq Require Import Core.
From Verif Require Import Machine Model CharsModel Spec TextSpec Reading Bridge ReadsBack Results Inward Builds Long Claims Signs Chars Texts.
Import ListNotations.
Open Scope R_scope.

Lemma inward_otherwise m neg : nearest_or_outward m neg = false -> rounds_inward m neg = true.
Proof. destruct m, neg; (reflexivity || discriminate). Qed.

(** ** Range of every result *)
Record in_range (f : fmt) (r : fp_t) : Prop := {
  ir_pos : (0 < fp_significand r)%Z;
  ir_mod : (fp_significand r mod 10 <> 0)%Z;
  ir_digits : (digits (fp_significand r) <= max_digits f)%Z;
  ir_sci : (sci_min f <= fp_exponent r + digits (fp_significand r) - 1 <= sci_max f)%Z
}.
Lemma returned cfg f rs m crs h x : input f x -> returns m f x = true ->
  exists r, grisu_exact cfg f rs m crs h x = Ok r /\ in_range f r /\ reads_back f m x (signed f x r) (fp_exponent r).
Proof.
  intros Hin Hr. unfold returns in Hr. destruct (nearest_or_outward m (negative f x)) eqn:N.
  - destruct (total cfg f rs m crs h x Hin N) as [r E]. exists r. split; [exact E|].
    destruct (g_basic _ _ _ _ _ _ (either_result cfg f rs m crs h x Hin r N E)) as [A B C D F].
    split; [constructor; assumption | apply B].
  - apply inward_otherwise in N. cbn [orb] in Hr. apply negb_true_iff in Hr.
    destruct (inward_round_trip cfg f rs m crs h x Hin N) as [RT _].
    destruct (lengthened f x) eqn:L.
    + destruct (long_result cfg f m crs x Hin) as (t & E & Ec & A & B & C & D & _); [rewrite <- (neg_ok f x Hin); exact N | exact L|].
      pose proof (grisu_exact_ok cfg f rs m crs h x t E Hin Ec) as G. eexists. split; [exact G|].
      split; [constructor; assumption | apply RT, G].
    + destruct (inward_basic cfg f rs m crs h x Hin N Hr L) as (r & E & A & B & C & D). exists r. split; [exact E|].
      split; [constructor; assumption | apply RT, E].
Qed.
Lemma all_ranges cfg f rs m crs h x : input f x -> returns m f x = true -> exists r, grisu_exact cfg f rs m crs h x = Ok r /\
  (0 < fp_significand r)%Z /\ (digits (fp_significand r) <= max_digits f)%Z /\
  (sci_min f <= fp_exponent r + digits (fp_significand r) - 1 <= sci_max f)%Z.
Proof. intros Hin Hr. destruct (returned cfg f rs m crs h x Hin Hr) as (r & E & [A B C D] & _). exists r. auto. Qed.
Lemma all_trimmed cfg f rs m crs h x : input f x -> returns m f x = true -> exists r, grisu_exact cfg f rs m crs h x = Ok r /\
  (fp_significand r mod 10 <> 0)%Z.
Proof. intros Hin Hr. destruct (returned cfg f rs m crs h x Hin Hr) as (r & E & [A B C D] & _). exists r. auto. Qed.

(** ** The inputs on which the modes rounding toward zero are not shortest *)
Lemma not_shortest cfg f rs m crs h x : input f x -> rounds_inward m (negative f x) = true -> lengthened f x = true ->
  exists r s e, grisu_exact cfg f rs m crs h x = Ok r /\ reads_back f m x s e /\ (digits s < digits (fp_significand r))%Z.
Proof.
  intros Hin Hm L. destruct (long_result cfg f m crs x Hin) as (t & E & Ec & A & _ & _ & _ & s & e & R & D);
    [rewrite <- (neg_ok f x Hin); exact Hm | exact L|].
  exists (mk_fp t E (if rs then Some (is_negative f x) else None)), (cond_Zopp (negative f x) s), e.
  split; [apply (grisu_exact_ok cfg f rs m crs h x t E Hin Ec)|]. split; [exact R|].
  replace (digits (cond_Zopp (negative f x) s)) with (digits s); [exact D|].
  unfold digits. rewrite <- (Zdigits_abs _ s), <- (Zdigits_abs _ (cond_Zopp _ s)), abs_cond_Zopp. reflexivity.
Qed.

(** ** Builds *)
Lemma same_result f rs m crs h x : input f x -> returns m f x = true ->
  exists r, forall cfg, grisu_exact cfg f rs m crs h x = Ok r.
Proof.
  intros Hin Hr. destruct (returned asserting f rs m crs h x Hin Hr) as (r & E & _). exists r. intros cfg.
  exact (grisu_exact_below asserting cfg eq_refl f rs m crs h x r E).
Qed.
Lemma debug_decides cfg cfg' f rs m crs h x r : cfg_ndebug cfg = false ->
  grisu_exact cfg f rs m crs h x = Ok r -> grisu_exact cfg' f rs m crs h x = Ok r.
Proof. intros Hd. exact (grisu_exact_below cfg cfg' Hd f rs m crs h x r). Qed.

(** ** Pairs of inputs *)
Lemma read_monotone f m u v : u <= v -> read f m u <= read f m v.
Proof.
  intros H. unfold read. pose proof (valid_reading m) as V.
  assert (P : Prec_gt_0 (prec f)) by (destruct f; reflexivity). apply round_le; [apply FLT_exp_valid, P | exact V | exact H].
Qed.
Lemma monotone cfg cfg' f rs m crs crs' h h' x y : input f x -> input f y -> returns m f x = true -> returns m f y = true ->
  value f x < value f y ->
  exists r r', grisu_exact cfg f rs m crs h x = Ok r /\ grisu_exact cfg' f rs m crs' h' y = Ok r' /\
    decimal (signed f x r) (fp_exponent r) < decimal (signed f y r') (fp_exponent r').
Proof.
  intros Hx Hy Rx Ry H. destruct (returned cfg f rs m crs h x Hx Rx) as (r & E & _ & B).
  destruct (returned cfg' f rs m crs' h' y Hy Ry) as (r' & E' & _ & B'). exists r, r'. split; [exact E|]. split; [exact E'|].
  apply Rnot_le_lt. intros L. apply (read_monotone f m) in L. unfold reads_back in B, B'. rewrite B, B' in L. lra.
Qed.

(** ** Texts *)
Lemma text_ok cfg f m crs x : pattern f x -> (input f x -> returns m f x = true) ->
  exists t, (text_length t <= max_text f)%Z /\
    (forall b, (text_length t <= capacity b)%Z -> exists b', fp_to_chars_n cfg f m crs x b = Ok (b', text_length t) /\ written b 0%Z t b') /\
    (forall b, (text_length t + 1 <= capacity b)%Z -> exists b', fp_to_chars cfg f m crs x b = Ok (b', text_length t) /\ written b 0%Z (t ++ [0%Z]) b') /\
    (input f x -> exists r, grisu_exact cfg f false m crs assert_finite x = Ok r /\
       t = scientific (negative f x) (fp_significand r) (fp_exponent r)) /\
    (finite f x = true -> value f x = 0%R -> t = (if negative f x then [45] else []) ++ [48; 69; 48])%Z /\
    (infinite f x = true -> t = (if negative f x then [45] else []) ++ [73; 110; 102; 105; 110; 105; 116; 121])%Z /\
    (nan f x = true -> t = [78; 97; 78])%Z.
Proof.
  intros Hx Hr.
  assert (R : exists r, input f x -> grisu_exact cfg f false m crs assert_finite x = Ok r /\
    ((0 < fp_significand r)%Z /\ (digits (fp_significand r) <= max_digits f)%Z /\
     (sci_min f <= fp_exponent r + digits (fp_significand r) - 1 <= sci_max f)%Z)).
  { destruct (Model.is_finite f x) eqn:F; [destruct (is_nonzero f x) eqn:N|].
    - assert (Hin : input f x) by (split; [exact Hx|]; split; [rewrite finite_model; exact F | apply nonzero_model; try assumption; rewrite finite_model; exact F]).
      destruct (all_ranges cfg f false m crs assert_finite x Hin (Hr Hin)) as (r & E & A). exists r. intros _. auto.
    - exists (mk_fp 0 0 None). intros (_ & Fi & V). apply nonzero_model in V; [congruence | assumption | assumption].
    - exists (mk_fp 0 0 None). intros (_ & Fi & _). rewrite finite_model in Fi. congruence. }
  destruct R as [r R]. exists (text_of f x r). pose proof (three_kinds f x) as K.
  assert (IN : finite f x = true -> is_nonzero f x = true -> input f x).
  { intros F N. split; [exact Hx|]. split; [exact F | apply nonzero_model; assumption]. }
  split; [|split; [intros b; apply chars_n_ok; assumption | split; [intros b; apply chars_ok; assumption|]]].
  - unfold text_of. destruct (finite f x) eqn:F; [destruct (is_nonzero f x) eqn:N|].
    + destruct (R (IN eq_refl eq_refl)) as (_ & A & B & C). apply scientific_length; assumption.
    + destruct (negative f x), f; vm_compute; discriminate.
    + destruct (nan f x), (negative f x), f; vm_compute; discriminate.
  - unfold text_of. split; [|split; [|split]].
    + intros Hin. exists r. split; [apply R, Hin|]. pose proof Hin as (_ & F & V). rewrite F. apply nonzero_model in V; [|assumption..]. rewrite V. reflexivity.
    + intros F V. rewrite F. destruct (is_nonzero f x) eqn:N; [|reflexivity]. exfalso. apply (proj2 (nonzero_model f x Hx F)) in N. contradiction.
    + intros I. rewrite I in K. destruct (finite f x), (nan f x); (reflexivity || lia).
    + intros I. rewrite I in K |- *. destruct (finite f x), (infinite f x); (reflexivity || lia).
Qed.

Lemma text_denotes cfg f m crs x : input f x -> returns m f x = true ->
  exists r t, grisu_exact cfg f false m crs assert_finite x = Ok r /\
    t = scientific (negative f x) (fp_significand r) (fp_exponent r) /\
    read_text t = Some (Number (negative f x) (fp_significand r) (fp_exponent r)) /\
    forall b, (text_length t <= capacity b)%Z ->
      exists b', fp_to_chars_n cfg f m crs x b = Ok (b', text_length t) /\ written b 0%Z t b'.
Proof.
  intros Hin Hr. destruct (text_ok cfg f m crs x (proj1 Hin) (fun _ => Hr)) as (t & _ & W & _ & T & _).
  destruct (T Hin) as (r & E & Et). exists r, t. split; [exact E|]. split; [exact Et|]. split; [|exact W].
  rewrite Et. apply read_scientific. destruct (all_ranges cfg f false m crs assert_finite x Hin Hr) as (r' & E' & A & _). congruence.
Qed.
Lemma decimal_0 e : decimal 0 e = 0.
Proof. apply F2R_0. Qed.
Lemma read_0 f m : read f m 0 = 0.
Proof. unfold read. pose proof (valid_reading m) as V. apply round_0. exact V. Qed.
Lemma text_round_trip cfg f m crs x : pattern f x -> finite f x = true -> returns m f x = true ->
  exists t s e, read_text t = Some (Number (negative f x) s e) /\
    read f m (decimal (cond_Zopp (negative f x) s) e) = value f x /\
    forall b, (text_length t + 1 <= capacity b)%Z ->
      exists b', fp_to_chars cfg f m crs x b = Ok (b', text_length t) /\ written b 0%Z (t ++ [0%Z]) b'.
Proof.
  intros Hx F Hr. destruct (text_ok cfg f m crs x Hx (fun _ => Hr)) as (t & _ & _ & W & T & Tz & _). exists t.
  destruct (Req_dec (value f x) 0) as [V|V].
  - exists 0%Z, 0%Z. rewrite (Tz F V), V. split; [destruct (negative f x); reflexivity|]. split.
    + replace (cond_Zopp (negative f x) 0) with 0%Z by (destruct (negative f x); reflexivity). rewrite decimal_0. apply read_0.
    + rewrite <- (Tz F V). exact W.
  - assert (Hin : input f x) by (split; [|split]; assumption). destruct (T Hin) as (r & E & Et).
    destruct (returned cfg f false m crs assert_finite x Hin Hr) as (r' & E' & IR & B). assert (r' = r) by congruence. subst r'.
    exists (fp_significand r), (fp_exponent r). split; [|split; [exact B | exact W]].
    rewrite Et. apply read_scientific, IR.
Qed.
Lemma text_special cfg f m crs x : pattern f x ->
  (forall t, (finite f x = true /\ value f x = 0%R /\ t = (if negative f x then [45] else []) ++ [48; 69; 48])%Z \/
     (infinite f x = true /\ t = (if negative f x then [45] else []) ++ [73; 110; 102; 105; 110; 105; 116; 121])%Z \/
     (nan f x = true /\ t = [78; 97; 78])%Z ->
   forall b, (text_length t <= capacity b)%Z ->
   exists b', fp_to_chars_n cfg f m crs x b = Ok (b', text_length t) /\ written b 0%Z t b').
Proof.
  intros Hx t Ht. assert (Hn : ~ input f x).
  { intros (_ & F & V). pose proof (three_kinds f x) as K. rewrite F in K. destruct Ht as [(_ & A & _)|[(A & _)|(A & _)]]; [contradiction|..];
      rewrite A in K; destruct (infinite f x), (nan f x); lia. }
  destruct (text_ok cfg f m crs x Hx (fun H => False_ind _ (Hn H))) as (t' & _ & W & _ & _ & T1 & T2 & T3).
  destruct Ht as [(A & B & ->)|[(A & ->)|(A & ->)]]; [rewrite <- (T1 A B) | rewrite <- (T2 A) | rewrite <- (T3 A)]; exact W.
Qed.

Lemma special_read (neg : bool) : read_text ((if neg then [45] else []) ++ [48; 69; 48])%Z = Some (Number neg 0 0) /\
  read_text ((if neg then [45] else []) ++ [73; 110; 102; 105; 110; 105; 116; 121])%Z = Some (Infinity neg) /\
  read_text [78; 97; 78]%Z = Some NaN.
Proof. destruct neg; repeat split. Qed.

Lemma text_safe cfg f m crs x : pattern f x -> (input f x -> returns m f x = true) ->
  exists t, (text_length t <= max_text f)%Z /\
    (forall b, (text_length t <= capacity b)%Z -> exists b', fp_to_chars_n cfg f m crs x b = Ok (b', text_length t) /\ written b 0%Z t b') /\
    (forall b, (text_length t + 1 <= capacity b)%Z -> exists b', fp_to_chars cfg f m crs x b = Ok (b', text_length t) /\ written b 0%Z (t ++ [0%Z]) b').
Proof. intros Hx Hr. destruct (text_ok cfg f m crs x Hx Hr) as (t & A & B & C & _). exists t. auto. Qed.

Lemma length_call cfg f m crs x : input f x -> returns m f x = true ->
  exists r, grisu_exact cfg f false m crs assert_finite x = Ok r /\ decimal_length cfg f (fp_significand r) = Ok (digits (fp_significand r)).
Proof.
  intros Hin Hr. destruct (all_ranges cfg f false m crs assert_finite x Hin Hr) as (r & E & A & B & _). exists r. split; [exact E|].
  apply decimal_length_ok; assumption.
Qed.
Lemma length_counts cfg f v : (0 < v < 10 ^ max_digits f)%Z ->
  exists n, decimal_length cfg f v = Ok n /\ (10 ^ (n - 1) <= v < 10 ^ n)%Z.
Proof.
  intros Hv. exists (digits v). split; [|apply digits_bounds; lia]. apply decimal_length_ok; [lia|]. apply digits_le; [lia | destruct f; discriminate | lia].
Qed.
