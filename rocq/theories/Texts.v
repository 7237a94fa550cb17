(** * The texts written by fp_to_chars, and what they mean *)

From Coq Require Import ZArith Reals List Bool Lia.
From Flocq Require Import Core.
From Verif Require Import Machine Tables Model CharsModel Link Spec Reading Bridge Signs Claims TextSpec Chars.
Import ListNotations.
Open Scope Z_scope.

(** ** Reading back the scientific notation *)
Fixpoint all_digits (t : list Z) : bool := match t with c :: t => is_digit c && all_digits t | [] => true end.
Fixpoint continue (acc : Z) (t : list Z) : Z := match t with c :: t => continue (10 * acc + (c - 48)) t | [] => acc end.

Lemma read_digits_app t : forall acc u, all_digits t = true ->
  read_digits acc (t ++ u) = let '(v, n, rest) := read_digits (continue acc t) u in (v, n + text_length t, rest).
Proof.
  induction t as [|c t IH]; intros acc u H; cbn [app continue].
  - destruct (read_digits acc u) as [[v n] rest]. change (text_length []) with 0. rewrite Z.add_0_r. reflexivity.
  - cbn [all_digits] in H. apply andb_prop in H. destruct H as [Hc Ht]. cbn [read_digits]. rewrite Hc, (IH _ _ Ht).
    destruct (read_digits _ u) as [[v n] rest]. rewrite text_length_cons. do 2 f_equal. lia.
Qed.
Lemma read_digits_stop acc t u : all_digits t = true -> (forall c r, u = c :: r -> is_digit c = false) ->
  read_digits acc (t ++ u) = (continue acc t, text_length t, u).
Proof.
  intros Ht Hu. rewrite read_digits_app by exact Ht. destruct u as [|c r]; cbn [read_digits]; [reflexivity|].
  rewrite (Hu c r eq_refl). reflexivity.
Qed.
Lemma all_digits_app t u : all_digits (t ++ u) = all_digits t && all_digits u.
Proof. induction t as [|c t IH]; [reflexivity|]. cbn [app all_digits]. rewrite IH, andb_assoc. reflexivity. Qed.
Lemma continue_app t : forall acc u, continue acc (t ++ u) = continue (continue acc t) u.
Proof. induction t as [|c t IH]; intros acc u; [reflexivity|]. cbn [app continue]. apply IH. Qed.
Lemma last_digits_all n : forall z, all_digits (last_digits n z) = true.
Proof.
  induction n as [|n IH]; intros z; [reflexivity|]. cbn [last_digits]. rewrite all_digits_app, IH. cbn [all_digits andb].
  unfold is_digit. pose proof (Z.mod_pos_bound z 10). lia.
Qed.
Lemma continue_last n : forall acc z, continue acc (last_digits n z) = acc * 10 ^ Z.of_nat n + z mod 10 ^ Z.of_nat n.
Proof.
  induction n as [|n IH]; intros acc z.
  - change (10 ^ Z.of_nat 0) with 1. rewrite Z.mod_1_r. cbn. lia.
  - cbn [last_digits]. rewrite continue_app, IH. cbn [continue]. rewrite Nat2Z.inj_succ, Z.pow_succ_r by lia.
    pose proof (pow10_pos (Z.of_nat n) ltac:(lia)). rewrite (Z.mul_comm 10 (10 ^ _)).
    rewrite (Z.mul_comm (10 ^ _) 10). rewrite Z.rem_mul_r by lia. lia.
Qed.
Lemma integer_text_all z : all_digits (integer_text z) = true.
Proof. unfold integer_text. destruct (z =? 0); [reflexivity | apply last_digits_all]. Qed.
Lemma integer_text_value z : 0 <= z -> continue 0 (integer_text z) = z.
Proof.
  intros H. unfold integer_text. destruct (Z.eqb_spec z 0) as [->|N]; [reflexivity|].
  rewrite continue_last. destruct (digits_bounds z ltac:(lia)) as [D B]. rewrite Z2Nat.id by lia. rewrite Z.mod_small; lia.
Qed.
Lemma integer_text_nonempty z : 0 <= z -> exists c t, integer_text z = c :: t /\ is_digit c = true.
Proof.
  intros H. pose proof (integer_text_all z) as A.
  assert (L : 0 < text_length (integer_text z)).
  { destruct (Z.eq_dec z 0) as [->|N]; [reflexivity|]. rewrite integer_text_length by lia. destruct (digits_bounds z ltac:(lia)). lia. }
  destruct (integer_text z) as [|c t]; [discriminate L|]. exists c, t. split; [reflexivity|]. apply andb_prop in A. apply A.
Qed.
Lemma digit_not c d : is_digit c = true -> is_digit d = false -> (c =? d) = false.
Proof. intros H H'. destruct (Z.eqb_spec c d); [congruence | reflexivity]. Qed.

Lemma read_exponent x : read_integer (exponent_text x) = Some x.
Proof.
  assert (R : forall z, 0 <= z -> read_digits 0 (integer_text z) = (z, text_length (integer_text z), [])).
  { intros z Hz. rewrite <- (app_nil_r (integer_text z)) at 1. rewrite read_digits_stop; [rewrite integer_text_value by exact Hz; reflexivity | apply integer_text_all | discriminate]. }
  assert (N : forall z, 0 <= z -> (text_length (integer_text z) =? 0) = false).
  { intros z Hz. destruct (integer_text_nonempty z Hz) as (c & t & -> & _). rewrite text_length_cons. pose proof (text_length_nonneg t). apply Z.eqb_neq. lia. }
  unfold read_integer, exponent_text. destruct (Z.ltb_spec x 0).
  - cbn [read_sign Z.eqb Pos.eqb]. rewrite R, N by lia. cbn [cond_Zopp]. rewrite Z.opp_involutive. reflexivity.
  - destruct (integer_text_nonempty x ltac:(lia)) as (c & t & E & Hc).
    assert (S : read_sign (integer_text x) = (false, integer_text x)).
    { rewrite E. cbn [read_sign]. rewrite (digit_not c 45 Hc eq_refl). reflexivity. }
    rewrite S, R, N by lia. reflexivity.
Qed.
Lemma read_pointed s u : 0 < s ->
  read_mantissa (pointed (integer_text s) ++ 69 :: u) = Some (s, digits s - 1, 69 :: u).
Proof.
  intros Hs. pose proof (integer_text_all s) as A. pose proof (integer_text_value s ltac:(lia)) as V.
  pose proof (integer_text_length s Hs) as L.
  destruct (integer_text_nonempty s ltac:(lia)) as (c & t & E & Hc). rewrite E in *. clear E.
  cbn [all_digits] in A. rewrite Hc in A. cbn [andb] in A. cbn [continue] in V. rewrite text_length_cons in L.
  assert (NE : forall d r, 69 :: u = d :: r -> is_digit d = false) by (intros d r H; injection H as <- _; reflexivity).
  destruct t as [|d t].
  - cbn [pointed]. unfold read_mantissa. rewrite read_digits_stop; [|cbn [all_digits]; rewrite Hc; reflexivity | exact NE].
    change (text_length []) with 0 in L. change (text_length [c]) with 1. cbn [Z.eqb Pos.eqb continue].
    cbn [continue] in V. rewrite V. replace (digits s - 1) with 0 by lia. reflexivity.
  - cbn [pointed]. unfold read_mantissa.
    change ((c :: 46 :: d :: t) ++ 69 :: u) with ([c] ++ 46 :: ((d :: t) ++ 69 :: u)).
    rewrite (read_digits_stop 0 [c]); [|cbn [all_digits]; rewrite Hc; reflexivity | intros d' r H; injection H as <- _; reflexivity].
    change (text_length [c]) with 1. cbn [Z.eqb Pos.eqb continue].
    rewrite read_digits_stop by (exact A || exact NE). rewrite V.
    assert (text_length (d :: t) = digits s - 1) as -> by lia.
    rewrite text_length_cons in L. pose proof (text_length_nonneg t). destruct (Z.eqb_spec (digits s - 1) 0); [lia | reflexivity].
Qed.
Lemma read_scientific neg s e : 0 < s -> read_text (scientific neg s e) = Some (Number neg s e).
Proof.
  intros Hs. assert (T : exists c t, pointed (integer_text s) ++ [69] ++ exponent_text (e + digits s - 1) = c :: t /\ is_digit c = true).
  { destruct (integer_text_nonempty s ltac:(lia)) as (c & t & -> & Hc). destruct t; eexists _, _; split; (reflexivity || exact Hc). }
  assert (B : forall u c t, u = c :: t -> is_digit c = true -> read_sign u = (false, u) /\ u <> [78; 97; 78] /\ u <> [73; 110; 102; 105; 110; 105; 116; 121]).
  { intros u c t -> Hc. cbn [read_sign]. rewrite (digit_not c 45 Hc eq_refl). split; [reflexivity|].
    split; intros H; injection H as -> _; discriminate Hc. }
  destruct T as (c & t & T & Hc). destruct (B _ c t T Hc) as (S & N1 & N2).
  assert (M : read_mantissa (c :: t) = Some (s, digits s - 1, 69 :: exponent_text (e + digits s - 1)))
    by (rewrite <- T; apply read_pointed, Hs).
  assert (F : forall b, match read_mantissa (c :: t) with
       | Some (v, n, c :: rest) =>
           if c =? 69 then match read_integer rest with Some e => Some (Number b v (e - n)) | None => None end else None
       | _ => None end = Some (Number b s e)).
  { intros b. rewrite M, read_exponent. cbn [Z.eqb Pos.eqb]. do 2 f_equal. lia. }
  unfold scientific. fold (exponent_text (e + digits s - 1)). rewrite T in *. unfold read_text.
  destruct neg; cbn [app].
  - cbn [read_sign Z.eqb Pos.eqb]. destruct (list_eq_dec Z.eq_dec _ [78; 97; 78]) as [H|_]; [discriminate H|].
    destruct (list_eq_dec Z.eq_dec _ _) as [H|_]; [contradiction | apply F].
  - rewrite S. destruct (list_eq_dec Z.eq_dec _ [78; 97; 78]) as [H|_]; [contradiction|].
    destruct (list_eq_dec Z.eq_dec _ _) as [H|_]; [contradiction | apply F].
Qed.

(** ** fp_to_chars_n *)
Definition minus (neg : bool) : list Z := if neg then [45] else [].
Lemma minus_length neg : text_length (minus neg) = if neg then 1 else 0.
Proof. destruct neg; reflexivity. Qed.
Lemma put_sign_ok f x b : pattern f x -> text_length (minus (negative f x)) <= capacity b ->
  exists b', put_sign f x b 0 = Ok (b', text_length (minus (negative f x))) /\ written b 0 (minus (negative f x)) b'.
Proof.
  intros Hx Hc. unfold put_sign. rewrite <- (negative_model f x Hx). destruct (negative f x); cbn [minus] in *.
  - change (text_length [45]) with 1 in *. destruct (store_written b 0 char_minus ltac:(lia)) as (b' & -> & W). cbn [bind].
    rewrite ptr_ok by (rewrite (proj1 W); lia). exists b'. split; [reflexivity | exact W].
  - exists b. split; [reflexivity | apply written_nil].
Qed.
Lemma scientific_minus neg s e : scientific neg s e = minus neg ++ scientific false s e.
Proof. destruct neg; reflexivity. Qed.

(** the text written for an input when grisu_exact gives [r] *)
Definition text_of (f : fmt) (x : Z) (r : fp_t) : list Z :=
  if finite f x then
    if is_nonzero f x then scientific (negative f x) (fp_significand r) (fp_exponent r)
    else minus (negative f x) ++ [48; 69; 48]
  else if nan f x then [78; 97; 78] else minus (negative f x) ++ [73; 110; 102; 105; 110; 105; 116; 121].

Lemma nan_shift f x : pattern f x -> finite f x = false ->
  negb (wrap (extended_precision f) (Z.shiftl x (exponent_bits f + 1)) =? 0) = nan f x.
Proof.
  intros Hx Hf. pose proof (three_kinds f x) as K. rewrite Hf, infinite_fields in K.
  rewrite finite_model, is_finite_expo in Hf. apply negb_false_iff in Hf. rewrite Hf in K. cbn [andb] in K.
  assert (E : wrap (extended_precision f) (Z.shiftl x (exponent_bits f + 1)) = 2 ^ (exponent_bits f + 1) * frac f x).
  { unfold wrap, frac. rewrite Z.shiftl_mul_pow2 by (destruct f; discriminate).
    replace (2 ^ extended_precision f) with (2 ^ precision f * 2 ^ (exponent_bits f + 1)) by (destruct f; reflexivity).
    rewrite Z.mul_mod_distr_r by (destruct f; discriminate). ring. }
  rewrite E. assert (0 < 2 ^ (exponent_bits f + 1)) by (destruct f; reflexivity).
  destruct (Z.eqb_spec (2 ^ (exponent_bits f + 1) * frac f x) 0), (Z.eqb_spec (frac f x) 0), (nan f x); cbn [negb]; try reflexivity; try lia; nia.
Qed.

Lemma chars_n_ok cfg f m crs x r b : pattern f x ->
  (input f x -> grisu_exact cfg f false m crs assert_finite x = Ok r /\
    (0 < fp_significand r /\ digits (fp_significand r) <= max_digits f /\
     sci_min f <= fp_exponent r + digits (fp_significand r) - 1 <= sci_max f)) ->
  text_length (text_of f x r) <= capacity b ->
  exists b', fp_to_chars_n cfg f m crs x b = Ok (b', text_length (text_of f x r)) /\ written b 0 (text_of f x r) b'.
Proof.
  intros Hx Hr. unfold text_of, fp_to_chars_n. rewrite finite_model. pose proof (finite_model f x) as FM.
  destruct (Model.is_finite f x) eqn:Fi.
  - destruct (is_nonzero f x) eqn:Nz.
    + assert (Hin : input f x) by (split; [exact Hx|]; split; [exact FM | apply nonzero_model; assumption]).
      destruct (Hr Hin) as (Eg & Hs & Hd & Hsci). rewrite scientific_minus. intros Hc. rewrite text_length_app in Hc.
      pose proof (text_length_nonneg (scientific false (fp_significand r) (fp_exponent r))).
      pose proof (text_length_nonneg (minus (negative f x))).
      destruct (put_sign_ok f x b Hx ltac:(lia)) as (b1 & -> & W1). cbn [bind]. rewrite Eg. cbn [bind].
      destruct (impl_ok cfg f r b1 (text_length (minus (negative f x)))) as (b2 & E2 & W2); try assumption; try lia.
      { destruct f; cbn in *; lia. }
      { rewrite (proj1 W1). lia. }
      exists b2. rewrite text_length_app. split; [exact E2|]. eapply written_app; [exact W1 | exact W2].
    + intros Hc. rewrite text_length_app in Hc. change (text_length [48; 69; 48]) with 3 in Hc.
      pose proof (text_length_nonneg (minus (negative f x))).
      destruct (put_sign_ok f x b Hx ltac:(lia)) as (b1 & -> & W1). cbn [bind].
      destruct (memcpy_written text_zero b1 (text_length (minus (negative f x)))) as (b2 & -> & W2); try lia.
      { rewrite (proj1 W1). exact Hc. }
      cbn [bind]. rewrite ptr_ok by (rewrite (proj1 W2), (proj1 W1); lia). exists b2. rewrite text_length_app. split; [reflexivity|].
      eapply written_app; [exact W1 | exact W2].
  - rewrite nan_shift by assumption. destruct (nan f x).
    + change (text_length [78; 97; 78]) with 3. intros Hc.
      destruct (memcpy_written text_nan b 0) as (b2 & -> & W2); [lia | exact Hc|]. cbn [bind].
      rewrite ptr_ok by (rewrite (proj1 W2); lia). exists b2. split; [reflexivity | exact W2].
    + intros Hc. rewrite text_length_app in Hc. change (text_length [73; 110; 102; 105; 110; 105; 116; 121]) with 8 in Hc.
      pose proof (text_length_nonneg (minus (negative f x))).
      destruct (put_sign_ok f x b Hx ltac:(lia)) as (b1 & -> & W1). cbn [bind].
      destruct (memcpy_written text_infinity b1 (text_length (minus (negative f x)))) as (b2 & -> & W2); try lia.
      { rewrite (proj1 W1). exact Hc. }
      cbn [bind]. rewrite ptr_ok by (rewrite (proj1 W2), (proj1 W1); lia). exists b2. rewrite text_length_app. split; [reflexivity|].
      eapply written_app; [exact W1 | exact W2].
Qed.
Lemma chars_ok cfg f m crs x r b : pattern f x ->
  (input f x -> grisu_exact cfg f false m crs assert_finite x = Ok r /\
    (0 < fp_significand r /\ digits (fp_significand r) <= max_digits f /\
     sci_min f <= fp_exponent r + digits (fp_significand r) - 1 <= sci_max f)) ->
  text_length (text_of f x r) + 1 <= capacity b ->
  exists b', fp_to_chars cfg f m crs x b = Ok (b', text_length (text_of f x r)) /\ written b 0 (text_of f x r ++ [0]) b'.
Proof.
  intros Hx Hr Hc. destruct (chars_n_ok cfg f m crs x r b Hx Hr ltac:(lia)) as (b1 & E1 & W1).
  unfold fp_to_chars. rewrite E1. cbn [bind]. pose proof (text_length_nonneg (text_of f x r)).
  destruct (store_written b1 (text_length (text_of f x r)) 0) as (b2 & -> & W2); [rewrite (proj1 W1); lia|].
  exists b2. split; [reflexivity|]. eapply written_app; [exact W1 | exact W2].
Qed.

Lemma scientific_length f neg s e : 0 < s -> digits s <= max_digits f -> sci_min f <= e + digits s - 1 <= sci_max f ->
  text_length (scientific neg s e) <= max_text f.
Proof.
  intros Hs Hd He. rewrite scientific_minus, text_length_app, minus_length.
  change (scientific false s e) with (pointed (integer_text s) ++ 69 :: exponent_text (e + digits s - 1)).
  rewrite text_length_app, text_length_cons, pointed_length, (integer_text_length s Hs).
  set (x := e + digits s - 1) in *.
  assert (L : forall n z, 0 < n -> 0 <= z < 10 ^ n -> text_length (integer_text z) <= n).
  { intros n z Hn Hz. destruct (Z.eq_dec z 0) as [->|N]; [change (text_length (integer_text 0)) with 1; lia|].
    rewrite integer_text_length by lia. apply digits_le; lia. }
  assert (X : text_length (exponent_text x) <= match f with Binary32 => 3 | Binary64 => 4 end).
  { unfold exponent_text. destruct f; cbn [sci_min sci_max] in He; destruct (Z.ltb_spec x 0).
    - rewrite text_length_cons. pose proof (L 2 (- x) ltac:(lia) ltac:(cbn; lia)). lia.
    - pose proof (L 2 x ltac:(lia) ltac:(cbn; lia)). lia.
    - rewrite text_length_cons. pose proof (L 3 (- x) ltac:(lia) ltac:(cbn; lia)). lia.
    - pose proof (L 3 x ltac:(lia) ltac:(cbn; lia)). lia. }
  destruct neg, f; cbn [max_digits max_text] in *; destruct (1 <? digits s); lia.
Qed.
