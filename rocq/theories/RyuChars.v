(** * The text Ryu writes is the one fp_to_chars writes *)

From Coq Require Import ZArith Reals List Lia Bool.
From Flocq Require Import Core.
From Verif Require Import Machine Tables Model Spec Link Reading Bridge Results Claims
  Signs CharsModel TextSpec Chars Texts Outputs RyuModel Arith RyuArith RyuScaled RyuDecimal.
Import ListNotations.
Open Scope Z_scope.

(** ** The pieces of to_chars *)
Lemma put_pair_eq : put_pair = copy_pair.
Proof. reflexivity. Qed.
Lemma memcpy_capacity t : forall b p b', memcpy b p t = Ok b' -> capacity b' = capacity b.
Proof.
  induction t as [|v t IH]; intros b p b' H; cbn [memcpy] in H; [congruence|].
  unfold store in H. destruct ((0 <=? p) && (p <? capacity b)); [|discriminate]. cbn [bind] in H. apply IH in H. exact H.
Qed.
Lemma back_capacity b base L i d off b' : copy_pair_back b base L i d off = Ok b' -> capacity b' = capacity b.
Proof.
  unfold copy_pair_back, copy_pair, ptr. do 3 (destruct (_ && _); [|discriminate]; cbn [bind]).
  destruct (read_array _ _); try discriminate. cbn [bind]. destruct (read_array _ _); try discriminate. cbn [bind]. apply memcpy_capacity.
Qed.
Lemma back_eq b base L i d off : 0 <= base <= capacity b -> put_pair_back b base L i d off = copy_pair_back b base L i d off.
Proof. intros H. unfold put_pair_back. rewrite ptr_ok by lia. reflexivity. Qed.
Lemma back_bind {A} b base L i d off (k k' : buffer -> outcome A) : 0 <= base <= capacity b ->
  (forall b', 0 <= base <= capacity b' -> k b' = k' b') ->
  bind (put_pair_back b base L i d off) k = bind (copy_pair_back b base L i d off) k'.
Proof.
  intros H K. rewrite back_eq by exact H. destruct (copy_pair_back b base L i d off) eqn:E; cbn [bind]; try reflexivity.
  apply K. rewrite (back_capacity _ _ _ _ _ _ _ E). exact H.
Qed.

Lemma length_eq cfg f v : decimalLength cfg f v = decimal_length cfg f v.
Proof. destruct f; reflexivity. Qed.
Lemma split_eq rc f b base L s : 0 <= base <= capacity b -> 0 <= s < 2 ^ 64 -> to_chars_split rc f b base L s = split_8 f b base L s.
Proof.
  intros H Hs. destruct f; [reflexivity|]. cbn [to_chars_split split_8]. rewrite div1e8_ok by exact Hs. destruct (negb _); [|reflexivity]. cbv zeta.
  apply back_bind; [exact H|]. intros b1 H1. apply back_bind; [exact H1|]. intros b2 H2. apply back_bind; [exact H2|]. intros b3 H3.
  apply back_bind; [exact H3|]. reflexivity.
Qed.
Lemma loop_eq base L : forall fuel b i o, 0 <= base <= capacity b -> to_chars_loop fuel b base L i o = four_digit_loop fuel b base L i o.
Proof.
  induction fuel as [|n IH]; intros b i o H; [reflexivity|]. cbn [to_chars_loop four_digit_loop]. destruct (10000 <=? o); [|reflexivity]. cbv zeta.
  apply back_bind; [exact H|]. intros b1 H1. apply back_bind; [exact H1|]. intros b2 H2. apply IH. exact H2.
Qed.
Lemma two_eq b base L i o : 0 <= base <= capacity b -> to_chars_two b base L i o = two_digits b base L i o.
Proof. intros H. unfold to_chars_two, two_digits. destruct (100 <=? o); [|reflexivity]. cbv zeta. apply back_bind; [exact H|]. reflexivity. Qed.
Lemma first_eq b base L i o : 0 <= base -> 0 <= i <= L -> base + L < 2 ^ 32 -> to_chars_first b base L i o = first_digits b base L i o.
Proof.
  intros H Hi HL. unfold to_chars_first, first_digits. change DIGIT_TABLE with radix_100_table. destruct (10 <=? o); [|reflexivity]. cbv zeta.
  rewrite (wrap_small 32 (base + L)), (wrap_small 32 (base + L - i)), (wrap_small 32 (L - i)) by lia. replace (base + L - i) with (base + (L - i)) by ring. reflexivity.
Qed.
Lemma point_refines b base L r : 0 <= base -> 0 <= L -> base + L + 1 < 2 ^ 31 -> put_point b base L = Ok r -> to_chars_point b base L = Ok r.
Proof.
  intros H HL Hb. unfold put_point, to_chars_point, ptr. destruct (Z.ltb_spec 1 L).
  - destruct (store b (base + 1) char_dot) eqn:E; try discriminate. change 46 with char_dot. rewrite E. cbn [bind].
    rewrite (wrap_small 32 (L + 1)) by lia. rewrite (wrap_small 32) by lia. rewrite to_int_small by lia.
    destruct (_ && _); [|discriminate]. cbn [bind]. auto.
  - destruct (_ && _); [|discriminate]. cbn [bind]. rewrite i32_ok by lia. auto.
Qed.

(** ** The exponent *)
Lemma short_text b p x : 0 <= p < 1000 -> 0 <= x < 100 -> p + text_length (integer_text x) <= capacity b ->
  exists b', (if 10 <=? x then
      off <- i32 (2 * x) ;; q <- ptr b 0 p ;; b <- put_pair b q off ;; p <- i32 (p + 2) ;; Ok (b, p)
    else b <- store b p (to_char (48 + x)) ;; p <- i32 (p + 1) ;; Ok (b, p)) = Ok (b', p + text_length (integer_text x)) /\
    written b p (integer_text x) b'.
Proof.
  intros Hp Hx. destruct (Z.leb_spec 10 x).
  - rewrite integer_text_2 by lia. change (text_length _) with 2. intros Hc. rewrite i32_ok by lia. cbn [bind]. rewrite ptr_ok by lia. cbn [bind]. rewrite put_pair_eq, Z.add_0_l.
    destruct (copy_pair_written b p x ltac:(lia) ltac:(lia) Hc) as (b' & -> & W). cbn [bind].
    rewrite i32_ok by lia. exists b'. split; [reflexivity | exact W].
  - rewrite integer_text_1 by lia. change (text_length _) with 1. intros Hc.
    assert (to_char (48 + x) = 48 + x) as -> by (unfold to_char, wrap; apply Z.mod_small; lia).
    destruct (store_written b p (48 + x) ltac:(lia)) as (b' & -> & W). cbn [bind].
    rewrite i32_ok by lia. exists b'. split; [reflexivity | exact W].
Qed.

Lemma exponent_text_ok f b p e L : 0 <= p < 900 -> 0 < L < 100 -> Z.abs (e + L - 1) < exponent_limit f ->
  p + 1 + text_length (exponent_text (e + L - 1)) <= capacity b ->
  exists b', to_chars_exponent f b p e L = Ok (b', p + 1 + text_length (exponent_text (e + L - 1))) /\
    written b p (69 :: exponent_text (e + L - 1)) b'.
Proof.
  intros Hp HL Hx Hc. set (x := e + L - 1) in *. pose proof (text_length_nonneg (exponent_text x)) as Hn.
  assert (Hlim : exponent_limit f <= 1000) by (destruct f; cbn; lia).
  unfold to_chars_exponent.
  destruct (store_written b p 69 ltac:(lia)) as (b1 & -> & W1). cbn [bind].
  rewrite i32_ok by lia. cbn [bind int_sum]. rewrite to_int_small by lia.
  rewrite i32_ok by lia. cbn [bind]. replace (e + L + -1) with x by (unfold x; ring). rewrite i32_ok by lia. cbn [bind].
  assert (S : exists b2 p2, (if x <? 0 then b <- store b1 (p + 1) 45 ;; p <- i32 (p + 1 + 1) ;; exp <- i32 (- x) ;; Ok (b, p, exp)
     else Ok (b1, p + 1, x)) = Ok (b2, p2, Z.abs x) /\
     written b1 (p + 1) (if x <? 0 then [45] else []) b2 /\ p2 = p + 1 + (if x <? 0 then 1 else 0) /\
     exponent_text x = (if x <? 0 then [45] else []) ++ integer_text (Z.abs x)).
  { unfold exponent_text in *. destruct (Z.ltb_spec x 0).
    - rewrite text_length_cons in Hc. pose proof (text_length_nonneg (integer_text (- x))).
      destruct (store_written b1 (p + 1) 45) as (b2 & -> & W2); [rewrite (proj1 W1); lia|]. cbn [bind].
      rewrite i32_ok by lia. cbn [bind]. rewrite i32_ok by lia. cbn [bind].
      exists b2, (p + 1 + 1). rewrite Z.abs_neq by lia. repeat split; apply W2.
    - exists b1, (p + 1). rewrite Z.abs_eq by lia. repeat split; [|lia]. apply written_nil. }
  destruct S as (b2 & p2 & -> & W2 & Ep2 & Et). cbn [bind].
  assert (Hlen : text_length (exponent_text x) = (if x <? 0 then 1 else 0) + text_length (integer_text (Z.abs x)))
    by (rewrite Et, text_length_app; destruct (x <? 0); reflexivity).
  assert (F : forall b3 q, written b2 p2 (integer_text (Z.abs x)) b3 -> q = p2 + text_length (integer_text (Z.abs x)) ->
     exists b', Ok (b3, q) = Ok (b', p + 1 + text_length (exponent_text x)) /\ written b p (69 :: exponent_text x) b').
  { intros b3 q W3 ->. exists b3. split; [f_equal; f_equal; lia|]. rewrite Et. change (69 :: ?t) with ([69] ++ t).
    eapply written_app; [exact W1|]. change (text_length [69]) with 1. eapply written_app; [exact W2|].
    replace (p + 1 + text_length (if x <? 0 then [45] else [])) with p2 by (rewrite Ep2; destruct (x <? 0); reflexivity). exact W3. }
  assert (Hp2 : 0 <= p2 < 1000) by (rewrite Ep2; destruct (x <? 0); lia).
  assert (Hc2 : p2 + text_length (integer_text (Z.abs x)) <= capacity b2) by (rewrite (proj1 W2), (proj1 W1), Ep2; lia).
  clear W1 W2 Et Hlen Hc Ep2. set (y := Z.abs x) in *. assert (Hy : 0 <= y) by (unfold y; lia). clearbody y.
  destruct (match f with Binary32 => false | Binary64 => 100 <=? y end) eqn:Big.
  - destruct f; [discriminate|]. apply Z.leb_le in Big.
    cbn in Hx. assert (Hq : 0 <= y / 10 < 100) by (Z.div_mod_to_equations; lia).
    rewrite integer_text_3 in Hc2 by lia. cbn in Hc2.
    rewrite i32_ok by lia. cbn [bind]. rewrite ptr_ok by lia. cbn [bind]. rewrite put_pair_eq, Z.add_0_l.
    destruct (copy_pair_written b2 p2 (y / 10) Hq ltac:(lia) ltac:(lia)) as (b3 & -> & W3). cbn [bind].
    assert (to_char (48 + y mod 10) = 48 + y mod 10) as ->
      by (unfold to_char, wrap; apply Z.mod_small; pose proof (Z.mod_pos_bound y 10); lia).
    destruct (store_written b3 (p2 + 2) (48 + y mod 10)) as (b4 & -> & W4); [rewrite (proj1 W3); lia|]. cbn [bind].
    rewrite i32_ok by lia. cbn [bind]. apply F; [|rewrite integer_text_3 by lia; reflexivity].
    rewrite integer_text_3 by lia. change [?a; ?c; ?d] with ([a; c] ++ [d]). eapply written_app; [exact W3 | exact W4].
  - assert (y < 100) by (destruct f; [cbn in Hx; lia|apply Z.leb_gt in Big; lia]).
    destruct (short_text b2 p2 y Hp2 ltac:(lia) Hc2) as (b3 & E & W). rewrite E. apply F; [exact W | reflexivity].
Qed.

(** ** to_chars *)
Lemma to_chars_ok rc f v neg b : 0 < mantissa v -> digits (mantissa v) <= max_digits f ->
  Z.abs (exponent v + digits (mantissa v) - 1) < exponent_limit f ->
  text_length (scientific neg (mantissa v) (exponent v)) <= capacity b ->
  exists b', to_chars rc f v neg b = Ok (b', text_length (scientific neg (mantissa v) (exponent v))) /\
    written b 0 (scientific neg (mantissa v) (exponent v)) b'.
Proof.
  set (s := mantissa v). set (e := exponent v). intros Hs Hd He. rewrite scientific_minus, text_length_app. intros Hc.
  destruct (digits_bounds s Hs) as [HL1 HL2].
  assert (HLmax : digits s <= 17) by (destruct f; cbn in Hd; lia).
  assert (S64 : s < 2 ^ 64) by (assert (10 ^ digits s <= 10 ^ 17) by (apply Z.pow_le_mono_r; lia); lia).
  assert (Et : scientific false s e = pointed (integer_text s) ++ 69 :: exponent_text (e + digits s - 1)) by reflexivity.
  assert (El : text_length (scientific false s e) = text_length (pointed (integer_text s)) + 1 + text_length (exponent_text (e + digits s - 1)))
    by (rewrite Et, text_length_app, text_length_cons; lia).
  pose proof (text_length_nonneg (exponent_text (e + digits s - 1))) as Hn.
  set (base := text_length (minus neg)) in *. assert (Hb : 0 <= base <= 1 /\ base = b2z neg) by (unfold base; destruct neg; cbn; lia). destruct Hb as [Hb Eb].
  assert (B1 : exists b1, (if neg then store b 0 45 else Ok b) = Ok b1 /\ written b 0 (minus neg) b1).
  { pose proof (text_length_nonneg (scientific false s e)). destruct neg; cbn [minus]; [|exists b; split; [reflexivity|apply written_nil]].
    apply store_written. rewrite Eb in Hc. cbn [b2z] in Hc. lia. }
  destruct B1 as (b1 & E1 & W1). unfold to_chars. rewrite E1. cbn [bind]. rewrite <- Eb. fold s e. rewrite length_eq, decimal_length_ok by assumption. cbn [bind].
  assert (C1 : capacity b1 = capacity b) by apply W1.
  assert (Hroom : base + digits s < capacity b1).
  { rewrite C1. rewrite El, pointed_length, (integer_text_length s Hs) in Hc. destruct (1 <? digits s); lia. }
  rewrite split_eq by lia.
  destruct (split_ok f b1 base s Hs Hd ltac:(lia) Hroom) as (b2 & o & i & -> & P2 & Hi & Eo & Ho). cbn [bind].
  rewrite (wrap_small 32 o) by lia. assert (C2 : capacity b2 = capacity b1) by apply P2. rewrite loop_eq by lia.
  destruct (loop_ok b1 base s Hs ltac:(lia) Hroom 4 b2 i o P2) as (b3 & i3 & o3 & -> & P3 & Hi3 & Eo3 & Ho3); try lia. cbn [bind].
  assert (R : forall k z, 0 <= k -> z = s / 10 ^ k -> 1 <= z -> k < digits s).
  { intros k z Hk Ez Hz. pose proof (room s Hs k 0 Hk ltac:(lia)) as R. rewrite <- Ez in R. specialize (R Hz). lia. }
  assert (C3 : capacity b3 = capacity b1) by apply P3. rewrite two_eq by lia.
  pose proof (R i3 o3 Hi3 Eo3 ltac:(lia)).
  destruct (two_ok b1 base s Hs ltac:(lia) Hroom b3 i3 o3 P3 ltac:(lia) Eo3 Ho3) as (b4 & i4 & o4 & -> & P4 & Hi4 & Eo4 & Ho4). cbn [bind].
  pose proof (R i4 o4 Hi4 Eo4 ltac:(lia)). rewrite first_eq by lia.
  destruct (first_ok b1 base s Hs ltac:(lia) Hroom b4 i4 o4 P4 ltac:(lia) Eo4 Ho4) as (b5 & -> & M5). cbn [bind].
  destruct (point_ok b1 base s Hs ltac:(lia) Hroom b5 M5 ltac:(lia)) as (b6 & p & E6 & W6 & Ep). rewrite (point_refines b5 base (digits s) (b6, p) ltac:(lia) ltac:(lia) ltac:(lia) E6). cbn [bind].
  pose proof (text_length_nonneg (pointed (integer_text s))) as Hn2.
  assert (p < 900) by (rewrite Ep, pointed_length, (integer_text_length s Hs); destruct (1 <? digits s); lia).
  destruct (exponent_text_ok f b6 p e (digits s)) as (b7 & -> & W7); [lia | lia | exact He | rewrite (proj1 W6), C1; lia|].
  exists b7. split; [f_equal; f_equal; lia|]. eapply written_app; [exact W1|]. rewrite Et. eapply written_app; [exact W6|]. rewrite Z.add_0_l. fold base. rewrite <- Ep. exact W7.
Qed.

(** ** Whole calls *)
Lemma special_ok b (neg ex ma : bool) :
  let t := if ma then [78; 97; 78] else minus neg ++ (if ex then [73; 110; 102; 105; 110; 105; 116; 121] else [48; 69; 48]) in
  text_length t <= capacity b -> exists b', copy_special_str b neg ex ma = Ok (b', text_length t) /\ written b 0 t b'.
Proof.
  intros t Hc. unfold copy_special_str. subst t. destruct ma.
  - destruct (memcpy_written [78; 97; 78] b 0) as (b2 & -> & W2); [lia | exact Hc|]. exists b2. split; [reflexivity | exact W2].
  - rewrite text_length_app in *. set (t := if ex then _ else _) in *.
    assert (Hb : b2z neg = text_length (minus neg)) by (destruct neg; reflexivity).
    pose proof (text_length_nonneg t). pose proof (text_length_nonneg (minus neg)).
    assert (B1 : exists b1, (if neg then store b 0 45 else Ok b) = Ok b1 /\ written b 0 (minus neg) b1).
    { destruct neg; cbn [minus]; [|exists b; split; [reflexivity|apply written_nil]]. apply store_written. cbn [b2z] in Hb. lia. }
    destruct B1 as (b1 & E1 & W1). rewrite E1. cbn [bind]. rewrite Hb, ptr_ok by (rewrite (proj1 W1); lia). cbn [bind]. rewrite Z.add_0_l.
    destruct (memcpy_written t b1 (text_length (minus neg))) as (b2 & E2 & W2); [lia | rewrite (proj1 W1); lia|].
    exists b2. split; [|eapply written_app; [exact W1 | exact W2]].
    subst t. destruct ex; rewrite E2; reflexivity.
Qed.

Lemma land_mask x n : 0 <= n -> Z.land x (2 ^ n - 1) = x mod 2 ^ n.
Proof. intros H. rewrite <- Z.land_ones by exact H. rewrite Z.ones_equiv, <- Z.sub_1_r. reflexivity. Qed.
Lemma ryu_fields f x : pattern f x ->
  negb (Z.land (Z.shiftr x (mantissa_bits f + ieee_exponent_bits f)) 1 =? 0) = negative f x /\
  Z.land x (2 ^ mantissa_bits f - 1) = frac f x /\
  Z.land (Z.shiftr x (mantissa_bits f)) (2 ^ ieee_exponent_bits f - 1) = expo f x /\
  2 ^ ieee_exponent_bits f = 2 ^ exponent_bits f.
Proof.
  intros Hx. rewrite (negative_model f x Hx).
  assert (M : mantissa_bits f = precision f) by (destruct f; reflexivity).
  assert (E : ieee_exponent_bits f = exponent_bits f) by (destruct f; reflexivity).
  assert (P : 0 <= precision f /\ 0 <= exponent_bits f) by (destruct f; split; discriminate).
  split; [|rewrite M, E; split; [apply land_mask, P | split; [|reflexivity]]].
  - unfold is_negative. assert (mantissa_bits f + ieee_exponent_bits f = extended_precision f - 1) as -> by (destruct f; reflexivity).
    destruct (fields f x) as (s & Hs & _ & _); [destruct f; exact Hx|].
    assert (R : 0 <= Z.shiftr x (extended_precision f - 1) < 2).
    { rewrite Z.shiftr_div_pow2 by (destruct f; discriminate). assert (0 < 2 ^ (extended_precision f - 1)) by (destruct f; reflexivity).
      assert (2 ^ extended_precision f = 2 * 2 ^ (extended_precision f - 1)) by (destruct f; reflexivity).
      assert (0 <= x < 2 ^ extended_precision f) by (destruct f; exact Hx).
      split; [apply Z.div_pos; lia | apply Z.div_lt_upper_bound; lia]. }
    assert (Z.shiftr x (extended_precision f - 1) = 0 \/ Z.shiftr x (extended_precision f - 1) = 1) as [-> | ->] by lia; reflexivity.
  - rewrite Z.shiftr_div_pow2 by apply P. apply land_mask, P.
Qed.

Section Whole.
Variables (rc : ryu_config) (cfg : config) (f : fmt) (x : Z) (r : fp_t).
Hypothesis Hx : pattern f x.
Hypothesis Hr : input f x -> grisu_exact cfg f false nearest_to_even tie_to_even assert_finite x = Ok r.

Lemma ryu_n_ok b : text_length (text_of f x r) <= capacity b ->
  exists b', ryu_buffered_n rc f x b = Ok (b', text_length (text_of f x r)) /\ written b 0 (text_of f x r) b'.
Proof.
  unfold ryu_buffered_n. destruct (ryu_fields f x Hx) as (-> & -> & -> & ->).
  pose proof (finite_model f x) as FM. rewrite is_finite_expo in FM.
  assert (Hx' : 0 <= x < 2 ^ extended_precision f) by (destruct f; exact Hx).
  pose proof (is_nonzero_fields f x Hx') as NZ. pose proof (three_kinds f x) as K. rewrite infinite_fields in K.
  unfold text_of in *.
  destruct (Z.eqb_spec (expo f x) (2 ^ exponent_bits f - 1)) as [A|A]; cbn [orb negb andb] in *; rewrite FM in *.
  - assert (expo f x <> 0) by (rewrite A; destruct f; discriminate).
    destruct (Z.eqb_spec (expo f x) 0); [contradiction|]. cbn [negb].
    replace (nan f x) with (negb (frac f x =? 0)) by (destruct (frac f x =? 0), (nan f x); (reflexivity || (cbn in K; lia))).
    apply (special_ok b (negative f x) true (negb (frac f x =? 0))).
  - destruct ((expo f x =? 0) && (frac f x =? 0)) eqn:Z0.
    + rewrite NZ. cbn [negb]. apply andb_prop in Z0. destruct Z0 as [-> ->]. cbn [negb].
      apply (special_ok b (negative f x) false false).
    + rewrite NZ. cbn [negb].
      assert (Hin : input f x) by (split; [exact Hx|]; split; [exact FM | apply nonzero_model; [exact Hx | exact FM | rewrite NZ; reflexivity]]).
      destruct (ryu_decimal_ok rc cfg f x Hin) as (v & Ev & Dv).
      unfold ryu_decimal in Ev. rewrite Ev. cbn [bind].
      pose proof (grisu_exact_ok cfg f false nearest_to_even tie_to_even assert_finite x _ _ Hin Dv) as G.
      destruct (all_ranges cfg f false nearest_to_even tie_to_even assert_finite x Hin) as (r' & E' & R1 & R2 & R3); [reflexivity|].
      rewrite G in E'. injection E' as <-. rewrite (Hr Hin) in G. injection G as ->. cbn [fp_significand fp_exponent] in *.
      apply to_chars_ok; try assumption. destruct f; cbn in R3 |- *; lia.
Qed.
Lemma ryu_ok b : text_length (text_of f x r) + 1 <= capacity b ->
  exists b', ryu_buffered rc f x b = Ok (b', text_length (text_of f x r)) /\ written b 0 (text_of f x r ++ [0]) b'.
Proof.
  intros Hc. destruct (ryu_n_ok b ltac:(lia)) as (b1 & E1 & W1).
  unfold ryu_buffered. rewrite E1. cbn [bind]. pose proof (text_length_nonneg (text_of f x r)).
  destruct (store_written b1 (text_length (text_of f x r)) 0) as (b2 & -> & W2); [rewrite (proj1 W1); lia|].
  exists b2. split; [reflexivity|]. eapply written_app; [exact W1 | exact W2].
Qed.
End Whole.

(** ** Claims *)
Lemma some_result cfg f x : pattern f x -> exists r,
  (input f x -> grisu_exact cfg f false nearest_to_even tie_to_even assert_finite x = Ok r /\
    (0 < fp_significand r /\ digits (fp_significand r) <= max_digits f /\
     sci_min f <= fp_exponent r + digits (fp_significand r) - 1 <= sci_max f)).
Proof.
  intros Hx. destruct (Model.is_finite f x) eqn:F; [destruct (is_nonzero f x) eqn:N|].
  - assert (Hin : input f x) by (split; [exact Hx|]; split; [rewrite finite_model; exact F | apply nonzero_model; try assumption; rewrite finite_model; exact F]).
    destruct (all_ranges cfg f false nearest_to_even tie_to_even assert_finite x Hin) as (r & E & A); [reflexivity|]. exists r. intros _. auto.
  - exists (mk_fp 0 0 None). intros (_ & Fi & V). apply nonzero_model in V; [congruence | assumption | assumption].
  - exists (mk_fp 0 0 None). intros (_ & Fi & _). rewrite finite_model in Fi. congruence.
Qed.
Lemma text_of_length f x r : pattern f x ->
  (input f x -> 0 < fp_significand r /\ digits (fp_significand r) <= max_digits f /\
     sci_min f <= fp_exponent r + digits (fp_significand r) - 1 <= sci_max f) ->
  text_length (text_of f x r) <= max_text f.
Proof.
  intros Hx Hr. unfold text_of. destruct (finite f x) eqn:F; [destruct (is_nonzero f x) eqn:N|].
  - destruct Hr as (A & B & C); [split; [exact Hx|]; split; [exact F | apply nonzero_model; assumption]|]. apply scientific_length; assumption.
  - destruct (negative f x), f; vm_compute; discriminate.
  - destruct (nan f x), (negative f x), f; vm_compute; discriminate.
Qed.

