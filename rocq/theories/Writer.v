(** * float_to_chars and double_to_chars on any decimal *)

From Coq Require Import ZArith List Bool Lia.
From Flocq Require Import Core.
From Verif Require Import Machine Model CharsModel Spec TextSpec WriterSpec Chars Texts.
Import ListNotations.
Open Scope Z_scope.

Lemma limits f : exponents_below f = exponent_limit f.
Proof. destruct f; reflexivity. Qed.

(** what is written before the exponent *)
Lemma mantissa_ok cfg f v b base : 0 <= fp_significand v < 10 ^ max_digits f -> 0 <= base -> base + 19 <= capacity b ->
  exists b' p L, fp_to_chars_impl cfg f v b base = put_exponent f b' p (fp_exponent v) L /\ 1 <= L <= 17 /\ 1 <= p - base <= 18 /\
    capacity b' = capacity b /\ fp_exponent v + L - 1 = scientific_exponent (fp_significand v) (fp_exponent v) /\
    (fp_significand v = 0 -> written b base [48] b' /\ p = base + 1 /\ L = 1).
Proof.
  set (s := fp_significand v). intros Hs Hb Hc. unfold scientific_exponent.
  assert (H17 : max_digits f <= 17) by (destruct f; cbn; lia).
  destruct (Z.eqb_spec s 0) as [E|NE].
  - unfold fp_to_chars_impl. fold s. rewrite E.
    assert (decimal_length cfg f 0 = Ok 1) as -> by (destruct f; unfold decimal_length, cassert; destruct (cfg_ndebug cfg); reflexivity). cbn [bind].
    assert (split_8 f b base 1 0 = Ok (b, 0, 0)) as -> by (destruct f; reflexivity). cbn [bind].
    change (wrap 32 0) with 0. change (four_digit_loop 4 b base 1 0 0) with (Ok (b, 0, 0)). cbn [bind].
    change (two_digits b base 1 0 0) with (Ok (b, 0, 0)). cbn [bind].
    change (first_digits b base 1 0 0) with (store b base 48).
    destruct (store_written b base 48 ltac:(lia)) as (b1 & -> & W). cbn [bind].
    change (put_point b1 base 1) with (p <- ptr b1 base 1 ;; Ok (b1, p)).
    rewrite ptr_ok by (rewrite (proj1 W); lia). cbn [bind].
    exists b1, (base + 1), 1. split; [reflexivity|]. split; [lia|]. split; [lia|]. split; [apply W|]. split; [lia|].
    intros _. split; [exact W|]. split; reflexivity.
  - assert (Hpos : 0 < s) by lia.
    assert (Hd : digits s <= max_digits f) by (apply digits_le; [exact Hpos | destruct f; cbn; lia | apply Hs]).
    destruct (digits_bounds s Hpos) as [HL1 _].
    assert (Hroom : base + digits s < capacity b) by lia.
    unfold fp_to_chars_impl. fold s. rewrite decimal_length_ok by assumption. cbn [bind].
    destruct (split_ok f b base s Hpos Hd Hb Hroom) as (b1 & o & i & -> & P1 & Hi & Eo & Ho). cbn [bind].
    assert (wrap 32 o = o) as -> by (apply Z.mod_small; lia).
    destruct (loop_ok b base s Hpos Hb Hroom 4 b1 i o P1) as (b2 & i2 & o2 & -> & P2 & Hi2 & Eo2 & Ho2); try lia. cbn [bind].
    assert (R : forall k z, 0 <= k -> z = s / 10 ^ k -> 1 <= z -> k < 100).
    { intros k z Hk Ez Hz. pose proof (room s Hpos k 0 Hk ltac:(lia)) as R. rewrite <- Ez in R. specialize (R Hz). lia. }
    destruct (two_ok b base s Hpos Hb Hroom b2 i2 o2 P2 (conj Hi2 (R i2 o2 Hi2 Eo2 ltac:(lia))) Eo2 Ho2) as (b3 & i3 & o3 & -> & P3 & Hi3 & Eo3 & Ho3). cbn [bind].
    destruct (first_ok b base s Hpos Hb Hroom b3 i3 o3 P3 (conj Hi3 (R i3 o3 Hi3 Eo3 ltac:(lia))) Eo3 Ho3) as (b4 & -> & M4). cbn [bind].
    destruct (point_ok b base s Hpos Hb Hroom b4 M4 ltac:(lia)) as (b5 & p & -> & W5 & Ep). cbn [bind].
    exists b5, p, (digits s). split; [reflexivity|]. split; [lia|].
    split. { rewrite pointed_length, (integer_text_length s Hpos) in Ep. destruct (1 <? digits s); lia. }
    split; [apply W5|]. split; [reflexivity|]. intros E. contradiction.
Qed.

Lemma read_zero e : read_text (decimal_text 0 e) = Some (Number false 0 e).
Proof.
  unfold decimal_text. cbn [Z.eqb app]. change (if e <? 0 then _ else _) with (exponent_text e). unfold read_text, read_sign.
  cbn [Z.eqb Pos.eqb]. destruct (list_eq_dec Z.eq_dec _ [78; 97; 78]) as [H|_]; [discriminate H|].
  destruct (list_eq_dec Z.eq_dec _ _) as [H|_]; [discriminate H|].
  change (read_mantissa (48 :: 69 :: exponent_text e)) with (Some (0, 0, 69 :: exponent_text e)). cbn [Z.eqb Pos.eqb].
  rewrite read_exponent. do 2 f_equal. lia.
Qed.

Lemma writes cfg f v b base : 0 <= fp_significand v < 10 ^ max_digits f ->
  Z.abs (scientific_exponent (fp_significand v) (fp_exponent v)) < exponents_below f -> 0 <= base ->
  base + text_length (decimal_text (fp_significand v) (fp_exponent v)) <= capacity b ->
  exists b', fp_to_chars_impl cfg f v b base = Ok (b', base + text_length (decimal_text (fp_significand v) (fp_exponent v))) /\
    written b base (decimal_text (fp_significand v) (fp_exponent v)) b' /\
    read_text (decimal_text (fp_significand v) (fp_exponent v)) = Some (Number false (fp_significand v) (fp_exponent v)).
Proof.
  set (s := fp_significand v). set (e := fp_exponent v). rewrite limits. unfold scientific_exponent.
  intros Hs He Hb Hc. destruct (Z.eqb_spec s 0) as [E|NE].
  - rewrite E in *. pose proof (read_zero e) as RZ. unfold decimal_text in *. cbn [Z.eqb] in *.
    change (if e <? 0 then _ else _) with (exponent_text e) in *.
    change ([48; 69] ++ exponent_text e) with ([48] ++ 69 :: exponent_text e) in *.
    assert (Tl : text_length ([48] ++ 69 :: exponent_text e) = text_length (exponent_text e) + 1 + 1) by (cbn [app]; rewrite !text_length_cons; reflexivity).
    rewrite Tl in *. pose proof (text_length_nonneg (exponent_text e)) as Hn.
    unfold fp_to_chars_impl. fold s. fold e. rewrite E.
    assert (decimal_length cfg f 0 = Ok 1) as -> by (destruct f; unfold decimal_length, cassert; destruct (cfg_ndebug cfg); reflexivity). cbn [bind].
    assert (split_8 f b base 1 0 = Ok (b, 0, 0)) as -> by (destruct f; reflexivity). cbn [bind].
    change (wrap 32 0) with 0. change (four_digit_loop 4 b base 1 0 0) with (Ok (b, 0, 0)). cbn [bind].
    change (two_digits b base 1 0 0) with (Ok (b, 0, 0)). cbn [bind].
    change (first_digits b base 1 0 0) with (store b base 48).
    destruct (store_written b base 48 ltac:(lia)) as (b1 & -> & W). cbn [bind].
    change (put_point b1 base 1) with (p <- ptr b1 base 1 ;; Ok (b1, p)).
    rewrite ptr_ok by (rewrite (proj1 W); lia). cbn [bind].
    destruct (exponent_ok f b1 (base + 1) e 1) as (b2 & E2 & W2); [lia | lia | replace (e + 1 - 1) with e by lia; exact He |
      replace (e + 1 - 1) with e by lia; rewrite (proj1 W); lia |].
    replace (e + 1 - 1) with e in * by lia. rewrite E2. exists b2. split; [f_equal; f_equal; lia|]. split; [|exact RZ].
    eapply written_app; [exact W | exact W2].
  - assert (T : decimal_text s e = scientific false s e) by (unfold decimal_text; destruct (Z.eqb_spec s 0); [contradiction | reflexivity]).
    rewrite T in *. assert (Hpos : 0 < s) by lia.
    assert (Hd : digits s <= max_digits f) by (apply digits_le; [exact Hpos | destruct f; cbn; lia | apply Hs]).
    destruct (impl_ok cfg f v b base Hpos Hd He Hb Hc) as (b' & E' & W). exists b'. split; [exact E'|]. split; [exact W|].
    apply read_scientific, Hpos.
Qed.

Lemma table_end off : 200 <= off -> read_array radix_100_table off = Undefined.
Proof.
  intros H. unfold read_array. destruct (Z.ltb_spec off 0); [lia|].
  assert (nth_error radix_100_table (Z.to_nat off) = None) as ->; [|reflexivity].
  apply nth_error_None. change (length radix_100_table) with 200%nat. lia.
Qed.

Lemma out_of_range cfg f v b base : 0 <= fp_significand v < 10 ^ max_digits f -> - 2 ^ 31 <= fp_exponent v < 2 ^ 31 ->
  exponents_below f <= Z.abs (scientific_exponent (fp_significand v) (fp_exponent v)) -> 0 <= base -> base + 30 <= capacity b ->
  fp_to_chars_impl cfg f v b base = Undefined.
Proof.
  intros Hs Hi Hx Hb Hc. destruct (mantissa_ok cfg f v b base Hs Hb ltac:(lia)) as (b' & p & L & -> & HL & Hp & Ec & Ex & _).
  rewrite <- Ex in Hx. set (e := fp_exponent v) in *. clear Ex Hs. unfold put_exponent.
  destruct (store_written b' p char_E ltac:(lia)) as (b1 & -> & W1). cbn [bind].
  rewrite ptr_ok by (rewrite (proj1 W1); lia). cbn [bind].
  destruct (Z.ltb_spec (e + L) (2 ^ 31)) as [Lt|Ge].
  2:{ unfold i32 at 1. destruct (Z.ltb_spec (e + L) (2 ^ 31)); [lia|]. rewrite andb_false_r. reflexivity. }
  rewrite i32_ok by lia. cbn [bind]. rewrite i32_ok by lia. cbn [bind]. set (x := e + L - 1) in *.
  assert (S : (exists b2 p2, (if x <? 0 then b <- store b1 (p + 1) char_minus ;; p <- ptr b (p + 1) 1 ;; exp <- i32 (- x) ;; Ok (b, p, exp)
     else Ok (b1, p + 1, x)) = Ok (b2, p2, Z.abs x)) \/
     (if x <? 0 then b <- store b1 (p + 1) char_minus ;; p <- ptr b (p + 1) 1 ;; exp <- i32 (- x) ;; Ok (b, p, exp)
     else Ok (b1, p + 1, x)) = Undefined).
  { destruct (Z.ltb_spec x 0) as [Neg|Pos].
    - destruct (store_written b1 (p + 1) char_minus) as (b2 & -> & W2); [rewrite (proj1 W1); lia|]. cbn [bind].
      rewrite ptr_ok by (rewrite (proj1 W2), (proj1 W1); lia). cbn [bind].
      destruct (Z.ltb_spec (- x) (2 ^ 31)).
      + left. rewrite i32_ok by lia. cbn [bind]. rewrite Z.abs_neq by lia. eexists _, _. reflexivity.
      + right. unfold i32. destruct (Z.ltb_spec (- x) (2 ^ 31)); [lia|]. rewrite andb_false_r. reflexivity.
    - left. rewrite Z.abs_eq by lia. eexists _, _. reflexivity. }
  destruct S as [(b2 & p2 & ->) | ->]; [cbn [bind] | reflexivity]. set (y := Z.abs x) in *. assert (Hy : 0 <= y) by (unfold y; lia). clearbody y.
  assert (O : forall off q, 200 <= off -> bind (i32 off) (fun off => bind (copy_pair b2 p2 off) q) = (Undefined : outcome (buffer * Z))).
  { intros off q Ho. unfold i32. destruct (_ && _); [|reflexivity]. cbn [bind]. unfold copy_pair. rewrite table_end by exact Ho. reflexivity. }
  destruct f; cbn in Hx.
  - destruct (Z.leb_spec 10 y); [|lia]. apply O. lia.
  - destruct (Z.leb_spec 100 y); [|lia]. apply O. Z.div_mod_to_equations; lia.
Qed.

Lemma too_long cfg f v b base : cfg_ndebug cfg = false -> 10 ^ max_digits f <= fp_significand v ->
  fp_to_chars_impl cfg f v b base = AssertFailed.
Proof.
  intros Hn Hs. unfold fp_to_chars_impl, decimal_length, cassert. rewrite Hn. destruct f.
  - change (10 ^ max_digits Binary32) with 1000000000 in Hs. destruct (Z.ltb_spec (fp_significand v) 1000000000); [lia | reflexivity].
  - change (10 ^ max_digits Binary64) with 100000000000000000 in Hs. destruct (Z.ltb_spec (fp_significand v) 100000000000000000); [lia | reflexivity].
Qed.
