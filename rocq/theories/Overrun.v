(** * fp_to_chars with a buffer that is too small *)

From Coq Require Import ZArith List Bool Lia.
From Verif Require Import Machine Tables Model CharsModel Spec TextSpec Chars Outputs.
Import ListNotations.
Open Scope Z_scope.

(** the first run is undefined, or both go the same way *)
Definition below {A} (R : A -> A -> Prop) (o o' : outcome A) : Prop :=
  match o, o' with
  | Undefined, _ => True
  | Ok a, Ok a' => R a a'
  | AssertFailed, AssertFailed | Diverged, Diverged => True
  | _, _ => False
  end.
Lemma below_bind {A B} (R : A -> A -> Prop) (S : B -> B -> Prop) o o' k k' :
  below R o o' -> (forall a a', R a a' -> below S (k a) (k' a')) -> below S (x <- o ;; k x) (x <- o' ;; k' x).
Proof. destruct o, o'; cbn [below bind]; try contradiction; auto. Qed.
Lemma below_same {A B} (S : B -> B -> Prop) (o : outcome A) k k' :
  (forall a, below S (k a) (k' a)) -> below S (x <- o ;; k x) (x <- o ;; k' x).
Proof. destruct o; cbn [bind below]; auto. Qed.

Section Sizes.
Variables c C : Z.
Hypothesis HC : c <= C.
Definition sizes (b b' : buffer) : Prop := capacity b = c /\ capacity b' = C.
Definition sizes1 (r r' : buffer * Z) : Prop := sizes (fst r) (fst r') /\ snd r = snd r' /\ snd r <= c.
Definition sizes2 {A : Type} (r r' : buffer * A) : Prop := sizes (fst r) (fst r') /\ snd r = snd r'.
Definition sizes3 {A B : Type} (r r' : buffer * A * B) : Prop := sizes2 (fst r) (fst r') /\ snd r = snd r'.

Lemma store_below b b' p v : sizes b b' -> below sizes (store b p v) (store b' p v).
Proof.
  intros [H H']. unfold store. rewrite H, H'. destruct (0 <=? p); cbn [andb]; [|exact I]. destruct (p <? c) eqn:L; [|exact I].
  rewrite (proj2 (Z.ltb_lt p C)) by (apply Z.ltb_lt in L; lia). split; reflexivity.
Qed.
Lemma ptr_below b b' p d : sizes b b' -> below (fun q q' => q = q' /\ q <= c) (ptr b p d) (ptr b' p d).
Proof.
  intros [H H']. unfold ptr. rewrite H, H'. destruct (0 <=? p + d); cbn [andb]; [|exact I]. destruct (p + d <=? c) eqn:L; [|exact I].
  apply Z.leb_le in L. rewrite (proj2 (Z.leb_le (p + d) C)) by lia. split; [reflexivity | exact L].
Qed.
Lemma memcpy_below t : forall b b' p, sizes b b' -> below sizes (memcpy b p t) (memcpy b' p t).
Proof.
  induction t as [|v t IH]; intros b b' p S; cbn [memcpy]; [exact S|]. eapply below_bind; [apply store_below, S|]. intros. apply IH. assumption.
Qed.
(** one step of the two runs *)
Ltac step :=
  match goal with
  | |- below _ (bind (store _ _ _) _) (bind (store _ _ _) _) => eapply below_bind; [apply store_below; assumption | intros ? ? ?]
  | |- below _ (bind (memcpy _ _ _) _) (bind (memcpy _ _ _) _) => eapply below_bind; [apply memcpy_below; assumption | intros ? ? ?]
  | |- below _ (bind (ptr _ _ _) _) (bind (ptr _ _ _) _) => eapply below_bind; [apply ptr_below; assumption | intros ? ? [<- ?]]
  | |- below _ (bind ?o _) (bind ?o _) => apply below_same; intros ?
  | |- below _ (store _ _ _) (store _ _ _) => apply store_below; assumption
  | |- below _ (memcpy _ _ _) (memcpy _ _ _) => apply memcpy_below; assumption
  | |- below _ (if ?b then _ else _) (if ?b then _ else _) => destruct b
  end.
Ltac ends := cbn [below]; repeat split; cbn [fst snd]; first [assumption | match goal with H : sizes _ _ |- _ => apply H end].
Lemma pair_below b b' p off : sizes b b' -> below sizes (copy_pair b p off) (copy_pair b' p off).
Proof. intros S. unfold copy_pair. repeat step. Qed.
Lemma pair_back_below b b' base n i d off : sizes b b' -> below sizes (copy_pair_back b base n i d off) (copy_pair_back b' base n i d off).
Proof. intros S. unfold copy_pair_back. repeat step. apply pair_below; assumption. Qed.
Ltac back := eapply below_bind; [apply pair_back_below; assumption | intros ? ? ?].
Lemma split_below f b b' base n out : sizes b b' -> below sizes3 (split_8 f b base n out) (split_8 f b' base n out).
Proof.
  intros S. unfold split_8. destruct f; [repeat split; apply S|]. destruct (negb _); cbv zeta; [|repeat split; apply S].
  do 4 back. repeat split; assumption || apply H2.
Qed.
Lemma loop_below fuel : forall b b' base n i out, sizes b b' -> below sizes3 (four_digit_loop fuel b base n i out) (four_digit_loop fuel b' base n i out).
Proof.
  induction fuel as [|fuel IH]; intros b b' base n i out S; cbn [four_digit_loop]; [exact I|]. destruct (10000 <=? out); cbv zeta; [|repeat split; apply S].
  do 2 back. apply IH. assumption.
Qed.
Lemma two_below b b' base n i out : sizes b b' -> below sizes3 (two_digits b base n i out) (two_digits b' base n i out).
Proof. intros S. unfold two_digits. destruct (100 <=? out); cbv zeta; [|repeat split; apply S]. back. repeat split; apply H. Qed.
Lemma first_below b b' base n i out : sizes b b' -> below sizes (first_digits b base n i out) (first_digits b' base n i out).
Proof. intros S. unfold first_digits. cbv zeta. repeat step. Qed.
Lemma point_below b b' base n : sizes b b' -> below sizes1 (put_point b base n) (put_point b' base n).
Proof. intros S. unfold put_point. repeat step; ends. Qed.
Lemma exponent_below f b b' base e n : sizes b b' -> below sizes1 (put_exponent f b base e n) (put_exponent f b' base e n).
Proof.
  intros S. unfold put_exponent. do 4 step. eapply below_bind with (R := sizes3).
  - repeat step; ends.
  - intros [[b1 p1] e1] [[b2 p2] e2] [[S1 P1] E1]. cbn [fst snd] in S1, P1, E1. subst p2 e2. cbv zeta.
    assert (Short : below sizes1
      (if 10 <=? e1 then off <- i32 (2 * e1) ;; b <- copy_pair b1 p1 off ;; p <- ptr b p1 2 ;; Ok (b, p)
       else b <- store b1 p1 (to_char (char_0 + e1)) ;; p <- ptr b p1 1 ;; Ok (b, p))
      (if 10 <=? e1 then off <- i32 (2 * e1) ;; b <- copy_pair b2 p1 off ;; p <- ptr b p1 2 ;; Ok (b, p)
       else b <- store b2 p1 (to_char (char_0 + e1)) ;; p <- ptr b p1 1 ;; Ok (b, p))).
    { step; [step; eapply below_bind; [apply pair_below, S1 | intros b3 b4 S3]; step | step; step]; ends. }
    destruct f; [exact Short|]. step; [|exact Short]. step. eapply below_bind; [apply pair_below, S1 | intros b3 b4 S3]. do 2 step.
    ends.
Qed.
Lemma impl_below cfg f v b b' base : sizes b b' -> below sizes1 (fp_to_chars_impl cfg f v b base) (fp_to_chars_impl cfg f v b' base).
Proof.
  intros S. unfold fp_to_chars_impl. cbv zeta. step. rename a into n.
  eapply below_bind; [apply split_below, S|]. intros [[b1 o1] i1] [[b2 o2] i2] [[S1 E1] F1]. cbn [fst snd] in S1, E1, F1. subst o2 i2.
  eapply below_bind; [apply loop_below, S1|]. intros [[b3 o3] i3] [[b4 o4] i4] [[S2 E2] F2]. cbn [fst snd] in S2, E2, F2. subst o4 i4.
  eapply below_bind; [apply two_below, S2|]. intros [[b5 o5] i5] [[b6 o6] i6] [[S3 E3] F3]. cbn [fst snd] in S3, E3, F3. subst o6 i6.
  eapply below_bind; [apply first_below, S3|]. intros b7 b8 S4.
  eapply below_bind; [apply point_below, S4|]. intros [b9 p9] [b10 p10] (S5 & E5 & _). cbn [fst snd] in S5, E5. subst p10.
  apply exponent_below, S5.
Qed.
Lemma sign_below f x b b' p : sizes b b' -> below sizes2 (put_sign f x b p) (put_sign f x b' p).
Proof. intros S. unfold put_sign. repeat step; ends. Qed.
Lemma chars_n_below cfg f m crs x b b' : sizes b b' -> below sizes1 (fp_to_chars_n cfg f m crs x b) (fp_to_chars_n cfg f m crs x b').
Proof.
  intros S. unfold fp_to_chars_n. step.
  - eapply below_bind; [apply sign_below, S|]. intros [b1 p1] [b2 p2] [S1 E1]. cbn [fst snd] in S1, E1. subst p2.
    step; [step; apply impl_below, S1|]. do 2 step. ends.
  - step.
    + do 2 step. ends.
    + eapply below_bind; [apply sign_below, S|]. intros [b1 p1] [b2 p2] [S1 E1]. cbn [fst snd] in S1, E1. subst p2.
      do 2 step. ends.
Qed.
End Sizes.

Lemma exact_size cfg f m crs x : pattern f x -> (input f x -> returns m f x = true) ->
  exists t, text_length t <= max_text f /\
    (forall b, text_length t <= capacity b -> exists b', fp_to_chars_n cfg f m crs x b = Ok (b', text_length t) /\ written b 0 t b') /\
    (forall b, capacity b < text_length t -> fp_to_chars_n cfg f m crs x b = Undefined) /\
    (forall b, text_length t + 1 <= capacity b -> exists b', fp_to_chars cfg f m crs x b = Ok (b', text_length t) /\ written b 0 (t ++ [0]) b') /\
    (forall b, capacity b < text_length t + 1 -> fp_to_chars cfg f m crs x b = Undefined).
Proof.
  intros Hx Hr. destruct (text_safe cfg f m crs x Hx Hr) as (t & L & W1 & W2). exists t. split; [exact L|].
  assert (Small : forall b, capacity b < text_length t -> fp_to_chars_n cfg f m crs x b = Undefined).
  { intros b Hb. destruct (W1 (mk_buffer (text_length t) (byte_at b)) ltac:(cbn; lia)) as (b' & E & _).
    assert (B := chars_n_below (capacity b) (text_length t) ltac:(lia) cfg f m crs x b (mk_buffer (text_length t) (byte_at b)) (conj eq_refl eq_refl)).
    rewrite E in B. destruct (fp_to_chars_n cfg f m crs x b) as [[b1 p1]| | |]; cbn [below] in B; try contradiction; [|reflexivity].
    destruct B as (_ & P & Q). cbn [fst snd] in P, Q. lia. }
  split; [exact W1|]. split; [exact Small|]. split; [exact W2|].
  intros b Hb. unfold fp_to_chars. destruct (Z_lt_le_dec (capacity b) (text_length t)) as [H|H].
  - rewrite (Small b H). reflexivity.
  - destruct (W1 b H) as (b' & E & C & _). rewrite E. cbn [bind]. unfold store. rewrite C, (proj2 (Z.ltb_ge _ _)) by lia. rewrite andb_false_r. reflexivity.
Qed.
