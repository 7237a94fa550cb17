(** * The text printed is the one std::to_chars writes, spelled differently *)

From Coq Require Import ZArith Reals List Bool Lia.
From Flocq Require Import Core.
From Verif Require Import Machine Model Link CharsModel Spec TextSpec UserSpec CppSpec Bridge Results Claims Main Chars Texts Outputs Users CppText.
Import ListNotations.
Open Scope Z_scope.

Lemma plain_app t u : Forall (fun c => c <> 101) t -> plain (t ++ 101 :: u) = t ++ 69 :: plain_exponent u.
Proof.
  induction 1 as [|c t H _ IH]; [reflexivity|]. cbn [app plain]. rewrite (proj2 (Z.eqb_neq c 101) H), IH. reflexivity.
Qed.
Lemma digits_plain t : all_digits t = true -> Forall (fun c => c <> 101) t.
Proof.
  induction t as [|c t IH]; intros H; constructor; cbn [all_digits] in H; apply andb_prop in H; [|apply IH, H].
  intros ->. destruct H as [H _]. discriminate H.
Qed.
Lemma pointed_plain t : all_digits t = true -> Forall (fun c => c <> 101) (pointed t).
Proof.
  intros H. apply digits_plain in H. destruct t as [|d [|d' t]]; cbn [pointed]; [exact H | exact H|].
  inversion H; subst. constructor; [assumption|]. constructor; [discriminate | assumption].
Qed.
Lemma unpadded_ok n : 0 <= n -> unpadded ((if n <? 10 then [48] else []) ++ integer_text n) = integer_text n.
Proof.
  intros N. destruct (Z.ltb_spec n 10) as [L|L].
  - assert (C : n = 0 \/ n = 1 \/ n = 2 \/ n = 3 \/ n = 4 \/ n = 5 \/ n = 6 \/ n = 7 \/ n = 8 \/ n = 9) by lia.
    repeat destruct C as [-> | C]; try subst n; vm_compute; reflexivity.
  - cbn [app]. pose proof (integer_text_all n) as A. pose proof (integer_text_value n N) as V.
    destruct (integer_text n) as [|c [|d [|e t]]]; try reflexivity. cbn [unpadded]. destruct (Z.eqb_spec c 48) as [->|]; [exfalso | reflexivity].
    cbn [continue] in V. cbn [all_digits] in A. unfold is_digit in A. lia.
Qed.
Lemma plain_e_exponent q : plain_exponent (e_exponent q) = exponent_text q.
Proof.
  unfold e_exponent, exponent_text. destruct (Z.ltb_spec q 0) as [L|L]; cbn [plain_exponent]; change (45 =? 43) with false; change (45 =? 45) with true; change (43 =? 43) with true; cbv iota;
    rewrite unpadded_ok by lia; [rewrite Z.abs_neq by lia | rewrite Z.abs_eq by lia]; reflexivity.
Qed.
Lemma plain_e_text neg s e : 0 < s -> plain (e_text (cond_Zopp neg s) e) = scientific neg s e.
Proof.
  intros P. unfold e_text, scientific.
  assert (S : (cond_Zopp neg s <? 0) = neg) by (destruct neg; cbn [cond_Zopp]; [apply Z.ltb_lt | apply Z.ltb_ge]; lia).
  assert (A : Z.abs (cond_Zopp neg s) = s) by (destruct neg; cbn [cond_Zopp]; lia).
  assert (D : digits (cond_Zopp neg s) = digits s) by (destruct neg; [apply digits_opp | reflexivity]).
  rewrite S, A, D. rewrite app_assoc, plain_app.
  - rewrite plain_e_exponent, <- app_assoc. reflexivity.
  - apply Forall_app. split; [|apply pointed_plain, integer_text_all]. destruct neg; repeat constructor. discriminate.
Qed.

Lemma same_text cfg f m crs x : pattern f x -> finite f x = true -> nearest_or_outward m (negative f x) = true -> crs <> do_not_care ->
  exists t, (forall u, to_chars_text m crs f x u <-> u = t) /\
    (forall b, text_length (plain t) <= capacity b -> exists b', fp_to_chars_n cfg f m crs x b = Ok (b', text_length (plain t)) /\ written b 0 (plain t) b') /\
    (forall b, text_length (plain t) + 1 <= capacity b -> exists b', fp_to_chars cfg f m crs x b = Ok (b', text_length (plain t)) /\ written b 0 (plain t ++ [0]) b').
Proof.
  intros Hp Hf Hm Hc. assert (Hr : returns m f x = true) by (unfold returns; rewrite Hm; reflexivity).
  destruct (text_ok cfg f m crs x Hp (fun _ => Hr)) as (t & _ & W1 & W2 & T & T1 & _).
  destruct (Req_dec (value f x) 0) as [V|V].
  - exists ((if negative f x then [45] else []) ++ [48; 101; 43; 48; 48]).
    assert (E : plain ((if negative f x then [45] else []) ++ [48; 101; 43; 48; 48]) = t) by (rewrite (T1 Hf V); destruct (negative f x); reflexivity).
    rewrite E. split; [|split; assumption]. intros u. unfold to_chars_text. split; [intros [[_ H]|[H _]]; [exact H | contradiction] | intros ->; left; split; [exact V | reflexivity]].
  - assert (Hin : input f x) by (split; [exact Hp | split; [exact Hf | exact V]]).
    destruct (T Hin) as (r & E & Et). destruct (chosen cfg f false m crs assert_finite x Hin Hm Hc) as (r' & E' & C). assert (r' = r) by congruence. subst r'.
    destruct (all_ranges cfg f false m crs assert_finite x Hin Hr) as (r1 & E1 & P & _). assert (r1 = r) by congruence. subst r1.
    exists (e_text (signed f x r) (fp_exponent r)). unfold signed. rewrite plain_e_text, <- Et by exact P. split; [|split; assumption].
    intros u. unfold to_chars_text. split.
    + intros [[H _]|(_ & s & e & H & ->)]; [contradiction|]. apply C in H. destruct H as [-> ->]. reflexivity.
    + intros ->. right. split; [exact V|]. exists (signed f x r), (fp_exponent r). split; [apply C; split; reflexivity | reflexivity].
Qed.
