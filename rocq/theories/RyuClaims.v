(** * What is claimed of Ryu and of the test program that compares with it *)

From Coq Require Import ZArith Reals List Lia Bool.
From Flocq Require Import Core.
From Verif Require Import Machine Tables Model Spec Link Reading Bridge Results Claims
  Signs CharsModel TextSpec Chars Texts Outputs Unique RyuModel TestModel RyuDecimal RyuChars.
Import ListNotations.
Open Scope Z_scope.

Definition release : config := mk_config MulInt128 CtzBuiltin true true.

(** ** No text contains a zero byte *)
Lemma last_digits_nonzero n : forall z, ~ In 0 (last_digits n z).
Proof.
  induction n as [|n IH]; intros z H; [exact H|]. cbn [last_digits] in H. apply in_app_or in H. destruct H as [H|[H|[]]]; [exact (IH _ H)|].
  pose proof (Z.mod_pos_bound z 10). lia.
Qed.
Lemma integer_text_nonzero z : ~ In 0 (integer_text z).
Proof. unfold integer_text. destruct (z =? 0); [intros [H|[]]; discriminate | apply last_digits_nonzero]. Qed.
Lemma pointed_nonzero t : ~ In 0 t -> ~ In 0 (pointed t).
Proof. destruct t as [|c [|d t]]; try (intros H; exact H). intros H H'. apply H. destruct H' as [H'|[H'|H']]; [left; exact H' | discriminate | right; exact H']. Qed.
Lemma minus_nonzero neg : ~ In 0 (minus neg).
Proof. destruct neg; [intros [H|[]]; discriminate | intros []]. Qed.
Lemma scientific_nonzero neg s e : ~ In 0 (scientific neg s e).
Proof.
  rewrite scientific_minus. intros H. apply in_app_or in H. destruct H as [H|H]; [exact (minus_nonzero _ H)|].
  apply in_app_or in H. destruct H as [[]|H]. apply in_app_or in H. destruct H as [H|H]; [exact (pointed_nonzero _ (integer_text_nonzero _) H)|].
  apply in_app_or in H. destruct H as [[H|[]]|H]; [discriminate|]. cbv zeta in H. destruct (_ <? 0).
  - destruct H as [H|H]; [discriminate | exact (integer_text_nonzero _ H)].
  - exact (integer_text_nonzero _ H).
Qed.
Lemma text_of_nonzero f x r : ~ In 0 (text_of f x r).
Proof.
  unfold text_of. destruct (finite f x); [destruct (is_nonzero f x); [apply scientific_nonzero|]|destruct (nan f x)];
    (intros H; try (apply in_app_or in H; destruct H as [H|H]; [exact (minus_nonzero _ H)|])); cbn in H; intuition discriminate.
Qed.

(** ** Both programs write the same text *)
Lemma same_text rc cfg f x : pattern f x -> exists t, text_length t <= max_text f /\ ~ In 0 t /\
  (forall b, text_length t + 1 <= capacity b -> exists b', fp_to_chars cfg f nearest_to_even tie_to_even x b = Ok (b', text_length t) /\ written b 0 (t ++ [0]) b') /\
  (forall b, text_length t + 1 <= capacity b -> exists b', ryu_buffered rc f x b = Ok (b', text_length t) /\ written b 0 (t ++ [0]) b').
Proof.
  intros Hx. destruct (some_result cfg f x Hx) as (r & R). exists (text_of f x r).
  split; [apply text_of_length; [exact Hx | intros Hin; apply R, Hin]|]. split; [apply text_of_nonzero|].
  split; intros b Hb.
  - apply chars_ok; assumption.
  - apply (ryu_ok rc cfg); [exact Hx | intros Hin; apply R, Hin | exact Hb].
Qed.
Lemma same_text_n rc cfg f x : pattern f x -> exists t, text_length t <= max_text f /\
  (forall b, text_length t <= capacity b -> exists b', fp_to_chars_n cfg f nearest_to_even tie_to_even x b = Ok (b', text_length t) /\ written b 0 t b') /\
  (forall b, text_length t <= capacity b -> exists b', ryu_buffered_n rc f x b = Ok (b', text_length t) /\ written b 0 t b').
Proof.
  intros Hx. destruct (some_result cfg f x Hx) as (r & R). exists (text_of f x r).
  split; [apply text_of_length; [exact Hx | intros Hin; apply R, Hin]|]. split; intros b Hb.
  - apply chars_n_ok; assumption.
  - apply (ryu_n_ok rc cfg); [exact Hx | intros Hin; apply R, Hin | exact Hb].
Qed.
Lemma allocated rc f x : pattern f x -> exists t, text_length t <= max_text f /\ ~ In 0 t /\
  forall junk, exists b', ryu_allocated rc f x junk = Ok (b', text_length t) /\
    written (mk_buffer (max_text f + 1) junk) 0 (t ++ [0]) b'.
Proof.
  intros Hx. destruct (same_text rc release f x Hx) as (t & L & N & _ & W). exists t. split; [exact L|]. split; [exact N|]. intros junk.
  unfold ryu_allocated. replace (match f with Binary32 => 16 | Binary64 => 25 end) with (max_text f + 1) by (destruct f; reflexivity).
  apply W. cbn [capacity]. lia.
Qed.

(** ** The test program *)
Lemma c_string_ok b t : forall fuel p, 0 <= p -> p + text_length t < capacity b -> (length t < fuel)%nat -> ~ In 0 t ->
  (forall j, 0 <= j <= text_length t -> byte_at b (p + j) = nth (Z.to_nat j) (t ++ [0]) 0) -> c_string fuel b p = Ok t.
Proof.
  induction t as [|c t IH]; intros fuel p Hp Hc Hf Hn Hb; (destruct fuel as [|fuel]; [cbn in Hf; lia|]); cbn [c_string].
  - change (text_length []) with 0 in *. pose proof (Hb 0 ltac:(lia)) as B. rewrite Z.add_0_r in B. rewrite B.
    destruct (Z.leb_spec 0 p), (Z.ltb_spec p (capacity b)); try lia. reflexivity.
  - rewrite text_length_cons in *. pose proof (text_length_nonneg t). pose proof (Hb 0 ltac:(lia)) as B. rewrite Z.add_0_r in B. rewrite B.
    destruct (Z.leb_spec 0 p), (Z.ltb_spec p (capacity b)); try lia. cbn [andb]. change (nth (Z.to_nat 0) ((c :: t) ++ [0]) 0) with c.
    destruct (Z.eqb_spec c 0) as [->|_]; [exfalso; apply Hn; left; reflexivity|].
    rewrite (IH fuel (p + 1)); [reflexivity | lia | lia | cbn in Hf; lia | intros H'; apply Hn; right; exact H' |].
    intros j Hj. replace (p + 1 + j) with (p + (j + 1)) by ring. rewrite Hb by lia. rewrite Z2Nat.inj_add by lia. rewrite Nat.add_comm. reflexivity.
Qed.
Lemma string_view_ok b t b' : text_length t + 1 <= capacity b -> ~ In 0 t -> written b 0 (t ++ [0]) b' -> string_view b' = Ok t.
Proof.
  intros Hc Hn [C W]. unfold string_view. apply c_string_ok; [lia | lia | | exact Hn|].
  - unfold text_length in Hc. lia.
  - intros j Hj. rewrite W, text_length_app. change (text_length [0]) with 1.
    destruct (Z.leb_spec 0 (0 + j)), (Z.ltb_spec (0 + j) (0 + (text_length t + 1))); try lia. rewrite Z.add_0_l, Z.sub_0_r. reflexivity.
Qed.
Lemma same_string rc cfg f x : pattern f x -> exists t, text_length t <= max_text f /\
  forall b1 b2, max_text f + 1 <= capacity b1 -> max_text f + 1 <= capacity b2 ->
  exists b1' b2', fp_to_chars cfg f nearest_to_even tie_to_even x b1 = Ok (b1', text_length t) /\
    ryu_buffered rc f x b2 = Ok (b2', text_length t) /\ capacity b1' = capacity b1 /\ capacity b2' = capacity b2 /\
    string_view b1' = Ok t /\ string_view b2' = Ok t.
Proof.
  intros Hx. destruct (same_text rc cfg f x Hx) as (t & L & N & W1 & W2). exists t. split; [exact L|]. intros b1 b2 H1 H2.
  destruct (W1 b1 ltac:(lia)) as (b1' & E1 & V1). destruct (W2 b2 ltac:(lia)) as (b2' & E2 & V2). exists b1', b2'.
  split; [exact E1|]. split; [exact E2|]. split; [apply V1|]. split; [apply V2|].
  split; [apply (string_view_ok b1) | apply (string_view_ok b2)]; (assumption || lia).
Qed.
Lemma loop_succeeds rc cfg f xs : (forall x, In x xs -> pattern f x) ->
  forall b1 b2 s, max_text f + 1 <= capacity b1 -> max_text f + 1 <= capacity b2 -> uniform_random_loop rc cfg f xs (b1, b2, s) = Ok s.
Proof.
  induction xs as [|x xs IH]; intros Hx b1 b2 s H1 H2; [reflexivity|]. cbn [uniform_random_loop].
  destruct (same_string rc cfg f x (Hx x (or_introl eq_refl))) as (t & _ & T). destruct (T b1 b2 H1 H2) as (b1' & b2' & E1 & E2 & C1 & C2 & V1 & V2).
  unfold uniform_random_step. rewrite E1. cbn [bind]. rewrite E2. cbn [bind fst]. rewrite V1. cbn [bind]. rewrite V2. cbn [bind].
  destruct (list_eq_dec Z.eq_dec t t) as [_|N]; [|contradiction]. apply IH; [intros y Hy; apply Hx; right; exact Hy | lia | lia].
Qed.
Lemma test_succeeds rc cfg f xs junk1 junk2 : (forall x, In x xs -> pattern f x) -> uniform_random_test rc cfg f xs junk1 junk2 = Ok true.
Proof. intros Hx. apply loop_succeeds; [exact Hx | destruct f; cbn; lia..]. Qed.

(** ** What Ryu's text means *)
Lemma ryu_meaning rc f x : input f x -> exists t s e,
  read_text t = Some (Number (negative f x) s e) /\
  reads_back f nearest_to_even x (cond_Zopp (negative f x) s) e /\
  (forall s' e', reads_back f nearest_to_even x s' e' -> digits s <= digits s') /\
  closest f nearest_to_even x (cond_Zopp (negative f x) s) e /\
  breaks_ties tie_to_even f nearest_to_even x (cond_Zopp (negative f x) s) e /\
  forall b, text_length t + 1 <= capacity b -> exists b', ryu_buffered rc f x b = Ok (b', text_length t) /\ written b 0 (t ++ [0]) b'.
Proof.
  intros Hin. pose proof (proj1 Hin) as Hx. set (cfg := release).
  destruct (nearest_shortest cfg f false nearest_to_even tie_to_even assert_finite x Hin eq_refl) as (r & E & R & S).
  destruct (nearest_closest cfg f false nearest_to_even tie_to_even assert_finite x Hin eq_refl) as (r' & E' & C); [discriminate|].
  destruct (nearest_ties cfg f false nearest_to_even tie_to_even assert_finite x Hin eq_refl) as (r'' & E'' & T); [discriminate|].
  assert (r' = r) by congruence. assert (r'' = r) by congruence. subst r' r''.
  destruct (text_ok cfg f nearest_to_even tie_to_even x Hx (fun _ => eq_refl)) as (t & Lt & _ & _ & Tt & _).
  destruct (Tt Hin) as (r1 & E1 & Et). assert (r1 = r) by congruence; subst r1.
  assert (P : 0 < fp_significand r).
  { destruct (all_ranges cfg f false nearest_to_even tie_to_even assert_finite x Hin) as (r1 & E1' & P & _); [reflexivity|]. congruence. }
  exists t, (fp_significand r), (fp_exponent r).
  split; [rewrite Et; apply read_scientific, P|]. split; [exact R|]. split; [exact S|]. split; [exact C|]. split; [exact T|].
  intros b Hb. assert (Tx : text_of f x r = t).
  { unfold text_of. pose proof Hin as (_ & F & V). rewrite F. apply nonzero_model in V; [|assumption..]. rewrite V, Et. reflexivity. }
  rewrite <- Tx in *. apply (ryu_ok rc cfg); [exact Hx | intros _; exact E | exact Hb].
Qed.
