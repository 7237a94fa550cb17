(** * Finite numbers are printed as JSON numbers; enclosures *)

From Coq Require Import ZArith Reals List Bool Lia Lra String.
From Flocq Require Import Core.
From Verif Require Import Machine Model CharsModel Spec TextSpec FormSpec JsonSpec FileSpec UserSpec ReadsBack Results Claims Signs Main Chars Texts Outputs Users Formats Forms.
Import ListNotations.
Open Scope list_scope.
Open Scope Z_scope.

Lemma form_json t : in_form t -> json_number t.
Proof.
  intros (neg & c & more & minus & ex & -> & Hc & N & Dm & _ & (Nx & Dx & _) & _). unfold decimal_digit in Hc.
  exists (if neg then [45] else []), [c], (match more with [] => [] | _ => 46 :: more end), (69 :: (if minus then [45] else []) ++ ex).
  split; [reflexivity|]. split; [destruct neg; tauto|]. split; [right; exists c, []; repeat split; [lia | lia | constructor]|].
  split; [destruct more as [|a u]; [left; reflexivity | right; exists (a :: u); repeat split; [discriminate | exact Dm]]|].
  right. exists 69, (if minus then [45] else []), ex. repeat split; [tauto | destruct minus; tauto | exact Nx | exact Dx].
Qed.
Lemma zero_json (neg : bool) : json_number ((if neg then [45] else []) ++ [48; 69; 48]).
Proof.
  exists (if neg then [45] else []), [48], [], [69; 48]. split; [reflexivity|]. split; [destruct neg; tauto|]. split; [left; reflexivity|]. split; [left; reflexivity|].
  right. exists 69, [], [48]. repeat split; try tauto; [discriminate|]. repeat constructor; discriminate.
Qed.
Lemma json_first t : json_number t -> exists c u, (t = c :: u \/ t = 45 :: c :: u) /\ 48 <= c <= 57.
Proof.
  intros (minus & int & frac & ex & -> & M & I & _). destruct I as [->|(c & u & -> & Hc & _)]; [exists 48, (frac ++ ex) | exists c, (u ++ frac ++ ex)];
    (split; [destruct M as [-> | ->]; [left | right]; reflexivity | lia]).
Qed.
Lemma letter_json (neg : bool) c u : 58 <= c -> ~ json_number ((if neg then [45] else []) ++ c :: u).
Proof.
  intros H J. destruct (json_first _ J) as (d & v & E & D). destruct neg, E as [E|E]; cbn [app] in E; injection E; intros; lia.
Qed.
Lemma json_texts cfg f m crs x : pattern f x -> (input f x -> returns m f x = true) ->
  exists t, (json_number t <-> finite f x = true) /\
  (forall b, text_length t <= capacity b -> exists b', fp_to_chars_n cfg f m crs x b = Ok (b', text_length t) /\ written b 0 t b') /\
  (forall b, text_length t + 1 <= capacity b -> exists b', fp_to_chars cfg f m crs x b = Ok (b', text_length t) /\ written b 0 (t ++ [0]) b').
Proof.
  intros P Hr. destruct (finite f x) eqn:F; [destruct (Req_dec (value f x) 0) as [V|V]|].
  - destruct (text_ok cfg f m crs x P Hr) as (t & _ & W1 & W2 & _ & T & _). exists t. split; [|split; assumption]. rewrite (T F V). split; [reflexivity | intros _; apply zero_json].
  - assert (Hin : input f x) by (split; [exact P | split; assumption]). destruct (printed_form cfg f m crs x Hin (Hr Hin)) as (t & Ft & W1 & W2). exists t.
    split; [|split; assumption]. split; [reflexivity | intros _; apply form_json, Ft].
  - destruct (text_ok cfg f m crs x P Hr) as (t & _ & W1 & W2 & _ & _ & T1 & T2). exists t. split; [|split; assumption]. split; [|discriminate]. intros J. exfalso.
    pose proof (three_kinds f x) as K. rewrite F in K. destruct (infinite f x) eqn:I.
    + rewrite (T1 eq_refl) in J. apply letter_json in J; [exact J | lia].
    + destruct (nan f x) eqn:N; [|lia]. rewrite (T2 eq_refl) in J. apply (letter_json false 78) in J; [exact J | lia].
Qed.

(** ** Enclosures *)
Open Scope R_scope.
Lemma enclosure cfg f rs rs' crs crs' h h' x lower upper : input f x ->
  grisu_exact cfg f rs toward_plus_infinity crs h x = Ok lower -> grisu_exact cfg f rs' toward_minus_infinity crs' h' x = Ok upper ->
  decimal (signed f x lower) (fp_exponent lower) <= value f x <= decimal (signed f x upper) (fp_exponent upper) /\
  decimal (signed f x upper) (fp_exponent upper) - decimal (signed f x lower) (fp_exponent lower) < 2 * spacing f x.
Proof.
  intros Hin E1 E2. destruct (directed_sides _ _ _ _ _ _ _ _ Hin E1) as (A1 & _). destruct (directed_sides _ _ _ _ _ _ _ _ Hin E2) as (B1 & _).
  pose proof (reads_back_ok _ _ _ _ _ _ _ _ Hin E1) as R1. pose proof (reads_back_ok _ _ _ _ _ _ _ _ Hin E2) as R2. unfold reads_back in *. unfold error in *.
  set (l := decimal (signed f x lower) (fp_exponent lower)) in *. set (u := decimal (signed f x upper) (fp_exponent upper)) in *.
  destruct (upper_pt f l) as (_ & L & _). destruct (lower_pt f u) as (_ & U & _). rewrite R1 in L. rewrite R2 in U.
  apply Rabs_def2 in A1. apply Rabs_def2 in B1. lra.
Qed.

(** ** Examples *)
Open Scope Z_scope.
Lemma plain_json (minus : bool) c frac (big : bool) sign u : 48 <= c <= 57 -> Forall decimal_digit frac -> u <> [] -> Forall decimal_digit u ->
  (sign = [] \/ sign = [45] \/ sign = [43]) ->
  json_number ((if minus then [45] else []) ++ [c] ++ (match frac with [] => [] | _ => 46 :: frac end) ++ (if big then 69 else 101) :: sign ++ u).
Proof.
  intros Hc Hf Nu Hu Hs. exists (if minus then [45] else []), [c], (match frac with [] => [] | _ => 46 :: frac end), ((if big then 69 else 101) :: sign ++ u).
  split; [reflexivity|]. split; [destruct minus; tauto|]. split.
  { destruct (Z.eq_dec c 48) as [->|N]; [left; reflexivity | right; exists c, []; repeat split; [lia | lia | constructor]]. }
  split; [destruct frac as [|a w]; [left; reflexivity | right; exists (a :: w); repeat split; [discriminate | exact Hf]]|].
  right. exists (if big then 69 else 101), sign, u. repeat split; try assumption. destruct big; tauto.
Qed.
(** after a first zero, the text ends or goes on with a point or an exponent; after a point there is a digit *)
Lemma json_second c t : json_number (48 :: c :: t) -> c = 46 \/ c = 101 \/ c = 69.
Proof.
  intros (minus & int & frac & ex & E & M & I & Fr & X). destruct M as [-> | ->]; [|discriminate E]. cbn [app] in E.
  destruct I as [-> |(d & u & -> & Hd & _)]; [|cbn [app] in E; injection E; intros; lia]. cbn [app] in E. injection E as E.
  destruct Fr as [-> |(u & -> & _ & _)]; [|cbn [app] in E; injection E; intros; left; congruence]. cbn [app] in E.
  destruct X as [-> |(d & sg & u & -> & Hd & _)]; [discriminate E|]. injection E; intros; subst. tauto.
Qed.
Lemma json_point c d t : json_number (c :: 46 :: d :: t) -> decimal_digit d.
Proof.
  intros (minus & int & frac & ex & E & M & I & Fr & X). destruct M as [-> | ->].
  - cbn [app] in E. destruct I as [-> |(a & u & -> & Hd & Hu)]; cbn [app] in E.
    + injection E as _ E. destruct Fr as [-> |(u & -> & Nu & Hu)]; cbn [app] in E.
      * destruct X as [-> |(a & sg & u & -> & Ha & _)]; [discriminate E|]. injection E; intros; lia.
      * destruct u as [|a u]; [contradiction|]. cbn [app] in E. injection E; intros; subst. inversion Hu; assumption.
    + injection E as _ E. destruct u as [|b u].
      * cbn [app] in E. destruct Fr as [-> |(u & -> & Nu & Hu')]; cbn [app] in E.
        -- destruct X as [-> |(b & sg & u & -> & Ha & _)]; [discriminate E|]. injection E; intros; lia.
        -- destruct u as [|b u]; [contradiction|]. cbn [app] in E. injection E; intros; subst. inversion Hu'; assumption.
      * cbn [app] in E. injection E; intros; subst. inversion Hu; subst. unfold decimal_digit in *. lia.
  - cbn [app] in E. injection E as _ E. destruct I as [-> |(a & u & -> & Hd & Hu)]; cbn [app] in E; injection E; intros; lia.
Qed.
Lemma json_examples : json_number (bytes "-1.23E-5"%string) /\ json_number (bytes "-0E0"%string) /\ json_number (bytes "1e+5"%string) /\
  ~ json_number (bytes "01E0"%string) /\ ~ json_number (bytes "1.E0"%string) /\ ~ json_number (bytes "Infinity"%string) /\ ~ json_number [] /\
  pattern Binary32 0x80000000 /\ finite Binary32 0x80000000 = true.
Proof.
  assert (D : forall c, (48 <=? c) && (c <=? 57) = true -> decimal_digit c) by (intros c H; apply andb_true_iff in H; unfold decimal_digit; lia).
  split; [apply (plain_json true 49 [50; 51] true [45] [53]); [lia | repeat constructor; apply D; reflexivity | discriminate | repeat constructor; apply D; reflexivity | tauto]|].
  split; [apply (zero_json true)|].
  split; [apply (plain_json false 49 [] false [43] [53]); [lia | constructor | discriminate | repeat constructor; apply D; reflexivity | tauto]|].
  split; [intros J; change (bytes "01E0"%string) with [48; 49; 69; 48] in J; apply json_second in J; lia|].
  split; [intros J; change (bytes "1.E0"%string) with [49; 46; 69; 48] in J; apply json_point in J; unfold decimal_digit in J; lia|].
  split; [intros J; apply (letter_json false 73) in J; [exact J | lia]|].
  split; [intros J; destruct (json_first _ J) as (c & u & [E|E] & _); discriminate E|].
  split; [split; [discriminate | reflexivity] | reflexivity].
Qed.
