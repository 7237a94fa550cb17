(** * long_division and minmax_euclid in terms of the numbers *)

From Coq Require Import ZArith List Bool Lia.
From Verif Require Import Machine Model Arith BigintModel BigSpec BigFacts Bigint BigintOps BigintMul BigClaims DivModel DivSpec Division EuclidModel EuclidSpec EuclidNum Euclid.
Open Scope Z_scope.

Lemma division cfg N js jq b c v w : 64 * Z.of_nat N < 2 ^ 64 -> represents N b v -> represents N c w -> 0 < w -> safe v w ->
  exists r q, long_division cfg N js jq b c = Ok (r, q) /\ represents N r (v mod w) /\ represents N q (v / w).
Proof.
  intros HN R S P L. apply rep in R, S. destruct R as [Vb <-], S as [Vc <-].
  destruct (long_division_safe cfg N js jq b c HN Vb Vc P L) as (r & q & E & Vr & Er & Vq & Eq).
  exists r, q. split; [exact E|]. split; apply rep_of; assumption.
Qed.
Lemma division_near cfg N js jq b c v w : 64 * Z.of_nat N < 2 ^ 64 -> represents N b v -> represents N c w -> 0 < w -> Z.log2 v - Z.log2 w < 64 ->
  exists r q, long_division cfg N js jq b c = Ok (r, q) /\ represents N r (v mod w) /\ represents N q (v / w).
Proof.
  intros HN R S P L. apply division; try assumption. apply near_safe; [|exact P | exact L]. apply rep in R. destruct R as [Vb <-]. apply (val_bounds N b Vb).
Qed.

(** 2^65 / 3 *)
Lemma division_fails : exists b c v w, represents 2 b v /\ represents 2 c w /\ 0 < w /\
  forall cfg js jq, exists r q, long_division cfg 2 js jq b c = Ok (r, q) /\
    number (elements r) 2 <> v mod w /\ number (elements q) 2 <> v / w.
Proof.
  exists (two_words 0 2), (one_word 3), (2 * 2 ^ 64 + 0), 3.
  split; [apply two_words_represents; lia|]. split; [apply one_word_represents; lia|]. split; [lia|].
  intros [mul ctz x64 nd] js jq. destruct nd; do 2 eexists; (split; [vm_compute; reflexivity|]); split; vm_compute; discriminate.
Qed.

Lemma division_fails_crosses : crosses (2 ^ 65) 3.
Proof. exists 1. split; [lia | vm_compute; reflexivity]. Qed.
Lemma division_endless_leaps : leaps (2 ^ 128 + 2) 2.
Proof. exists 127. split; [lia|]. split; [vm_compute; reflexivity|]. split; [vm_compute; reflexivity|]. vm_compute. repeat split; congruence. Qed.

(** (2^128 + 2) / 2.  After the first turn, [*this] is 2, the element of n_shifted below it is 0, and the two leading bits are recorded as aligned. *)
Record stuck (d : DivModel.division) : Prop := {
  stuck_this : elements (d_this d) 0%nat = 2;
  stuck_pos : element_pos (d_this d) = 0%nat;
  stuck_bit : bit_pos (d_this d) = 2;
  stuck_shifted : d_shifted d 0%nat = 0;
  stuck_spos : d_element_pos d = 0%nat;
  stuck_sbit : d_bit_pos d = 2;
  stuck_base : d_base_idx d = 0%nat;
  stuck_zeros : d_zeros d = 0;
  stuck_total : d_total d = 0
}.
Lemma stuck_turn cfg d : stuck d -> exists d1 d2, realign 3 d = Ok (Some d1) /\ compare_and_subtract cfg 3 false d1 = Ok (true, d2) /\ stuck d2.
Proof.
  intros [H1 H2 H3 H4 H5 H6 H7 H8 H9]. destruct d as [[e p bp] s sp sb q bi z t]. cbn [d_this elements element_pos bit_pos d_shifted d_element_pos d_bit_pos d_base_idx d_zeros d_total] in *. subst.
  eexists. eexists. split; [reflexivity|]. destruct cfg as [mul ctz x64 nd]. unfold compare_and_subtract. cbn. rewrite H1, H4.
  split; [destruct nd; reflexivity|]. constructor; first [reflexivity | exact H4].
Qed.
Lemma stuck_forever cfg turns : forall d, stuck d -> division_loop cfg 3 turns d = Diverged.
Proof.
  induction turns as [|turns IH]; intros d S; [reflexivity|]. cbn [division_loop]. destruct (stuck_turn cfg d S) as (d1 & d2 & -> & E & S2). cbn [bind].
  rewrite E. cbn [bind]. apply IH, S2.
Qed.

Lemma division_never_ends : exists b c v, represents 3 b v /\ represents 3 c 2 /\
  forall cfg js jq turns, long_division_within cfg 3 turns js jq b c = Diverged.
Proof.
  exists (three_words 2 0 1), (one_word 2), (1 * 2 ^ 128 + 0 * 2 ^ 64 + 2). split; [apply three_words_represents; lia|]. split; [apply one_word_represents; lia|].
  intros [mul ctz x64 nd] js jq turns.
  assert (H : exists d0 d1 d2 d3, (forall turns, long_division_within (mk_config mul ctz x64 nd) 3 turns js jq (three_words 2 0 1) (one_word 2) = divide_aligned (mk_config mul ctz x64 nd) 3 turns d0) /\
    compare_and_subtract (mk_config mul ctz x64 nd) 3 true d0 = Ok (true, d1) /\
    realign 3 d1 = Ok (Some d2) /\ compare_and_subtract (mk_config mul ctz x64 nd) 3 false d2 = Ok (true, d3) /\ stuck d3).
  { destruct nd; do 4 eexists; (split; [intros t; cbv -[divide_aligned]; reflexivity|]); (split; [vm_compute; reflexivity|]); (split; [vm_compute; reflexivity|]);
      (split; [vm_compute; reflexivity|]); constructor; vm_compute; reflexivity. }
  destruct H as (d0 & d1 & d2 & d3 & -> & E1 & E2 & E3 & S). unfold divide_aligned. rewrite E1. cbn [bind].
  destruct turns as [|turns]; [reflexivity|]. cbn [division_loop]. rewrite E2. cbn [bind]. rewrite E3. cbn [bind]. rewrite (stuck_forever _ turns d3 S). reflexivity.
Qed.

Lemma minmax cfg M junk N a b va vb : 64 * Z.of_nat M < 2 ^ 64 -> 1 <= N < 2 ^ 64 -> represents M a va -> represents M b vb -> 0 < va -> 0 < vb ->
  close va vb N ->
  (forall k m g y, 1 <= k <= N -> least va vb N m -> greatest va vb N g -> y = m \/ y = vb - g -> k * y < vb -> ~ carry_lost k y) ->
  exists e m g, minmax_euclid cfg M junk N a b = Ok e /\
    represents M (e_min e) m /\ least va vb N m /\ represents M (e_max e) g /\ greatest va vb N g /\
    1 <= e_argmin e <= N /\ residue va vb (e_argmin e) = m /\
    0 <= e_argmax e <= N /\ residue va vb (e_argmax e) = g /\ (residue va vb 1 <> 0 -> 1 <= e_argmax e).
Proof.
  intros HM HN R S Pa Pb C L. apply rep in R, S. destruct R as [Va <-], S as [Vb <-].
  destruct (euclid_answers (val a) (val b) N HN 128 true (val a) (val b) 1 0 (start_state _ _ _ Pa Pb (proj1 HN)) ltac:(left; lia)) as (ok & r & E & A & O).
  rewrite (O C) in E. destruct A as (A1 & A2 & A3 & A4 & A5 & A6 & A7 & A8 & A9 & A10 & A11).
  destruct (minmax_follows cfg M junk a b N r HM HN Va Vb Pa Pb E) as (e & Ee & V1 & E1 & V2 & E2 & E3 & E4).
  { destruct (Z.eq_dec (n_k r) 0) as [K|K]; [left; exact K | right]. apply (L (n_k r) (n_min r) (n_max r)); try assumption; [lia | destruct A11 as [[-> _]|[-> _]]; [lia | left | right]; reflexivity]. }
  exists e, (n_min r), (n_max r). rewrite E3, E4. repeat apply conj; try apply A1; try apply A2; try lia; try assumption; apply rep_of; assumption.
Qed.

Lemma log2_bounds v : 0 < v < 2 ^ 64 -> 0 <= Z.log2 v < 64.
Proof. intros H. split; [apply Z.log2_nonneg|]. apply Z.log2_lt_pow2; lia. Qed.
Lemma close_one_element a b N : 0 < a < 2 ^ 64 -> 0 < b < 2 ^ 64 -> close a b N.
Proof.
  intros A B. pose proof (log2_bounds a A). pose proof (log2_bounds b B). split; [lia|]. intros n Hn.
  pose proof (Z.log2_nonneg (residue a b n)). pose proof (Z.log2_nonneg (b - residue a b n)). split; [intros _|]; lia.
Qed.
Lemma no_carry_one_element k y : 0 < k -> 0 <= y -> k * y < 2 ^ 64 -> ~ carry_lost k y.
Proof.
  intros K Y L (i & Hi & _ & G). pose proof (Z.log2_nonneg k). pose proof (Z.div_pos (Z.log2 k) 64 ltac:(lia) ltac:(lia)).
  assert (2 ^ 64 <= 2 ^ (64 * (size k + i))) by (apply Z.pow_le_mono_r; unfold size; lia).
  pose proof (Z.mod_le y (2 ^ (64 * (i + 1))) Y ltac:(apply Z.pow_pos_nonneg; lia)). nia.
Qed.
Lemma minmax_one_element cfg M junk N a b va vb : 64 * Z.of_nat M < 2 ^ 64 -> 1 <= N < 2 ^ 64 -> represents M a va -> represents M b vb ->
  0 < va < 2 ^ 64 -> 0 < vb < 2 ^ 64 ->
  exists e m g, minmax_euclid cfg M junk N a b = Ok e /\
    represents M (e_min e) m /\ least va vb N m /\ represents M (e_max e) g /\ greatest va vb N g /\
    1 <= e_argmin e <= N /\ residue va vb (e_argmin e) = m /\
    0 <= e_argmax e <= N /\ residue va vb (e_argmax e) = g /\ (residue va vb 1 <> 0 -> 1 <= e_argmax e).
Proof.
  intros HM HN R S Pa Pb. apply minmax; try assumption; try lia; [apply close_one_element; assumption|].
  intros k m g y K [[n [_ Hm]] _] [[n' [_ Hg]] _] Y F. pose proof (residue_bounds va vb n ltac:(lia)). pose proof (residue_bounds va vb n' ltac:(lia)).
  apply no_carry_one_element; lia.
Qed.

(** 3 n mod 2^65 for n up to 11 * 10^18: the greatest is 33 * 10^18 *)
Lemma minmax_fails : exists N a b va vb, 1 <= N < 2 ^ 64 /\ represents 2 a va /\ represents 2 b vb /\ 0 < va /\ 0 < vb /\
  forall cfg, exists e, minmax_euclid cfg 2 (fun _ _ _ => 0) N a b = Ok e /\
    ~ least va vb N (number (elements (e_min e)) 2) /\ ~ greatest va vb N (number (elements (e_max e)) 2).
Proof.
  exists 11000000000000000000, (one_word 3), (two_words 0 2), 3, (2 * 2 ^ 64 + 0). split; [lia|].
  split; [apply one_word_represents; lia|]. split; [apply two_words_represents; lia|]. split; [lia|]. split; [lia|].
  assert (R : forall n, 1 <= n <= 11000000000000000000 -> residue 3 (2 * 2 ^ 64 + 0) n = 3 * n) by (intros n Hn; apply Z.mod_small; lia).
  assert (G : forall x, x = 2 -> ~ least 3 (2 * 2 ^ 64 + 0) 11000000000000000000 x).
  { intros x -> [(n & Hn & E) _]. rewrite R in E by exact Hn. lia. }
  assert (H : forall x, x = 36893488147419103231 -> ~ greatest 3 (2 * 2 ^ 64 + 0) 11000000000000000000 x).
  { intros x -> [(n & Hn & E) _]. rewrite R in E by exact Hn. lia. }
  intros [mul ctz x64 nd]. destruct mul, nd; eexists; (split; [vm_compute; reflexivity|]); (split; [apply G | apply H]); vm_compute; reflexivity.
Qed.

(** the hypotheses of [minmax] for a = 2^64 + 77, b = 3 * 2^64 + 5, N = 2: the residues are a and 2 a *)
Lemma minmax_example : close (2 ^ 64 + 77) (3 * 2 ^ 64 + 5) 2 /\
  forall k m g y, 1 <= k <= 2 -> least (2 ^ 64 + 77) (3 * 2 ^ 64 + 5) 2 m -> greatest (2 ^ 64 + 77) (3 * 2 ^ 64 + 5) 2 g ->
    y = m \/ y = 3 * 2 ^ 64 + 5 - g -> k * y < 3 * 2 ^ 64 + 5 -> ~ carry_lost k y.
Proof.
  assert (C : forall n, 1 <= n <= 2 -> n = 1 \/ n = 2) by (intros; lia). split.
  - split; [vm_compute; reflexivity|]. intros n Hn. destruct (C n Hn) as [-> | ->]; split; try intros _; vm_compute; reflexivity.
  - intros k m g y K [(n1 & H1 & <-) L1] [(n2 & H2 & <-) G2] Y _ (i & Hi & A & B).
    assert (Ky : 0 <= y < 2 ^ 64 + 100).
    { pose proof (L1 1 ltac:(lia)) as Q1. pose proof (G2 2 ltac:(lia)) as Q2. 
      change (residue (2 ^ 64 + 77) (3 * 2 ^ 64 + 5) 1) with (2 ^ 64 + 77) in Q1. change (residue (2 ^ 64 + 77) (3 * 2 ^ 64 + 5) 2) with (2 * 2 ^ 64 + 154) in Q2.
      pose proof (residue_bounds (2 ^ 64 + 77) (3 * 2 ^ 64 + 5) n1 ltac:(lia)). pose proof (residue_bounds (2 ^ 64 + 77) (3 * 2 ^ 64 + 5) n2 ltac:(lia)). lia. }
    assert (S : size k = 1) by (unfold size; rewrite Z.div_small; [reflexivity|]; destruct (C k K) as [-> | ->]; vm_compute; split; congruence).
    rewrite S in B. assert (2 ^ (64 * 2) <= 2 ^ (64 * (1 + i))) by (apply Z.pow_le_mono_r; lia).
    pose proof (Z.mod_le y (2 ^ (64 * (i + 1))) ltac:(lia) ltac:(apply Z.pow_pos_nonneg; lia)). change (2 ^ (64 * 2)) with (2 ^ 64 * 2 ^ 64) in *. nia.
Qed.

(** 2^128 / 6: the quotient is 101010...10 in binary *)
Lemma safe_example : represents 3 (three_words 0 0 1) (2 ^ 128) /\ represents 3 (one_word 6) 6 /\ safe (2 ^ 128) 6.
Proof.
  split; [change (2 ^ 128) with (1 * 2 ^ 128 + 0 * 2 ^ 64 + 0); apply three_words_represents; lia|]. split; [apply one_word_represents; lia|]. apply dense_safe; [lia | lia | reflexivity|].
  intros t Ht B. exists (t - 2). split; [lia|].
  assert (L : t <= 125).
  { destruct (Z_lt_le_dec 125 t) as [L|L]; [exfalso|exact L]. rewrite Z.bits_above_log2 in B; [discriminate | vm_compute; discriminate | vm_compute (Z.log2 _); exact L]. }
  assert (C : forallb (fun n => implb (Z.testbit (2 ^ 128 / 6) (Z.of_nat n)) (Z.testbit (2 ^ 128 / 6) (Z.of_nat n - 2))) (seq 60 66) = true) by (vm_compute; reflexivity).
  pose proof (proj1 (forallb_forall _ _) C (Z.to_nat t)) as A. cbv beta in A. rewrite Z2Nat.id in A by lia. specialize (A ltac:(apply in_seq; lia)).
  rewrite B in A. exact A.
Qed.
