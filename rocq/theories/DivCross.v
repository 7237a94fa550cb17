(** * long_division by an odd number, when the bit below the last element border is set wrongly *)

From Coq Require Import ZArith List Lia Bool.
From Verif Require Import Machine Model Arith BigintModel BigSpec BigFacts Bigint BigintOps BigintMul DivModel DivSpec Division.
Open Scope Z_scope.

(** a shift to the right in the whole array *)
Lemma shift_right_floor N s p k : 0 < k < 64 -> (p < N)%nat -> words s (S p) ->
  exists s', (s <- up_loop (fun idx s =>
                 v <- sel N s idx ;; v <- shr 64 v k ;; s <- upd N s idx v ;;
                 high <- sel N s (S idx) ;; high <- shl 64 high (64 - k) ;;
                 v <- sel N s idx ;; upd N s idx (Z.lor v high)) 0 (p - 0) s ;;
              v <- sel N s p ;; v <- shr 64 v k ;; upd N s p v) = Ok s' /\
    words s' (S p) /\ number s' (S p) = number s (S p) / 2 ^ k.
Proof.
  intros Hk Hp Hw. destruct (shift_right_loop_ok N s 0 p k Hk ltac:(lia) Hw) as (s' & E & H & _). exists s'. split; [exact E|].
  pose proof (pow_ge1 k ltac:(lia)) as P. split.
  - intros i Hi. rewrite H by lia. apply (righted_words s k p); [lia | exact Hw | exact Hi].
  - rewrite (number_ext s' (righted s k p)) by (intros i Hi; apply H; lia). pose proof (righted_number s k p ltac:(lia) Hw) as R.
    pose proof (Z.mod_pos_bound (s 0%nat) (2 ^ k) ltac:(lia)). apply (Z.div_unique_pos _ _ _ (s 0%nat mod 2 ^ k)); lia.
Qed.

(** what n_shifted is from then on *)
Definition widened (w t : Z) : Z := w * 2 ^ t + 2 ^ t / 2.
Lemma widened_0 w : widened w 0 = w.
Proof. unfold widened. change (2 ^ 0) with 1. change (1 / 2) with 0. ring. Qed.
Lemma half_pow t : 0 < t -> 2 ^ t / 2 = 2 ^ (t - 1).
Proof. intros H. replace (2 ^ t) with (2 ^ (t - 1) * 2); [apply Z.div_mul; lia|]. rewrite <- (Z.pow_1_r 2) at 2. rewrite <- Z.pow_add_r by lia. f_equal. lia. Qed.
Lemma widened_shift w t k : 0 <= k <= t -> widened w t / 2 ^ k = widened w (t - k).
Proof.
  intros H. unfold widened. assert (P : 0 < 2 ^ k) by (apply Z.pow_pos_nonneg; lia).
  replace (2 ^ t) with (2 ^ (t - k) * 2 ^ k) at 1 by (rewrite <- Z.pow_add_r by lia; f_equal; lia).
  rewrite Z.mul_assoc, Z.add_comm, Z.div_add, Z.add_comm by lia. f_equal. rewrite Z.div_div by lia. replace (2 * 2 ^ k) with (2 ^ k * 2) by ring. rewrite <- Z.div_div by lia. f_equal.
  replace (2 ^ t) with (2 ^ (t - k) * 2 ^ k) by (rewrite <- Z.pow_add_r by lia; f_equal; lia). apply Z.div_mul. lia.
Qed.
Lemma widened_back w t : 0 < t -> 2 * widened w (t - 1) <= widened w t <= 2 * widened w (t - 1) + 1 /\ (1 < t -> widened w t = 2 * widened w (t - 1)).
Proof.
  intros H. unfold widened. rewrite (half_pow t) by lia. assert (E : 2 ^ t = 2 * 2 ^ (t - 1)) by (rewrite <- Z.pow_succ_r by lia; f_equal; lia). rewrite E.
  pose proof (Z.div_mod (2 ^ (t - 1)) 2 ltac:(lia)) as D. pose proof (Z.mod_pos_bound (2 ^ (t - 1)) 2 ltac:(lia)). split; [lia|]. intros H1.
  rewrite (half_pow (t - 1)) in * by lia. assert (E1 : 2 ^ (t - 1) = 2 * 2 ^ (t - 1 - 1)) by (rewrite <- Z.pow_succ_r by lia; f_equal; lia). lia.
Qed.
Lemma widened_bounds w t : 0 < w -> 0 <= t -> 2 ^ (Z.log2 w + t) <= widened w t < 2 ^ Z.succ (Z.log2 w + t) /\ 0 < widened w t /\ w * 2 ^ t <= widened w t.
Proof.
  intros Hw Ht. unfold widened. pose proof (Z.log2_spec w Hw) as [W1 W2]. pose proof (Z.log2_nonneg w). assert (P : 0 < 2 ^ t) by (apply Z.pow_pos_nonneg; lia).
  assert (0 <= 2 ^ t / 2 < 2 ^ t) by (split; [apply Z.div_pos; lia | apply Z.div_lt_upper_bound; lia]).
  replace (Z.succ (Z.log2 w + t)) with (Z.succ (Z.log2 w) + t) by lia. rewrite !Z.pow_add_r by lia. nia.
Qed.
Lemma widened_log w t : 0 < w -> 0 <= t -> Z.log2 (widened w t) = Z.log2 w + t.
Proof. intros Hw Ht. apply Z.log2_unique; [pose proof (Z.log2_nonneg w); lia | apply widened_bounds; assumption]. Qed.

(** the recorded leading bit of the quotient *)
Definition headed (q : big) (Q : Z) : Prop :=
  exists t, t + 1 = 64 * Z.of_nat (element_pos q) + bit_pos q /\ 1 <= bit_pos q <= 64 /\ 2 ^ t <= Q < 2 ^ (t + 1).
(** the halves of the bits below the border add up *)
Lemma low_bit Q t s : 0 <= t < s -> s <= 64 -> (2 ^ s | Q) -> (Q + 2 ^ t) mod W = Q mod W + 2 ^ t /\ ((Q + 2 ^ t) mod W) / 2 = (Q mod W) / 2 + 2 ^ t / 2.
Proof.
  intros Ht Hs [h E]. assert (EW : W = 2 ^ (64 - s) * 2 ^ s) by (rewrite <- Z.pow_add_r by lia; f_equal; lia).
  assert (P : 0 < 2 ^ s) by (apply Z.pow_pos_nonneg; lia). assert (P2 : 0 < 2 ^ (64 - s)) by (apply Z.pow_pos_nonneg; lia).
  assert (L : 0 < 2 ^ t < 2 ^ s) by (split; [apply Z.pow_pos_nonneg; lia | apply Z.pow_lt_mono_r; lia]).
  assert (M : Q mod W = (h mod 2 ^ (64 - s)) * 2 ^ s) by (rewrite E, EW, Z.mul_mod_distr_r by lia; reflexivity).
  pose proof (Z.mod_pos_bound h (2 ^ (64 - s)) P2) as B.
  assert (A : (Q + 2 ^ t) mod W = Q mod W + 2 ^ t).
  { symmetry. apply (Z.mod_unique_pos _ _ (Q / W)); [rewrite M, EW; nia|]. pose proof (Z.div_mod Q W ltac:(lia)). lia. }
  split; [exact A|]. rewrite A, M. replace (2 ^ s) with (2 ^ (s - 1) * 2).
  2: { rewrite <- (Z.pow_1_r 2) at 2. rewrite <- Z.pow_add_r by lia. f_equal. lia. }
  rewrite Z.mul_assoc, (Z.add_comm _ (2 ^ t)), Z.div_add, Z.div_mul by lia. ring.
Qed.
Lemma headed_bit q qe Q t s : headed q Q -> 0 <= t < s -> (2 ^ s | Q) -> headed (mk_big qe (element_pos q) (bit_pos q)) (Q + 2 ^ t).
Proof.
  intros (u & H1 & H2 & H3 & H4) Ht [h E]. exists u. cbn [element_pos bit_pos]. split; [exact H1|]. split; [exact H2|].
  assert (P : 0 < 2 ^ s) by (apply Z.pow_pos_nonneg; lia). assert (L : 0 < 2 ^ t < 2 ^ s) by (split; [apply Z.pow_pos_nonneg; lia | apply Z.pow_lt_mono_r; lia]).
  assert (Pu : 0 < 2 ^ u) by (apply Z.pow_pos_nonneg; lia).
  split; [lia|]. assert (Ls : s <= u).
  { destruct (Z_le_gt_dec s u) as [|G]; [assumption|exfalso]. assert (2 ^ (u + 1) <= 2 ^ s) by (apply Z.pow_le_mono_r; lia). assert (0 < h < 1) by nia. lia. }
  assert (E2 : 2 ^ (u + 1) = 2 ^ (u + 1 - s) * 2 ^ s) by (rewrite <- Z.pow_add_r by lia; f_equal; lia). rewrite E2 in *. assert (h + 1 <= 2 ^ (u + 1 - s)) by nia. nia.
Qed.

Section After.
Variables (cfg : config) (N : nat) (v w : Z).
Hypothesis HN : 64 * Z.of_nat N < W.
Hypothesis Hw : 0 < w.

Record after (d : division) (t Q r : Z) : Prop := {
  af_base : d_base_idx d = 0%nat;
  af_zeros : d_zeros d = t;
  af_range : 0 <= t < 64;
  af_total : d_total d = t;
  af_valid : valid N (d_this d);
  af_val : val (d_this d) = r;
  af_pos : 0 < r;
  af_place : (d_element_pos d < N)%nat /\ 1 <= d_bit_pos d <= 64 /\ 64 * Z.of_nat (d_element_pos d) + d_bit_pos d = Z.log2 w + t + 1;
  af_words : words (d_shifted d) (S (d_element_pos d));
  af_number : number (d_shifted d) (S (d_element_pos d)) = widened w t;
  af_quotient : quotient_is N (d_quotient d) Q;
  af_headed : headed (d_quotient d) Q;
  af_top : 2 ^ 63 <= Q mod W;
  af_eq : v = Q * w + (Q mod W) / 2 + r
}.
Record ended (d : division) : Prop := {
  en_valid : valid N (d_this d);
  en_quotient : exists Q X, quotient_is N (d_quotient d) Q /\ headed (d_quotient d) Q /\ 2 ^ 63 <= Q mod W /\
    v = Q * w + (Q mod W) / 2 + X /\ 0 <= X <= w /\ val (d_this d) = X mod w
}.

(** a subtraction of n_shifted, the leading bit of the quotient being recorded before *)
Lemma subtract_after d t Q r s c : 0 <= t < s -> s <= 64 -> (2 ^ s | Q) ->
  d_base_idx d = 0%nat -> d_zeros d = t -> d_total d = t -> valid N (d_this d) -> val (d_this d) = r -> widened w t < r ->
  (d_element_pos d < N)%nat /\ 1 <= d_bit_pos d <= 64 /\ 64 * Z.of_nat (d_element_pos d) + d_bit_pos d = Z.log2 w + t + 1 ->
  (d_element_pos d <= element_pos (d_this d))%nat ->
  (c <= element_pos (d_this d))%nat -> words (d_shifted d) (S (element_pos (d_this d))) -> number (d_shifted d) (S (element_pos (d_this d))) = widened w t ->
  (forall i, (c < i <= element_pos (d_this d))%nat -> elements (d_this d) i = d_shifted d i) ->
  number (d_shifted d) (S c) <= number (elements (d_this d)) (S c) ->
  quotient_is N (d_quotient d) Q -> forall before, (before = true -> Q = 0 /\ t = 63) -> (before = false -> headed (d_quotient d) Q) ->
  2 ^ 63 <= (Q + 2 ^ t) mod W -> v = Q * w + (Q mod W) / 2 + r ->
  exists d', subtract_here cfg N before d (Some c) = Ok (true, d') /\ after d' t (Q + 2 ^ t) (r - widened w t).
Proof.
  intros Ht Hs Hd HB HZ HT Vb Er Hr (Hp & Hbits & He) Hle Hc Ws Ns Ha Hl [Qw Qn] before Hb1 Hb2 Htop Heq.
  unfold subtract_here. pose proof (v_pos _ _ Vb) as Pp.
  destruct (if before then (d_base_idx d, d_zeros d + 1) else (element_pos (d_quotient d), bit_pos (d_quotient d))) as [qpos qbits] eqn:Eq.
  rewrite HB, HZ in *. rewrite sel_ok by lia. cbn [bind]. rewrite shl_ok by lia. cbn [bind]. rewrite upd_ok by lia. cbn [bind].
  assert (Pt : 0 < 2 ^ t < W) by (split; [apply Z.pow_pos_nonneg; lia | apply Z.pow_lt_mono_r; lia]).
  rewrite Z.mul_1_l, Z.mod_small by lia.
  destruct (quotient_bit N (elements (d_quotient d)) Q 0 t s Qw Qn ltac:(lia) ltac:(lia) ltac:(lia) Hd) as [-> Q1].
  destruct (perform_subtraction_ok cfg N (d_this d) (d_shifted d) 0 c Vb ltac:(lia) Hc Ws ltac:(intros; lia) Ha Hl) as (b' & -> & V' & E'). cbn [bind].
  destruct (low_bit Q t s Ht Hs Hd) as [L1 L2].
  assert (Nn : number (put (elements (d_quotient d)) 0 (elements (d_quotient d) 0%nat + 2 ^ t)) N = Q + 2 ^ t) by (rewrite number_put, Qn, Wp_0 by lia; ring).
  assert (Wd : widened w t < Wp (S (d_element_pos d))).
  { apply Z.lt_le_trans with (1 := proj2 (proj1 (widened_bounds w t Hw ltac:(lia)))). rewrite Wp_eq. apply Z.pow_le_mono_r; lia. }
  eexists. split; [reflexivity|].
  split; cbn [d_base_idx d_zeros d_total d_this d_shifted d_element_pos d_bit_pos d_quotient]; try assumption; try reflexivity; try lia.
  - apply (words_le _ _ _ Ws). lia.
  - rewrite <- Ns. symmetry. apply number_zero; [lia|]. apply (number_small (d_shifted d)); [exact Ws | lia | lia].
  - split; cbn [elements]; [apply words_put; [exact Qw | exact Q1] | exact Nn].
  - destruct before.
    + injection Eq as <- <-. destruct (Hb1 eq_refl) as [-> ->]. exists 63. cbn [element_pos bit_pos]. repeat split; lia.
    + injection Eq as <- <-. apply (headed_bit _ _ Q t s); [apply Hb2; reflexivity | exact Ht | exact Hd].
  - rewrite L2. unfold widened. rewrite Z.mul_add_distr_r. lia.
Qed.

Definition even_up (d : division) : Prop := d_element_pos d = element_pos (d_this d) /\ d_bit_pos d = bit_pos (d_this d).

Lemma compare_after d t Q r s : after d t Q r -> even_up d -> ends Q s -> (t < s \/ (t = s /\ (r < widened w t \/ (t = 0 /\ r = w)))) -> s < 64 ->
  exists go d', compare_and_subtract cfg N false d = Ok (go, d') /\ (go = false -> ended d') /\
    (go = true -> exists t', after d' t' (Q + 2 ^ t') (r - widened w t') /\ t' < s /\ ends (Q + 2 ^ t') t' /\ (r - widened w t' < widened w t' \/ (t' = 0 /\ r - widened w t' = w))).
Proof.
  intros [S1 S2 S3 S4 S5 S6 S7 S8 S9 S10 S11 S12 S13 S14] [L1 L2] Hd Hts Hs. pose proof (v_pos _ _ S5) as Pp. pose proof (v_words _ _ S5) as Wb.
  destruct S8 as (Hp & Hbits & He). rewrite L1, L2 in *. destruct (bits_of N (d_this d) S5 ltac:(lia)) as [Bb Eb]. rewrite S6 in Eb.
  assert (El : Z.log2 r = Z.log2 w + t) by lia. pose proof (Z.log2_spec r S7) as [R1 R2]. rewrite El in R1, R2. pose proof (Z.log2_nonneg w) as Lw.
  destruct (widened_bounds w t Hw ltac:(lia)) as ([F1 F2] & F3 & F4).
  pose proof (ends_divides _ _ Hd) as Hd2.
  assert (X3 : 2 ^ Z.succ (Z.log2 w + t) = 2 * 2 ^ (Z.log2 w + t)) by (apply Z.pow_succ_r; lia).
  unfold compare_and_subtract.
  destruct (compare_down_ok N 0 (elements (d_this d)) (d_shifted d) (S (element_pos (d_this d))) ltac:(lia) ltac:(apply (words_le _ _ N Wb); lia) S9) as (c & -> & Hc).
  cbn [bind]. fold (val (d_this d)) in Hc. rewrite S6, S10 in Hc. destruct c as [|idx|].
  - unfold shift_back. rewrite S1, S2. destruct (Z.eqb_spec t 0) as [T0|T0]; cbn [andb Nat.eqb negb bind].
    + exists false, d. split; [reflexivity|]. split; [|discriminate]. intros _. rewrite T0, widened_0 in Hc. split; [exact S5|].
      exists Q, r. repeat (split; [first [assumption | lia]|]). rewrite Z.mod_small by lia. exact S6.
    + assert (Hhead : exists p' b', (if bit_pos (d_this d) =? 1 then ((element_pos (d_this d) - 1)%nat, element_number_of_bits)
                  else (element_pos (d_this d), bit_pos (d_this d) - 1)) = (p', b') /\
                1 <= b' <= 64 /\ 64 * Z.of_nat p' + b' = Z.log2 w + (t - 1) + 1 /\ (p' <= element_pos (d_this d))%nat).
      { unfold element_number_of_bits. destruct (Z.eqb_spec (bit_pos (d_this d)) 1) as [B1|B1]; eexists; eexists; (split; [reflexivity|]); lia. }
      rewrite L1, L2. destruct Hhead as (p' & b' & -> & Hb' & He' & Hp').
      destruct (shift_right_floor N (d_shifted d) (element_pos (d_this d)) 1 ltac:(lia) ltac:(lia) S9) as (s1 & E1 & Ws1 & N1).
      rewrite S10, widened_shift in N1 by lia.
      unfold shift_right_one, element_number_of_bits. cbn [bind] in E1. cbn [bind]. rewrite E1. cbn [bind].
      set (d1 := mk_division (d_this d) s1 p' b' (d_quotient d) 0 (t - 1) (wrap 64 (d_total d - 1))).
      destruct (widened_bounds w (t - 1) Hw ltac:(lia)) as ([G1 G2] & G3 & G4). replace (Z.succ (Z.log2 w + (t - 1))) with (Z.log2 w + t) in G2 by lia.
      destruct (widened_back w t ltac:(lia)) as [K1 K2].
      destruct (low_bit Q (t - 1) s ltac:(lia) ltac:(lia) Hd2) as [M1 M2].
      destruct (subtract_after d1 (t - 1) Q r s (element_pos (d_this d)) ltac:(lia) ltac:(lia) Hd2) with (before := false) as (d' & E' & St');
        cbn [d1 d_base_idx d_zeros d_total d_this d_shifted d_element_pos d_bit_pos d_quotient]; try assumption; try reflexivity; try lia.
      * rewrite S4. apply wrap_small. lia.
      * fold (val (d_this d)). rewrite N1, S6. lia.
      * intros; assumption.
      * exists true, d'. split; [exact E'|]. split; [discriminate|]. intros _. exists (t - 1). split; [exact St'|]. split; [lia|].
        split; [apply (ends_next N Q (t - 1) s); [lia | lia | exact Hd2]|].
        destruct (Z.eq_dec t 1) as [T1|T1]; [|specialize (K2 ltac:(lia)); left; lia].
        assert (K3 : widened w (t - 1) = w) by (rewrite T1; apply widened_0). lia.
  - destruct Hc as (Hi & Ha & Hlt).
    assert (Nl : number (d_shifted d) (S idx) < number (elements (d_this d)) (S idx)).
    { apply number_lt; [apply (words_le _ _ _ S9); lia | apply (words_le _ _ N Wb); lia | exact Hlt]. }
    assert (Rl : widened w t < r).
    { pose proof (number_tail (elements (d_this d)) (d_shifted d) (S idx) (S (element_pos (d_this d))) ltac:(lia) ltac:(intros i Hi2; apply Ha; lia)) as T.
      fold (val (d_this d)) in T. rewrite S6, S10 in T. lia. }
    assert (Ts : t < s) by (destruct Hts as [|[-> [|[-> ->]]]]; [assumption | lia | rewrite widened_0 in Rl; lia]).
    destruct (low_bit Q t s ltac:(lia) ltac:(lia) Hd2) as [M1 M2].
    destruct (subtract_after d t Q r s idx ltac:(lia) ltac:(lia) Hd2) with (before := false) as (d' & E' & St'); try assumption; try lia.
    + intros i Hi2. apply Ha. lia.
    + intros; assumption.
    + exists true, d'. split; [exact E'|]. split; [discriminate|]. intros _. exists t. split; [exact St'|]. split; [exact Ts|].
      split; [apply (ends_next N Q t s); [lia | exact Ts | exact Hd2] | left; lia].
  - assert (Re : r = widened w t).
    { rewrite <- S10, <- S6. unfold val. apply number_ext. intros i Hi. apply Hc. lia. }
    unfold subtract_here. rewrite S1, S2. rewrite sel_ok by lia. cbn [bind]. rewrite shl_ok by lia. cbn [bind]. rewrite upd_ok by lia. cbn [bind].
    assert (Pt : 0 < 2 ^ t < W) by (split; [apply Z.pow_pos_nonneg; lia | apply Z.pow_lt_mono_r; lia]).
    destruct S11 as [Qw Qn]. rewrite Z.mul_1_l, Z.mod_small by lia.
    destruct (fill_zero_ok N (elements (d_this d)) 0 (S (element_pos (d_this d))) ltac:(lia)) as (a & -> & Ha). cbn [bind].
    assert (Za : forall i, (i < N)%nat -> a i = 0).
    { intros i Hi. rewrite Ha. destruct (Nat.ltb_spec i (0 + S (element_pos (d_this d)))); cbn [andb Nat.leb]; [reflexivity|]. apply (above_zero N _ i S5). lia. }
    assert (V0 : val (mk_big a 0 0) = 0) by (unfold val; cbn [elements element_pos]; rewrite number_S, Za by lia; cbn [number]; ring).
    assert (Va : valid N (mk_big a 0 0)).
    { split; cbn [elements element_pos bit_pos]; [| lia | intros i Hi; apply Za; lia | rewrite Za by lia; reflexivity | left; reflexivity].
      intros i Hi. rewrite Za by exact Hi. lia. }
    exists false. eexists. split; [reflexivity|]. split; [|discriminate]. intros _. split; cbn [d_this d_quotient]; [exact Va|]. rewrite V0.
    destruct (Z_lt_le_dec t s) as [Ts|Ts].
    + destruct (low_bit Q t s ltac:(lia) ltac:(lia) Hd2) as [M1 M2].
      destruct (quotient_bit N (elements (d_quotient d)) Q 0 t s Qw Qn ltac:(lia) ltac:(lia) ltac:(lia) Hd2) as [-> Q1].
      exists (Q + 2 ^ t), 0. split; [split; cbn [elements]; [apply words_put; [exact Qw | exact Q1] | rewrite number_put, Qn, Wp_0 by lia; ring]|].
      split; [apply (headed_bit _ _ Q t s); [exact S12 | lia | exact Hd2]|]. split; [rewrite M1; lia|]. split; [rewrite M2; unfold widened in Re; rewrite Z.mul_add_distr_r; lia|].
      split; [lia|]. rewrite Z.mod_0_l by lia. reflexivity.
    + destruct Hts as [|[-> [|[-> Rw]]]]; [lia | lia|]. change (2 ^ 0) with 1.
      assert (O : Z.lor (elements (d_quotient d) 0%nat) 1 = elements (d_quotient d) 0%nat).
      { destruct Hd as [h Hh]. pose proof (element_mod (elements (d_quotient d)) N 0 Qw ltac:(lia)) as M. rewrite Qn, Wp_0, Z.div_1_r in M.
        assert (Od : Z.odd (elements (d_quotient d) 0%nat) = true).
        { rewrite M. rewrite Z.odd_spec. pose proof (Z.div_mod Q W ltac:(lia)) as D. exists (h - 2 ^ 63 * (Q / W)). change (2 ^ 0) with 1 in Hh. lia. }
        apply Z.bits_inj'. intros i Hi. rewrite Z.lor_spec. destruct (Z.eq_dec i 0) as [->|]; [rewrite !Z.bit0_odd, Od; reflexivity|].
        replace (Z.testbit 1 i) with false; [apply orb_false_r|]. symmetry. apply (Z.bits_above_log2 1 i); cbn; lia. }
      rewrite O. exists Q, w. split; [split; cbn [elements]|].
      * intros i Hi. unfold put. destruct (Nat.eqb_spec i 0) as [->|]; apply Qw; lia.
      * rewrite <- Qn. apply number_ext. intros i Hi. unfold put. destruct (Nat.eqb_spec i 0) as [->|]; reflexivity.
      * split; [exact S12|]. split; [exact S13|]. split; [lia|]. split; [lia|]. rewrite Z.mod_same by lia. reflexivity.
Qed.

Lemma realign_after d t Q r : after d t Q r -> Z.log2 r <= Z.log2 w + t ->
  (realign N d = Ok None /\ r < w) \/
  exists d' t', realign N d = Ok (Some d') /\ after d' t' Q r /\ even_up d' /\ t' <= t /\ (t' = t -> Z.log2 r = Z.log2 w + t).
Proof.
  intros [S1 S2 S3 S4 S5 S6 S7 S8 S9 S10 S11 S12 S13 S14] El. pose proof (v_pos _ _ S5) as Pp.
  destruct S8 as (Hp & Hbits & He). destruct (bits_of N (d_this d) S5 ltac:(lia)) as [Bb Eb]. rewrite S6 in Eb.
  pose proof (Z.log2_nonneg w) as Lw. pose proof (Z.log2_nonneg r) as Lr.
  unfold realign. assert (Eo : wrap 64 (Z.of_nat (d_element_pos d) - Z.of_nat (element_pos (d_this d))) = Z.of_nat (d_element_pos d) - Z.of_nat (element_pos (d_this d))).
  { apply wrap_small. lia. }
  rewrite Eo. unfold element_number_of_bits. set (D := Z.log2 w + t - Z.log2 r).
  assert (Hsh : exists es bs, (if bit_pos (d_this d) <? d_bit_pos d
      then (Z.of_nat (d_element_pos d) - Z.of_nat (element_pos (d_this d)), d_bit_pos d - bit_pos (d_this d))
      else if d_bit_pos d <? bit_pos (d_this d)
        then (wrap 64 (Z.of_nat (d_element_pos d) - Z.of_nat (element_pos (d_this d)) - 1), 64 + d_bit_pos d - bit_pos (d_this d))
        else (Z.of_nat (d_element_pos d) - Z.of_nat (element_pos (d_this d)), 0)) = (es, bs) /\ es * 64 + bs = D /\ 0 <= bs < 64 /\ 0 <= es).
  { unfold D. destruct (Z.ltb_spec (bit_pos (d_this d)) (d_bit_pos d)); [|destruct (Z.ltb_spec (d_bit_pos d) (bit_pos (d_this d)))];
      eexists; eexists; (split; [reflexivity|]); try lia. rewrite wrap_small by lia. lia. }
  destruct Hsh as (es & bs & -> & ED & Hbs & Hes). rewrite ED. rewrite (wrap_small 64 D) by (unfold D; lia). rewrite S4.
  destruct (Z.ltb_spec t D) as [LD|LD].
  { left. split; [reflexivity|]. destruct (Z_lt_le_dec r w) as [|G]; [assumption|]. pose proof (Z.log2_le_mono _ _ G). unfold D in LD. lia. }
  right. assert (Pl : (element_pos (d_this d) <= d_element_pos d)%nat) by (unfold D in *; lia).
  assert (es = 0) by lia. subst es. assert (bs = D) by lia. subst bs. cbn [Z.eqb negb bind].
  replace ((t - D) / 64) with 0 by (symmetry; apply Z.div_small; lia). replace ((t - D) mod 64) with (t - D) by (symmetry; apply Z.mod_small; lia). change (Z.to_nat 0) with 0%nat.
  assert (Hf : exists s1, (if negb (D =? 0) then
      s <- up_loop (fun idx s =>
             v <- sel N s idx ;; v <- shr 64 v D ;; s <- upd N s idx v ;;
             high <- sel N s (S idx) ;; high <- shl 64 high (64 - D) ;;
             v <- sel N s idx ;; upd N s idx (Z.lor v high))
           0 (d_element_pos d - 0) (d_shifted d) ;;
      v <- sel N s (d_element_pos d) ;; v <- shr 64 v D ;; upd N s (d_element_pos d) v
    else Ok (d_shifted d)) = Ok s1 /\ words s1 (S (d_element_pos d)) /\ number s1 (S (d_element_pos d)) = widened w (t - D)).
  { destruct (Z.eqb_spec D 0) as [D0|D0]; cbn [negb].
    - exists (d_shifted d). split; [reflexivity|]. split; [exact S9|]. rewrite D0, Z.sub_0_r. exact S10.
    - destruct (shift_right_floor N (d_shifted d) (d_element_pos d) D ltac:(lia) ltac:(lia) S9) as (s1 & E1 & Ws1 & N1). exists s1. split; [exact E1|]. split; [exact Ws1|].
      rewrite N1, S10. apply widened_shift. lia. }
  destruct Hf as (s1 & E1 & Ws1 & N1). cbn [bind] in E1 |- *. rewrite E1. cbn [bind].
  assert (Wd : widened w (t - D) < Wp (S (element_pos (d_this d)))).
  { apply Z.lt_le_trans with (1 := proj2 (proj1 (widened_bounds w (t - D) Hw ltac:(lia)))). rewrite Wp_eq. apply Z.pow_le_mono_r; unfold D; lia. }
  eexists. exists (t - D). split; [reflexivity|]. split; [|split; [split; reflexivity | split; [unfold D; lia | unfold D; lia]]].
  split; cbn [d_base_idx d_zeros d_total d_this d_shifted d_element_pos d_bit_pos d_quotient]; try assumption; try reflexivity; try lia.
  - apply (words_le _ _ _ Ws1). lia.
  - rewrite <- N1. symmetry. apply number_zero; [lia|]. apply (number_small s1); [exact Ws1 | lia | lia].
Qed.

Lemma loop_after fuel d t Q r : after d t Q r -> ends Q t -> (r < widened w t \/ (t = 0 /\ r = w)) -> t < Z.of_nat fuel ->
  exists d', division_loop cfg N fuel d = Ok d' /\ ended d'.
Proof.
  revert d t Q r. induction fuel as [|fuel IH]; intros d t Q r A En Hr Hf; [pose proof (af_range _ _ _ _ A); lia|]. cbn [division_loop].
  pose proof (af_range _ _ _ _ A) as Rt.
  assert (El : Z.log2 r <= Z.log2 w + t).
  { destruct Hr as [L|[-> ->]]; [|lia]. rewrite <- (widened_log w t Hw ltac:(lia)). apply Z.log2_le_mono. lia. }
  destruct (realign_after d t Q r A El) as [[-> L]|(d1 & t1 & -> & A1 & Li & T1 & T2)]; cbn [bind].
  - exists d. split; [reflexivity|]. destruct A as [S1 S2 S3 S4 S5 S6 S7 S8 S9 S10 S11 S12 S13 S14]. split; [exact S5|]. exists Q, r.
    repeat (split; [first [assumption | lia]|]). rewrite Z.mod_small by lia. exact S6.
  - destruct (compare_after d1 t1 Q r t A1 Li En) as (go & d2 & -> & F & C).
    + destruct (Z.eq_dec t1 t) as [->|]; [right; split; [reflexivity | exact Hr] | left; lia].
    + lia.
    + cbn [bind]. destruct go; [|exists d2; split; [reflexivity | apply F; reflexivity]].
      destruct (C eq_refl) as (t2 & A2 & T3 & En2 & Hr2). apply (IH d2 t2 _ _ A2 En2 Hr2). lia.
Qed.
End After.

Section Before.
Variables (cfg : config) (N : nat) (v w : Z).
Hypothesis HN : 64 * Z.of_nat N < W.
Hypothesis Hw : 0 < w.
Hypothesis Hodd : Z.odd w = true.
Hypothesis Hleap : ~ leaps v w.
Hypothesis Hlast : crosses_last v w.

(** what is left of [v] above the border *)
Lemma still_ahead Q t r : (2 ^ t | Q) -> 64 <= t -> 0 <= r -> v = Q * w + r -> v mod (w * 2 ^ 64) = r mod (w * 2 ^ 64).
Proof.
  intros [h ->] Ht Hr E. replace (h * 2 ^ t * w + r) with (r + h * 2 ^ (t - 64) * (w * 2 ^ 64)) in E.
  2: { replace (2 ^ t) with (2 ^ (t - 64) * 2 ^ 64) by (rewrite <- Z.pow_add_r by lia; f_equal; lia). ring. }
  rewrite E. apply Z.mod_add. lia.
Qed.
Lemma rest_large Q t r : (2 ^ t | Q) -> 64 <= t -> 0 <= r -> v = Q * w + r -> Z.log2 w + 64 <= Z.log2 r /\ r mod (w * 2 ^ 64) <> 0.
Proof.
  intros Hd Ht Hr E. destruct Hlast as [H _]. rewrite (still_ahead Q t r Hd Ht Hr E) in H. pose proof (Z.log2_nonneg w). split.
  - rewrite <- H. apply Z.log2_le_mono. apply Z.mod_le; [exact Hr | lia].
  - intros Z0. rewrite Z0 in H. cbn in H. lia.
Qed.
Lemma not_twice d t Q r : state N v w d t Q r -> lined_up d -> 64 < t -> (2 ^ t | Q) -> r < w * 2 ^ t -> d_zeros d = 0 -> False.
Proof.
  intros [S1 S2 S3 S4 S5 S6 S7 S8 S9 S10 S11] [L1 L2] Ht Hd Hr Z0. apply (proj2 Hlast (Z.of_nat (d_base_idx d)) ltac:(lia)).
  replace (64 * Z.of_nat (d_base_idx d)) with t by lia. rewrite (rest v w Q t r Hd ltac:(lia) ltac:(lia) S11).
  destruct S8 as (Hp & Hws & Hn & Hbits & He). destruct (bits_of N (d_this d) S5 ltac:(lia)) as [Bb Eb]. rewrite S6 in Eb. rewrite L1, L2 in *. lia.
Qed.

(** the crossing itself *)
Lemma crossing before d Q r : state N v w d 64 Q r -> lined_up d -> (2 ^ 64 | Q) -> r < w * 2 ^ 64 ->
  (before = true -> Q = 0) -> (before = false -> headed (d_quotient d) Q) ->
  exists d', compare_and_subtract cfg N before d = Ok (true, d') /\ after N v w d' 63 (Q + 2 ^ 63) (r - widened w 63) /\ r - widened w 63 < widened w 63 /\ ends (Q + 2 ^ 63) 63.
Proof.
  intros St [L1 L2] Hd Hr Hb1 Hb2. pose proof St as [S1 S2 S3 S4 S5 S6 S7 S8 S9 S10 S11].
  pose proof (v_pos _ _ S5) as Pp. pose proof (v_words _ _ S5) as Wb. destruct S8 as (Hp & Hws & Hn & Hbits & He). rewrite L1, L2 in *.
  destruct (bits_of N (d_this d) S5 ltac:(lia)) as [Bb Eb]. rewrite S6 in Eb. assert (El : Z.log2 r = Z.log2 w + 64) by lia.
  pose proof (Z.log2_spec r S7) as [R1 R2]. rewrite El in R1, R2. pose proof (Z.log2_nonneg w) as Lw.
  assert (B1 : d_base_idx d = 1%nat) by lia. assert (Z0 : d_zeros d = 0) by lia.
  unfold compare_and_subtract.
  destruct (compare_down_ok N 0 (elements (d_this d)) (d_shifted d) (S (element_pos (d_this d))) ltac:(lia) ltac:(apply (words_le _ _ N Wb); lia) Hws) as (c & -> & Hc).
  cbn [bind]. fold (val (d_this d)) in Hc. rewrite S6, Hn in Hc.
  assert (c = N_larger).
  { destruct c as [|idx|]; [reflexivity| |]; exfalso.
    - destruct Hc as (Hi & Ha & Hlt).
      assert (Nl : number (d_shifted d) (S idx) < number (elements (d_this d)) (S idx)).
      { apply number_lt; [apply (words_le _ _ _ Hws); lia | apply (words_le _ _ N Wb); lia | exact Hlt]. }
      pose proof (number_tail (elements (d_this d)) (d_shifted d) (S idx) (S (element_pos (d_this d))) ltac:(lia) ltac:(intros i Hi2; apply Ha; lia)) as T.
      fold (val (d_this d)) in T. rewrite S6, Hn in T. lia.
    - assert (r = w * 2 ^ 64); [|lia]. rewrite <- Hn, <- S6. unfold val. apply number_ext. intros i Hi. apply Hc. lia. }
  subst c. unfold shift_back. rewrite B1, Z0. cbn [Z.eqb andb negb Nat.eqb bind]. rewrite sel_ok by lia. unfold element_number_of_bits. cbn [bind]. rewrite shl_ok by lia. cbn [bind].
  rewrite upd_ok by lia. cbn [bind].
  assert (Ez : d_shifted d 0%nat = 0) by (apply S4; lia).
  assert (E1 : (d_shifted d 1%nat * 2 ^ (64 - 1)) mod W = 2 ^ 63).
  { rewrite (element_mod (d_shifted d) (S (element_pos (d_this d))) 1 Hws) by lia. rewrite Hn.
    change (Wp 1) with (2 ^ 64). rewrite Z.div_mul by lia. rewrite Z.mul_mod_idemp_l by lia. apply Z.odd_spec in Hodd. destruct Hodd as [u ->].
    replace ((2 * u + 1) * 2 ^ (64 - 1)) with (2 ^ 63 + u * W) by (change W with (2 * 2 ^ 63); change (64 - 1) with 63; ring). rewrite Z.mod_add by lia. reflexivity. }
  rewrite E1. set (s0 := put (d_shifted d) 0 (2 ^ 63)).
  assert (Ws0 : words s0 (S (element_pos (d_this d)))) by (apply words_put; [exact Hws | lia]).
  assert (N0 : number s0 (S (element_pos (d_this d))) = w * 2 ^ 64 + 2 ^ 63) by (unfold s0; rewrite number_put, Hn, Wp_0, Ez by lia; ring).
  assert (Hhead : exists p' b', (if bit_pos (d_this d) =? 1 then ((element_pos (d_this d) - 1)%nat, 64)
              else (element_pos (d_this d), bit_pos (d_this d) - 1)) = (p', b') /\
            1 <= b' <= 64 /\ 64 * Z.of_nat p' + b' = Z.log2 w + 63 + 1 /\ (p' <= element_pos (d_this d))%nat).
  { destruct (Z.eqb_spec (bit_pos (d_this d)) 1) as [B2|B2]; eexists; eexists; (split; [reflexivity|]); lia. }
  rewrite L1, L2. destruct Hhead as (p' & b' & -> & Hb' & He' & Hp').
  destruct (shift_right_floor N s0 (element_pos (d_this d)) 1 ltac:(lia) ltac:(lia) Ws0) as (s1 & E2 & Ws1 & N1).
  assert (N2 : number s1 (S (element_pos (d_this d))) = widened w 63).
  { rewrite N1, N0. unfold widened. rewrite half_pow by lia. change (2 ^ 1) with 2. replace (w * 2 ^ 64 + 2 ^ 63) with ((w * 2 ^ 63 + 2 ^ (63 - 1)) * 2) by (change (2 ^ 64) with (2 ^ 63 * 2); change (63 - 1) with 62; lia).
    apply Z.div_mul. lia. }
  unfold shift_right_one, element_number_of_bits. cbn [bind] in E2. cbn [bind]. rewrite E2. cbn [bind].
  set (d1 := mk_division (d_this d) s1 p' b' (d_quotient d) 0 (64 - 1) (wrap 64 (d_total d - 1))).
  destruct (widened_bounds w 63 Hw ltac:(lia)) as ([G1 G2] & G3 & G4). replace (Z.succ (Z.log2 w + 63)) with (Z.log2 w + 64) in G2 by lia.
  destruct (low_bit Q 63 64 ltac:(lia) ltac:(lia) Hd) as [M1 M2]. assert (Q0 : Q mod W = 0) by (destruct Hd as [h ->]; apply Z.mod_mul; lia).
  destruct (subtract_after cfg N v w Hw d1 63 Q r 64 (element_pos (d_this d)) ltac:(lia) ltac:(lia) Hd) with (before := before) as (d' & E' & St');
    cbn [d1 d_base_idx d_zeros d_total d_this d_shifted d_element_pos d_bit_pos d_quotient]; try assumption; try reflexivity; try lia.
  - rewrite S3. reflexivity.
  - fold (val (d_this d)). rewrite N2, S6. lia.
  - intros B. split; [apply Hb1; exact B | reflexivity].
  - rewrite Q0. change (0 / 2) with 0. lia.
  - exists d'. split; [exact E'|]. split; [exact St'|]. split; [lia | apply (ends_next N Q 63 64); [lia | lia | exact Hd]].
Qed.

(** the leading bit, once it has been recorded above the border *)
Lemma headed_above q Q r s : topped v w q -> (2 ^ s | Q) -> 64 <= s -> ends Q s -> 0 <= Q -> 0 <= r < w * 2 ^ s -> v = Q * w + r -> headed q Q.
Proof.
  intros (t & T1 & T2 & T3 & T4) [h Eh] Hs [h2 Eh2] HQ Hr E. exists t. split; [exact T1|]. split; [exact T2|].
  assert (Ps : 0 < 2 ^ s) by (apply Z.pow_pos_nonneg; lia). assert (h = 2 * h2 + 1) by nia. assert (0 < h) by nia.
  assert (T0 : 0 <= t) by lia. assert (Pt : 0 < 2 ^ t) by (apply Z.pow_pos_nonneg; lia).
  rewrite Z.pow_add_r in * by lia. change (2 ^ 1) with 2 in *.
  assert (s <= t).
  { destruct (Z_le_gt_dec s t) as [|G]; [assumption|exfalso]. assert (2 ^ (t + 1) <= 2 ^ s) by (apply Z.pow_le_mono_r; lia). rewrite Z.pow_add_r in * by lia. change (2 ^ 1) with 2 in *. nia. }
  assert (E2 : 2 ^ t = 2 ^ (t - s) * 2 ^ s) by (rewrite <- Z.pow_add_r by lia; f_equal; lia). rewrite E2 in *. set (m := 2 ^ (t - s)) in *. set (p := 2 ^ s) in *.
  assert (m <= h < m * 2); [|nia]. split; [|nia]. destruct (Z_le_gt_dec m h); [assumption|]. assert (h * p * w + r < (h + 1) * p * w) by nia. nia.
Qed.

Lemma loop_before fuel d t Q r : state N v w d t Q r -> r < w * 2 ^ t -> ends Q t -> topped v w (d_quotient d) -> 64 <= t < Z.of_nat fuel ->
  exists d', division_loop cfg N fuel d = Ok d' /\ ended N v w d'.
Proof.
  revert d t Q r. induction fuel as [|fuel IH]; intros d t Q r St Hr Hd Ht Hf; [lia|]. cbn [division_loop].
  pose proof (ends_divides _ _ Hd) as Hd2. pose proof (st_pos _ _ _ _ _ _ _ St) as Rp. pose proof (st_eq _ _ _ _ _ _ _ St) as Re.
  destruct (rest_large Q t r Hd2 ltac:(lia) ltac:(lia) Re) as [Lr Nr].
  destruct (realign_ok N v w HN Hw Hleap d t Q r St Hr Hd Ht) as [[-> L]|(d1 & t1 & -> & St1 & Li & T1 & Tp)]; cbn [bind].
  { exfalso. assert (Z.log2 r <= Z.log2 w) by (apply Z.log2_le_mono; lia). lia. }
  assert (E1 : Z.log2 r = Z.log2 w + t1).
  { pose proof St1 as [S1 S2 S3 S4 S5 S6 S7 S8 S9 S10 S11]. destruct Li as [L1 L2]. destruct S8 as (Hp & Hws & Hn & Hbits & He).
    destruct (bits_of N (d_this d1) S5 ltac:(lia)) as [Bb Eb]. rewrite S6 in Eb. rewrite L1, L2 in *. lia. }
  assert (Hd1 : (2 ^ t1 | Q)) by (apply Z.divide_trans with (2 ^ t); [exists (2 ^ (t - t1)); rewrite <- Z.pow_add_r by lia; f_equal; lia | exact Hd2]).
  destruct (Z_lt_le_dec r (w * 2 ^ t1)) as [C|C]; [destruct (Z.eq_dec t1 64) as [->|Ne]|].
  - destruct (crossing false d1 Q r St1 Li Hd1 C ltac:(discriminate)) as (d2 & -> & A & B & En).
    + intros _. destruct St1 as [S1 S2 S3 S4 S5 S6 S7 S8 S9 S10 S11]. apply (headed_above _ Q r t Tp Hd2 ltac:(lia) Hd S10 ltac:(lia) Re).
    + cbn [bind]. apply (loop_after cfg N v w HN Hw fuel d2 63 _ _ A En (or_introl B)). lia.
  - destruct (compare_and_subtract_ok cfg N v w HN Hw false d1 t1 Q r t St1 Li T1 Hr Hd2) as (go & d2 & -> & Tp2 & F & G).
    + intros _ H1 H2 H3. exfalso. apply (not_twice d1 t1 Q r St1 Li ltac:(lia) H1 H2 H3).
    + discriminate.
    + intros _. exact Tp.
    + cbn [bind]. destruct go.
      * destruct (G eq_refl) as (t2 & St2 & T2 & T3 & Hr2 & Hdd2). apply (IH d2 t2 _ _ St2 Hr2 Hdd2 Tp2). specialize (T3 C). lia.
      * exfalso. destruct (proj2 (F eq_refl)); lia.
  - destruct (compare_and_subtract_ok cfg N v w HN Hw false d1 t1 Q r t St1 Li T1 Hr Hd2) as (go & d2 & -> & Tp2 & F & G).
    + intros _ _ H. lia.
    + discriminate.
    + intros _. exact Tp.
    + cbn [bind]. destruct go.
      * destruct (G eq_refl) as (t2 & St2 & T2 & T3 & Hr2 & Hdd2). apply (IH d2 t2 _ _ St2 Hr2 Hdd2 Tp2).
        assert (t1 < t) by (destruct (Z_lt_le_dec t1 t); [assumption|]; replace t1 with t in C by lia; lia).
        assert (t2 = t1); [|lia]. destruct (Z.eq_dec t2 t1) as [|Ne]; [assumption|exfalso]. replace t2 with (t1 - 1) in Hr2 by lia.
        assert (w * 2 ^ t1 = w * 2 ^ (t1 - 1) * 2) by (rewrite <- Z.mul_assoc, <- (Z.pow_add_r 2 _ 1) by lia; f_equal; f_equal; lia). lia.
      * exfalso. destruct (proj2 (F eq_refl)) as [|Re1]; [lia|]. apply Nr. rewrite Re1. replace (2 ^ t1) with (2 ^ (t1 - 64) * 2 ^ 64) by (rewrite <- Z.pow_add_r by lia; f_equal; lia).
        rewrite (Z.mul_comm (2 ^ (t1 - 64))), Z.mul_assoc, Z.mul_comm. apply Z.mod_mul. lia.
Qed.

Lemma divide_before d t : state N v w d t 0 v -> lined_up d -> 0 < t ->
  exists r q, divide_aligned cfg N (S (64 * N)) d = Ok (r, q) /\ valid N r /\ valid N q /\
    exists X, v = val q * w + (val q mod W) / 2 + X /\ 0 <= X <= w /\ val r = X mod w /\ 2 ^ 63 <= val q mod W.
Proof.
  intros St Li T0. unfold divide_aligned.
  assert (Fin : forall d', ended N v w d' -> valid N (d_this d') /\ valid N (d_quotient d') /\
    exists X, v = val (d_quotient d') * w + (val (d_quotient d') mod W) / 2 + X /\ 0 <= X <= w /\ val (d_this d') = X mod w /\ 2 ^ 63 <= val (d_quotient d') mod W).
  { intros d' [E1 (Q & X & [Qw Qn] & (u & U1 & U2 & U3) & Q1 & Q2 & Q3 & Q4)]. split; [exact E1|]. destruct (d_quotient d') as [qe qp qb]. cbn [elements element_pos bit_pos] in *.
    assert (Hp : (qp < N)%nat).
    { pose proof (number_bounds qe N Qw) as Bn. rewrite Qn, Wp_eq in Bn. assert (u < 64 * Z.of_nat N) by (apply pow_lt_inv; lia). lia. }
    assert (Lq : Q < Wp (S qp)).
    { apply Z.lt_le_trans with (2 ^ (u + 1)); [lia|]. rewrite Wp_eq. apply Z.pow_le_mono_r; lia. }
    assert (Za : forall i, (S qp <= i < N)%nat -> qe i = 0) by (apply (number_small qe N); [exact Qw | lia | lia]).
    destruct (valid_make N qe qp qb Q) as [V E]; try lia; try assumption.
    - rewrite <- Qn. symmetry. apply number_zero; [lia|]. intros i Hi. apply Za. lia.
    - rewrite <- U1. replace (u + 1 - 1) with u by ring. lia.
    - rewrite E. split; [exact V|]. exists X. repeat (split; [first [assumption | lia]|]). exact Q1. }
  assert (El : Z.log2 v = Z.log2 w + t /\ t < 64 * Z.of_nat N /\ 0 < v).
  { destruct St as [S1 S2 S3 S4 S5 S6 S7 S8 S9 S10 S11]. destruct Li as [L1 L2]. destruct S8 as (Hp & Hws & Hn & Hbits & He).
    pose proof (Z.log2_nonneg w). destruct (bits_of N (d_this d) S5 ltac:(lia)) as [Bb Eb]. rewrite S6, <- L1, <- L2 in Eb. lia. }
  destruct El as (El & Tn & Pv).
  assert (T64 : 64 <= t).
  { destruct (rest_large 0 64 v ltac:(apply Z.divide_0_r) ltac:(lia) ltac:(lia) ltac:(ring)) as [L _]. lia. }
  destruct (rest_large 0 64 v ltac:(apply Z.divide_0_r) ltac:(lia) ltac:(lia) ltac:(ring)) as [_ Nr].
  destruct (Z_lt_le_dec v (w * 2 ^ t)) as [C|C]; [destruct (Z.eq_dec t 64) as [->|Ne]|].
  - destruct (crossing true d 0 v St Li ltac:(apply Z.divide_0_r) C ltac:(reflexivity) ltac:(discriminate)) as (d2 & -> & A & B & En). cbn [bind].
    destruct (loop_after cfg N v w HN Hw (S (64 * N)) d2 63 _ _ A En (or_introl B) ltac:(lia)) as (d3 & -> & E3). cbn [bind].
    do 2 eexists. split; [reflexivity|]. apply Fin. exact E3.
  - destruct (compare_and_subtract_ok cfg N v w HN Hw true d t 0 v (t + 1) St Li ltac:(lia)) as (go & d2 & -> & Tp2 & F & G).
    + apply Z.log2_lt_cancel. rewrite log2_shift by lia. lia.
    + apply Z.divide_0_r.
    + intros _ H1 H2 H3. exfalso. apply (not_twice d t 0 v St Li ltac:(lia) H1 H2 H3).
    + intros _. split; [lia | reflexivity].
    + discriminate.
    + cbn [bind]. destruct go; [|exfalso; destruct (proj2 (F eq_refl)); lia].
      destruct (G eq_refl) as (t2 & St2 & T2 & T3 & Hr2 & Hdd2). specialize (T3 C).
      destruct (loop_before (S (64 * N)) d2 t2 _ _ St2 Hr2 Hdd2 Tp2 ltac:(lia)) as (d3 & -> & E3). cbn [bind].
      do 2 eexists. split; [reflexivity|]. apply Fin. exact E3.
  - destruct (compare_and_subtract_ok cfg N v w HN Hw true d t 0 v (t + 1) St Li ltac:(lia)) as (go & d2 & -> & Tp2 & F & G).
    + apply Z.log2_lt_cancel. rewrite log2_shift by lia. lia.
    + apply Z.divide_0_r.
    + intros _ _ H. lia.
    + intros _. split; [lia | reflexivity].
    + discriminate.
    + cbn [bind]. destruct go.
      * destruct (G eq_refl) as (t2 & St2 & T2 & T3 & Hr2 & Hdd2).
        assert (t2 = t).
        { destruct (Z.eq_dec t2 t) as [|Ne]; [assumption|exfalso]. replace t2 with (t - 1) in Hr2 by lia.
          assert (w * 2 ^ t = w * 2 ^ (t - 1) * 2) by (rewrite <- Z.mul_assoc, <- (Z.pow_add_r 2 _ 1) by lia; f_equal; f_equal; lia). lia. }
        destruct (loop_before (S (64 * N)) d2 t2 _ _ St2 Hr2 Hdd2 Tp2 ltac:(lia)) as (d3 & -> & E3). cbn [bind].
        do 2 eexists. split; [reflexivity|]. apply Fin. exact E3.
      * exfalso. destruct (proj2 (F eq_refl)) as [|Re1]; [lia|]. apply Nr. rewrite Re1. replace (2 ^ t) with (2 ^ (t - 64) * 2 ^ 64) by (rewrite <- Z.pow_add_r by lia; f_equal; lia).
        rewrite (Z.mul_comm (2 ^ (t - 64))), Z.mul_assoc, Z.mul_comm. apply Z.mod_mul. lia.
Qed.
End Before.
