(** * The rows of verify_cache_length *)

From Coq Require Import ZArith Znumtheory List Bool Lia.
From Verif Require Import Machine Model Arith BigintModel BigSpec BigFacts Bigint BigintOps BigClaims DivModel Division EuclidModel EuclidSpec EuclidNum LengthModel LengthCerts LengthNum LengthCheck LengthSpec.
Import ListNotations.
Open Scope Z_scope.

(** ** Helpers *)
Lemma log2_quotient_ok b d : 0 < d <= b -> log2_quotient b (Z.log2 b) d = Z.log2 (b / d).
Proof.
  intros D. unfold log2_quotient. set (n := Z.log2 b - Z.log2 d). pose proof (Z.log2_le_mono d b ltac:(lia)) as L. assert (Hn : 0 <= n) by lia.
  pose proof (Z.log2_spec b ltac:(lia)) as [B1 B2]. pose proof (Z.log2_spec d ltac:(lia)) as [D1 D2].
  assert (Eb : 2 ^ Z.log2 b = 2 ^ Z.log2 d * 2 ^ n) by (rewrite <- Z.pow_add_r; [f_equal; lia | apply Z.log2_nonneg | lia]).
  rewrite Z.pow_succ_r in B2, D2 by apply Z.log2_nonneg. rewrite Z.shiftl_mul_pow2 by exact Hn. assert (P : 0 < 2 ^ n) by (apply Z.pow_pos_nonneg; lia).
  symmetry. destruct (Z.leb_spec (d * 2 ^ n) b) as [C|C].
  - apply Z.log2_unique; [exact Hn|]. split; [apply Z.div_le_lower_bound; lia|]. rewrite Z.pow_succ_r by exact Hn. apply Z.div_lt_upper_bound; [lia|]. nia.
  - assert (n <> 0) by (intros ->; lia). apply Z.log2_unique; [lia|]. replace (Z.succ (n - 1)) with n by lia. split; [|apply Z.div_lt_upper_bound; lia].
    apply Z.div_le_lower_bound; [lia|]. assert (E : 2 ^ n = 2 * 2 ^ (n - 1)) by (rewrite <- Z.pow_succ_r by lia; f_equal; lia). rewrite E in Eb, C. nia.
Qed.
Lemma wrap_word v : word v = true -> wrap 64 v = v.
Proof. unfold word. intros H. apply andb_prop in H. destruct H as [H1 H2]. apply Z.leb_le in H1. apply Z.ltb_lt in H2. apply Z.mod_small. lia. Qed.
Lemma wrap_in v : 0 <= v < 2 ^ 64 -> wrap 64 v = v.
Proof. apply Z.mod_small. Qed.
Lemma max_if a b : (if a <? b then b else a) = Z.max a b.
Proof. destruct (Z.ltb_spec a b); lia. Qed.
Lemma leading_position_ok M b : 64 * Z.of_nat M < 2 ^ 64 -> valid M b -> 0 < val b -> leading_position b = Z.log2 (val b) + 1.
Proof.
  intros HM V P. destruct (bits_of M b V P) as [B E]. pose proof (v_pos _ _ V) as Pp. unfold leading_position, element_number_of_bits.
  rewrite wrap_in by lia. lia.
Qed.
Lemma leading_bit_ok M b : 64 * Z.of_nat M < 2 ^ 64 -> valid M b -> leading_bit b = if 0 <? val b then Some (Z.log2 (val b)) else None.
Proof.
  intros HM V. pose proof (v_pos _ _ V) as Pp. unfold leading_bit, element_number_of_bits. destruct (Z.ltb_spec 0 (val b)) as [P|P].
  - destruct (bits_of M b V P) as [B E]. destruct (Z.eqb_spec (bit_pos b) 0); [lia|]. cbn [negb]. rewrite wrap_in by lia. f_equal. lia.
  - assert (Z0 : val b = 0) by (pose proof (val_bounds M b V); lia). rewrite <- (val_number M b V) in Z0.
    rewrite (v_bits _ _ V), (number_pos_nonzero _ _ (v_words _ _ V) Z0 _ Pp). reflexivity.
Qed.
Lemma negative_size_ok f : negative_size f < 2 ^ 64.
Proof. destruct f; vm_compute; reflexivity. Qed.
Lemma positive_size_ok f : positive_size f < 2 ^ 64.
Proof. destruct f; vm_compute; reflexivity. Qed.
Lemma coprime_powers x j : 0 <= x -> 0 <= j -> rel_prime (2 ^ x) (5 ^ j).
Proof. intros X J. apply rel_prime_sym, Zpow_facts.rel_prime_Zpower_r; [exact X|]. apply rel_prime_sym, Zpow_facts.rel_prime_Zpower_r; [exact J|]. apply Zgcd_1_rel_prime. reflexivity. Qed.
Lemma range_pow f : range f = 2 ^ (precision f + 2).
Proof. destruct f; reflexivity. Qed.
Lemma half_range_pow f : range f / 2 = 2 ^ (precision f + 1).
Proof. destruct f; reflexivity. Qed.
Lemma range_in f : 4 <= range f < 2 ^ 64.
Proof. destruct f; vm_compute; split; congruence. Qed.

(** ** Negative k: quotients computed with the rounded reciprocal *)
Lemma quotient_kept A b d s c : 0 < b -> 0 < A -> 0 <= s -> A mod b <= b - d -> A * b <= 2 ^ s * d -> 2 ^ s <= c * b < 2 ^ s + b -> A * c / 2 ^ s = A / b.
Proof.
  intros B A0 S G L C. assert (P : 0 < 2 ^ s) by (apply Z.pow_pos_nonneg; lia).
  pose proof (Z.div_mod A b ltac:(lia)) as E. pose proof (Z.mod_pos_bound A b B) as R. set (Q := A / b) in *. set (r := A mod b) in *.
  symmetry. apply (Z.div_unique_pos _ _ _ (A * c - 2 ^ s * Q)); [|ring].
  assert (F1 : 2 ^ s * (b * Q) <= A * c * b) by nia.
  assert (F2 : A * c * b < 2 ^ s * (b * (Q + 1))).
  { assert (A * (c * b - 2 ^ s) < 2 ^ s * (b - r)).
    { apply Z.lt_le_trans with (A * b); [apply Z.mul_lt_mono_pos_l; lia|]. apply Z.le_trans with (2 ^ s * d); [exact L|]. apply Z.mul_le_mono_nonneg_l; lia. }
    nia. }
  split; nia.
Qed.
Lemma quotients_kept N x b d s c : 0 < b -> 0 <= x -> 0 <= s -> (forall n, 1 <= n <= N -> n * 2 ^ x mod b <= b - d) -> N * 2 ^ x * b <= 2 ^ s * d -> 2 ^ s <= c * b < 2 ^ s + b ->
  same_quotients N x b s c.
Proof.
  intros B X S G L C n Hn. assert (Px : 0 < 2 ^ x) by (apply Z.pow_pos_nonneg; lia).
  destruct (Z.eq_dec n 0) as [->|N0]; [rewrite !Z.mul_0_l, !Z.div_0_l by (try apply Z.pow_nonzero; lia); reflexivity|].
  apply (quotient_kept _ _ d); try assumption; [nia | apply G; lia|]. apply Z.le_trans with (N * 2 ^ x * b); [|exact L]. apply Z.mul_le_mono_nonneg_r; [lia|]. nia.
Qed.
Lemma reciprocal_bits n x b d s : 0 <= n -> 0 <= x -> 0 < d <= b -> n + x + (Z.log2 (b / d) + 1) <= s -> 2 ^ n * 2 ^ x * b <= 2 ^ s * d.
Proof.
  intros Hn Hx D L. assert (Q : 0 < b / d) by (apply Z.div_str_pos; lia). pose proof (Z.log2_nonneg (b / d)) as Ql. pose proof (Z.log2_spec _ Q) as [_ U].
  replace (Z.succ (Z.log2 (b / d))) with (Z.log2 (b / d) + 1) in U by lia. set (l := Z.log2 (b / d) + 1) in *.
  assert (B : b <= 2 ^ l * d). { pose proof (Z.div_mod b d ltac:(lia)) as E. pose proof (Z.mod_pos_bound b d ltac:(lia)). nia. }
  replace s with (n + x + l + (s - (n + x + l))) by ring. rewrite !Z.pow_add_r by lia. set (P := 2 ^ (s - (n + x + l))). assert (1 <= P) by (apply (Z.pow_le_mono_r 2 0); lia).
  assert (0 < 2 ^ n * 2 ^ x) by (apply Z.mul_pos_pos; apply Z.pow_pos_nonneg; lia). assert (0 < 2 ^ l) by (apply Z.pow_pos_nonneg; lia).
  apply Z.le_trans with (2 ^ n * 2 ^ x * (2 ^ l * d)); [apply Z.mul_le_mono_nonneg_l; lia|]. replace (2 ^ n * 2 ^ x * 2 ^ l * P * d) with (2 ^ n * 2 ^ x * (2 ^ l * d) * P) by ring. nia.
Qed.

Lemma quotient_position_ok cfg f j p5 X d : valid (array_size_of (negative_k_max_bits f)) p5 -> valid (array_size_of (negative_k_max_bits f)) X ->
  0 < d <= val p5 -> val X = val p5 - d -> Z.log2 (val p5) - Z.log2 d < 64 -> quotient_position cfg f j p5 X = Ok (Z.log2 (val p5 / d) + 1).
Proof.
  intros V5 VX D EX L. pose proof (negative_size_ok f) as HM. unfold negative_size in HM. unfold quotient_position.
  destruct (sub_assign_valid cfg _ p5 X V5 VX ltac:(lia)) as (y & -> & Vy & Ey). cbn [bind]. rewrite EX in Ey. replace (val p5 - (val p5 - d)) with d in Ey by ring.
  destruct (long_division_valid cfg _ (j 0%nat) (j 1%nat) p5 y HM V5 Vy ltac:(lia) ltac:(rewrite Ey; lia)) as (r & q & -> & _ & _ & Vq & Eq). cbn [bind snd].
  rewrite Ey in Eq. rewrite (leading_position_ok _ q HM Vq), Eq; [reflexivity|]. rewrite Eq. apply Z.div_str_pos. lia.
Qed.

Lemma log2_pow10_ok cfg k : -616 <= k <= 616 -> floor_log2_pow10 cfg k = Ok (c_floor_log2_pow10 k).
Proof.
  intros K. unfold floor_log2_pow10. rewrite cassert_ok by (apply andb_true_intro; split; apply Z.leb_le; lia). cbn [bind]. unfold i32.
  replace ((- 2 ^ 31 <=? k * 3483294) && (k * 3483294 <? 2 ^ 31)) with true; [reflexivity|]. symmetry. apply andb_true_intro. split; [apply Z.leb_le | apply Z.ltb_lt]; lia.
Qed.
Lemma log10_pow2_ok cfg e : -1650 <= e <= 1650 -> floor_log10_pow2 cfg e = Ok (c_floor_log10_pow2 e).
Proof.
  intros K. unfold floor_log10_pow2. rewrite cassert_ok by (apply andb_true_intro; split; apply Z.leb_le; lia). cbn [bind]. unfold i32.
  replace ((- 2 ^ 31 <=? e * 315652) && (e * 315652 <? 2 ^ 31)) with true; [reflexivity|]. symmetry. apply andb_true_intro. split; [apply Z.leb_le | apply Z.ltb_lt]; lia.
Qed.

Lemma negative_row_ok cfg f junk e k p5 c bits : valid (array_size_of (negative_k_max_bits f)) p5 -> k <= 0 -> val p5 = 5 ^ (- k) ->
  negative_row f (negative_size f) e k (val p5) c = Some bits ->
  negative_k_row cfg f junk e k p5 = Ok bits /\ 0 <= bits /\ forall bits', bits + 1 <= bits' -> enough_down f e k bits'.
Proof.
  intros V K0 E5 H. destruct c as [[c1 c2] t3]. unfold negative_row in H. cbv zeta in H.
  set (p := precision f) in *. set (q := extended_precision f) in *. set (x := q_mp_m2 f + e + k) in *. set (l := c_floor_log2_pow10 k) in *. set (b := val p5) in *. set (lb := Z.log2 b) in *.
  destruct (_ && _ && _ && _ && _ && _ && _) eqn:G in H; cbn [negb] in H; [|discriminate].
  rewrite !andb_true_iff in G. destruct G as [[[[[[G1 G2] G3] G4] G5] G6] G7]. apply Z.leb_le in G1, G2, G4. apply Z.eqb_eq in G3. apply Z.ltb_lt in G5, G6, G7.
  destruct (extremes (2 ^ x) b (range f) _ c1) as [[m1 d1]|] eqn:X1; [|discriminate].
  destruct (extremes (2 ^ (x + 2)) b (range f / 2) _ c2) as [[m2 d2]|] eqn:X2; [|discriminate].
  set (r := Z.shiftl (range f - 1) (x - 1) - t3 * b) in *.
  destruct (_ && _ && _ && _ && _ && _ && _) eqn:G' in H; cbn [negb] in H; [|discriminate].
  rewrite !andb_true_iff in G'. destruct G' as [[[[[[J1 J2] J3] J4] J5] J6] J7]. apply Z.ltb_lt in J1, J2, J3, J4, J6, J7. apply Z.leb_le in J5.
  destruct (word _ && word _ && word _) eqn:G'' in H; [|discriminate]. injection H as <-.
  rewrite !andb_true_iff in G''. destruct G'' as [[W1 W2] W3].
  pose proof (negative_size_ok f) as HM. unfold negative_size in HM, G5. set (M := array_size_of (negative_k_max_bits f)) in *.
  assert (P0 : 0 <= p) by (unfold p; destruct f; cbn; lia).
  assert (B : 0 < b) by (rewrite E5; apply Z.pow_pos_nonneg; lia). assert (Px : 0 < 2 ^ x) by (apply Z.pow_pos_nonneg; lia). assert (Px2 : 0 < 2 ^ (x + 2)) by (apply Z.pow_pos_nonneg; lia).
  pose proof (range_in f) as Rg. pose proof (range_pow f) as Rp. pose proof (half_range_pow f) as Rh. fold p in Rp, Rh.
  assert (Rh' : 1 <= range f / 2 < 2 ^ 64) by (split; [apply Z.div_le_lower_bound | apply Z.div_lt_upper_bound]; lia).
  apply extremes_ok in X1; [destruct X1 as (L1 & M1 & U1) | lia | exact Px | exact B | rewrite E5; apply coprime_powers; lia | rewrite Z.log2_pow2 by lia; fold lb; lia | intros; rewrite !Z.shiftl_mul_pow2 by lia; reflexivity].
  apply extremes_ok in X2; [destruct X2 as (L2 & M2 & U2) | lia | exact Px2 | exact B | rewrite E5; apply coprime_powers; lia | rewrite Z.log2_pow2 by lia; fold lb; lia | intros; rewrite !Z.shiftl_mul_pow2 by lia; reflexivity].
  assert (D1 : 0 < d1 <= b).
  { split; [exact J1|]. destruct M1 as [(n & _ & Hn) _]. pose proof (residue_bounds (2 ^ x) b n B). lia. }
  assert (D2 : 0 < d2 <= b).
  { split; [exact J3|]. destruct M2 as [(n & _ & Hn) _]. pose proof (residue_bounds (2 ^ (x + 2)) b n B). lia. }
  assert (Er : r = (range f - 1) * 2 ^ (x - 1) mod b) by (apply (Z.mod_unique_pos _ _ t3); [lia|]; unfold r; rewrite Z.shiftl_mul_pow2 by lia; ring).
  assert (Q1' : log2_quotient b lb d1 = Z.log2 (b / d1)) by (apply log2_quotient_ok; lia). assert (Q2' : log2_quotient b lb d2 = Z.log2 (b / d2)) by (apply log2_quotient_ok; lia).
  assert (Q3' : log2_quotient b lb (b - r) = Z.log2 (b / (b - r))) by (apply log2_quotient_ok; lia). rewrite Q1', Q2', Q3' in *.
  set (q1 := Z.log2 (b / d1)) in *. set (q2 := Z.log2 (b / d2)) in *. set (q3 := Z.log2 (b / (b - r))) in *.
  assert (Hq : q_mp_m2 f = q - p - 2) by reflexivity.
  split; [|split].
  - unfold negative_k_row. fold M. fold x.
    rewrite (wrap_in x) by lia. destruct (power_of_2_valid cfg M (junk e 0%nat 0%nat 0%nat) x ltac:(lia)) as (a & -> & Va & Ea). cbn [bind].
    destruct (U1 cfg M (junk e 1%nat) a p5 HM Va V Ea eq_refl) as (e1 & -> & _ & _ & V1 & E1). cbn [bind].
    rewrite (quotient_position_ok cfg f (junk e 2%nat 0%nat) p5 (e_max e1) d1 V V1 D1 E1 J2). cbn [bind]. rewrite log2_pow10_ok by lia. cbn [bind].
    rewrite (wrap_in (x + 2)) by lia. destruct (power_of_2_valid cfg M (junk e 3%nat 0%nat 0%nat) (x + 2) ltac:(lia)) as (a2 & -> & Va2 & Ea2). cbn [bind].
    destruct (U2 cfg M (junk e 4%nat) a2 p5 HM Va2 V Ea2 eq_refl) as (e2 & -> & _ & _ & V2 & E2). cbn [bind].
    rewrite (quotient_position_ok cfg f (junk e 5%nat 0%nat) p5 (e_max e2) d2 V V2 D2 E2 J4). cbn [bind].
    rewrite (wrap_in (x - 1)) by lia. destruct (power_of_2_valid cfg M (junk e 6%nat 0%nat 0%nat) (x - 1) ltac:(lia)) as (a3 & -> & Va3 & Ea3). cbn [bind].
    assert (Ed : 2 ^ (x - 1) * (range f - 1) < 2 ^ (x + p + 1)) by (replace (x + p + 1) with (x - 1 + (p + 2)) by ring; rewrite Rp, (Z.pow_add_r 2 (x - 1)) by lia; apply Z.mul_lt_mono_pos_l; [apply Z.pow_pos_nonneg; lia | lia]).
    assert (Px1 : 0 < 2 ^ (x - 1)) by (apply Z.pow_pos_nonneg; lia).
    destruct (mul_assign_element_valid cfg M a3 (range f - 1) Va3 ltac:(lia) ltac:(left; lia)) as (a4 & -> & Va4 & Ea4).
    { rewrite Ea3. rewrite Wp_eq. eapply Z.lt_trans; [exact Ed|]. apply Z.pow_lt_mono_r; lia. }
    cbn [bind]. rewrite Ea3 in Ea4.
    destruct (long_division_valid cfg M (junk e 7%nat 0%nat 0%nat) (junk e 7%nat 0%nat 1%nat) a4 p5 HM Va4 V B) as (rr & qq & -> & Vr & Err & _).
    { rewrite Ea4. fold b lb. assert (Z.log2 (2 ^ (x - 1) * (range f - 1)) < x + p + 1) by (apply Z.log2_lt_pow2; nia). lia. }
    cbn [bind fst]. rewrite Ea4, (Z.mul_comm (2 ^ (x - 1))) in Err. fold b in Err. rewrite <- Er in Err.
    rewrite (quotient_position_ok cfg f (junk e 8%nat 0%nat) p5 rr (b - r) V Vr ltac:(lia) ltac:(fold b; lia) J7). cbn [bind].
    fold q l b q1 q2 q3. rewrite !wrap_word by assumption. rewrite !max_if. reflexivity.
  - unfold word in W1. apply andb_prop in W1. destruct W1 as [W1 _]. apply Z.leb_le in W1. lia.
  - intros bits' Hb. unfold enough_down. replace (fraction_bits f) with p by (destruct f; reflexivity). replace (width f) with q by (destruct f; reflexivity).
    replace (q - p - 2 + e + k) with x by (unfold x; lia). rewrite <- E5. cbv zeta. fold lb. set (s := bits' + lb). assert (Es : s = bits' + lb) by reflexivity. clearbody s. set (c := reciprocal b s).
    assert (Ec : 2 ^ s <= c * b < 2 ^ s + b).
    { unfold c, reciprocal. pose proof (Z.div_mod (2 ^ s + b - 1) b ltac:(lia)). pose proof (Z.mod_pos_bound (2 ^ s + b - 1) b B). lia. }
    clearbody c.
    assert (Q1 : 0 <= q1) by apply Z.log2_nonneg. assert (Q2 : 0 <= q2) by apply Z.log2_nonneg. assert (Q3 : 0 <= q3) by apply Z.log2_nonneg.
    assert (S0 : 0 <= s) by lia.
    split; [|split].
    + apply (quotients_kept _ _ _ d1); try lia; [|apply reciprocal_bits; lia]. intros n Hn. rewrite <- Rp in Hn. pose proof (proj2 M1 n Hn) as Y. unfold residue in Y. rewrite Z.mul_comm in Y. exact Y.
    + apply (quotients_kept _ _ _ d2); try lia; [|apply reciprocal_bits; lia]. intros n Hn. rewrite <- Rh in Hn. pose proof (proj2 M2 n Hn) as Y. unfold residue in Y. rewrite Z.mul_comm in Y. exact Y.
    + assert (0 < 2 ^ (x - 1)) by (apply Z.pow_pos_nonneg; lia). rewrite <- Rp. apply (quotient_kept _ _ (b - r)); try lia; [apply Z.mul_pos_pos; lia|].
      apply Z.le_trans with (2 ^ (p + 2) * 2 ^ (x - 1) * b); [|apply reciprocal_bits; lia]. rewrite <- Rp. apply Z.mul_le_mono_nonneg_r; [lia|]. apply Z.mul_le_mono_nonneg_r; lia.
Qed.

Definition chosen (e : Z) : Z := - c_floor_log10_pow2 (e + 6).
Lemma alpha_6 f e : e + 1 - alpha f = e + 6.
Proof. destruct f; cbn [alpha]; lia. Qed.
Lemma chosen_at f e : - c_floor_log10_pow2 (e + 1 - alpha f) = chosen e.
Proof. rewrite alpha_6. reflexivity. Qed.

Lemma negative_rows_ok cfg f junk : forall cs fuel e prev_k p5 most r, (length cs < fuel)%nat -> valid (array_size_of (negative_k_max_bits f)) p5 -> prev_k <= 0 -> val p5 = 5 ^ (- prev_k) ->
  negative_rows f (negative_size f) e prev_k (val p5) most cs = Some r ->
  negative_k_loop cfg f junk fuel e prev_k p5 most = Ok r /\
  (forall e' bits, In (e', bits) (fst r) -> e <= e' <= max_exponent f /\ chosen e' <= prev_k /\ forall bits', bits + 1 <= bits' -> enough_down f e' (chosen e') bits') /\
  (forall e', e <= e' <= max_exponent f -> exists bits, In (e', bits) (fst r) /\ bits <= snd r) /\ most <= snd r.
Proof.
  induction cs as [|c cs IH]; intros fuel e prev_k p5 most r F V K E H; (destruct fuel as [|fuel]; [cbn [length] in F; lia|]); cbn [negative_rows] in H; cbn [negative_k_loop].
  { destruct (Z.leb_spec e (max_exponent f)) as [L|L]; [discriminate|]. injection H as <-. cbn [fst snd In]. split; [reflexivity|]. split; [intros ? ? []|]. split; [intros; lia | lia]. }
  destruct ((_ <=? _) && _ && _) eqn:G in H; cbn [negb] in H; [|discriminate]. rewrite !andb_true_iff in G. destruct G as [[G1 G2] G3]. rewrite G1. apply Z.leb_le in G1, G2, G3.
  rewrite log10_pow2_ok by lia. cbn [bind]. rewrite chosen_at in H |- *. cbv zeta in H.
  set (k := chosen e) in *. set (M := array_size_of (negative_k_max_bits f)) in *.
  assert (S : exists p5', (if negb (k =? prev_k) then cassert cfg (k =? prev_k - 1) ;;; multiply_5 cfg M (junk e 9%nat 0%nat 0%nat) p5 else Ok p5) = Ok p5' /\ valid M p5' /\ k <= prev_k /\ val p5' = 5 ^ (- k) /\
    (if k =? prev_k then Some (val p5) else if (k =? prev_k - 1) && (Z.log2 (val p5) + 3 <? negative_size f) then Some (5 * val p5) else None) = Some (val p5')).
  { destruct (Z.eqb_spec k prev_k) as [E0|N0]; cbn [negb].
    - exists p5. repeat apply conj; try assumption; try reflexivity; [lia | rewrite E0; exact E].
    - destruct (Z.eqb_spec k (prev_k - 1)) as [Ek|N1]; [|discriminate]. rewrite cassert_ok by reflexivity. cbn [bind andb] in *.
      destruct (Z.ltb_spec (Z.log2 (val p5) + 3) (negative_size f)) as [L|L]; [|discriminate].
      assert (P5 : 0 < val p5) by (rewrite E; apply Z.pow_pos_nonneg; lia).
      assert (Fi : 5 * val p5 < Wp M).
      { rewrite Wp_eq. change (64 * Z.of_nat M) with (negative_size f). pose proof (Z.log2_spec _ P5) as [_ U]. pose proof (Z.log2_nonneg (val p5)).
        apply Z.lt_le_trans with (2 ^ (Z.log2 (val p5) + 4)); [|apply Z.pow_le_mono_r; lia]. replace (Z.log2 (val p5) + 4) with (Z.succ (Z.log2 (val p5)) + 3) by ring. rewrite Z.pow_add_r by lia. lia. }
      destruct (multiply_5_valid cfg M (junk e 9%nat 0%nat 0%nat) p5 V P5 Fi) as (p5' & E5 & V5 & Ev).
      exists p5'. repeat apply conj; [exact E5 | exact V5 | lia | | f_equal; symmetry; exact Ev]. rewrite Ev, E, Ek. replace (- (prev_k - 1)) with (Z.succ (- prev_k)) by ring. rewrite Z.pow_succ_r by lia. reflexivity. }
  destruct S as (p5' & -> & V' & Kk & E' & S). rewrite S in H. cbn [bind].
  destruct (negative_row f (negative_size f) e k (val p5') c) as [bits|] eqn:R; [|discriminate].
  destruct (negative_row_ok cfg f junk e k p5' c bits V' ltac:(lia) E' R) as (-> & B0 & En). cbn [bind].
  destruct (negative_rows f _ (e + 1) k (val p5') (Z.max most bits) cs) as [r'|] eqn:T; [|discriminate]. injection H as <-.
  rewrite max_if. cbn [length] in F. destruct (IH fuel (e + 1) k p5' (Z.max most bits) r' ltac:(lia) V' ltac:(lia) E' T) as (-> & A1 & A2 & A3). cbn [bind fst snd]. split; [reflexivity|].
  split; [|split].
  - intros e' bits' [I|I].
    + injection I as <- <-. split; [lia|]. split; [exact Kk | exact En].
    + destruct (A1 e' bits' I) as (X1 & X2 & X3). split; [lia|]. split; [lia | exact X3].
  - intros e' He. destruct (Z.eq_dec e' e) as [->|Ne]; [exists bits; split; [left; reflexivity | lia]|].
    destruct (A2 e' ltac:(lia)) as (b' & I & L). exists b'. split; [right; exact I | exact L].
  - lia.
Qed.

(** ** Positive k *)
Lemma unchanged_ok N x a m d c : 0 <= d -> a = c + d -> (0 < x -> forall n, 1 <= n <= N -> m <= n * a mod 2 ^ x) -> unchanged d x N m = true -> same_parts N x a c.
Proof.
  intros D E L U n Hn. unfold unchanged in U. destruct (Z.ltb_spec 0 x) as [X|X].
  - apply Z.leb_le in U. destruct (Z.eq_dec n 0) as [->|N0]; [reflexivity|]. specialize (L X n ltac:(lia)). rewrite !Z.shiftr_div_pow2 by lia.
    assert (P : 0 < 2 ^ x) by (apply Z.pow_pos_nonneg; lia). pose proof (Z.div_mod (n * a) (2 ^ x) ltac:(lia)) as Ed. pose proof (Z.mod_pos_bound (n * a) (2 ^ x) P).
    symmetry. apply (Z.div_unique_pos _ _ _ (n * a mod 2 ^ x - n * d)); [split; nia|]. nia.
  - apply Z.eqb_eq in U. subst. f_equal. ring.
Qed.
Lemma kept_spec bits a : bits <= Z.log2 a -> 0 <= a -> kept bits a = a - a mod 2 ^ (Z.log2 a + 1 - bits).
Proof.
  intros B A. unfold kept. cbv zeta. rewrite Z.shiftl_mul_pow2, Z.shiftr_div_pow2 by lia. pose proof (Z.div_mod a (2 ^ (Z.log2 a + 1 - bits)) ltac:(apply Z.pow_nonzero; lia)). lia.
Qed.
(** more bits are enough as well *)
Lemma shiftr_mono a b x : a <= b -> Z.shiftr a x <= Z.shiftr b x.
Proof.
  intros L. destruct (Z_le_gt_dec 0 x) as [X|X]; [rewrite !Z.shiftr_div_pow2 by exact X; apply Z.div_le_mono; [apply Z.pow_pos_nonneg; lia | exact L]|].
  replace x with (- (- x)) by lia. rewrite !Z.shiftr_opp_r, !Z.shiftl_mul_pow2 by lia. apply Z.mul_le_mono_nonneg_r; [apply Z.pow_nonneg; lia | exact L].
Qed.
Definition truncated (bits a : Z) : Z := if bits <=? Z.log2 a then kept bits a else a.
Lemma truncated_mono bits bits' a : 0 <= a -> bits <= bits' -> truncated bits a <= truncated bits' a <= a.
Proof.
  intros A L. unfold truncated. destruct (Z.leb_spec bits (Z.log2 a)) as [B|B], (Z.leb_spec bits' (Z.log2 a)) as [B'|B']; try lia; rewrite ?kept_spec by assumption.
  - pose proof (Z.mod_pos_bound a (2 ^ (Z.log2 a + 1 - bits')) ltac:(apply Z.pow_pos_nonneg; lia)) as R. split; [|lia].
    set (g := Z.log2 a + 1 - bits') in *. replace (Z.log2 a + 1 - bits) with (g + (bits' - bits)) by (unfold g; ring). rewrite Z.pow_add_r by lia.
    rewrite Z.rem_mul_r by (try apply Z.pow_pos_nonneg; try apply Z.pow_nonzero; lia).
    assert (0 <= (a / 2 ^ g) mod 2 ^ (bits' - bits)) by (apply Z.mod_pos_bound, Z.pow_pos_nonneg; lia). assert (0 < 2 ^ g) by (apply Z.pow_pos_nonneg; lia). nia.
  - pose proof (Z.mod_pos_bound a (2 ^ (Z.log2 a + 1 - bits)) ltac:(apply Z.pow_pos_nonneg; lia)). lia.
Qed.
Lemma enough_up_mono f e k bits bits' : 0 <= k -> bits <= bits' -> enough_up f e k bits -> enough_up f e k bits'.
Proof.
  intros K L. unfold enough_up. cbv zeta. fold (truncated bits (5 ^ k)). fold (truncated bits' (5 ^ k)).
  pose proof (truncated_mono bits bits' (5 ^ k) ltac:(apply Z.pow_nonneg; lia) L) as T.
  assert (S : forall n x, 0 <= n -> Z.shiftr (n * truncated bits (5 ^ k)) x = Z.shiftr (n * 5 ^ k) x -> Z.shiftr (n * truncated bits' (5 ^ k)) x = Z.shiftr (n * 5 ^ k) x).
  { intros n x Hn E. pose proof (shiftr_mono (n * truncated bits (5 ^ k)) (n * truncated bits' (5 ^ k)) x ltac:(apply Z.mul_le_mono_nonneg_l; lia)).
    pose proof (shiftr_mono (n * truncated bits' (5 ^ k)) (n * 5 ^ k) x ltac:(apply Z.mul_le_mono_nonneg_l; lia)). lia. }
  intros (A1 & A2 & A3). split; [|split].
  - intros n Hn. apply S; [lia | apply A1; exact Hn].
  - intros n Hn. apply S; [lia | apply A2; exact Hn].
  - apply S; [destruct f; cbn; lia | exact A3].
Qed.

Lemma least_part_ok f k p5 x N c m : valid (array_size_of (positive_k_max_bits f)) p5 -> 0 <= k -> val p5 = 5 ^ k -> 1 <= N < 2 ^ 64 ->
  least_part (val p5) (positive_size f) x N c = Some m ->
  (0 < x -> forall n, 1 <= n <= N -> m <= n * val p5 mod 2 ^ x) /\ 0 <= m /\ (x <= 0 -> m = 0) /\
  (0 < x -> forall cfg j0 j1, exists e, (b <- power_of_2 cfg (array_size_of (positive_k_max_bits f)) j0 x ;; minmax_euclid cfg (array_size_of (positive_k_max_bits f)) j1 N p5 b) = Ok e /\
     leading_bit (e_min e) = if 0 <? m then Some (Z.log2 m) else None).
Proof.
  intros V K E HN H. pose proof (positive_size_ok f) as HM. unfold least_part in H. unfold positive_size in *. set (M := array_size_of (positive_k_max_bits f)) in *.
  destruct (Z.ltb_spec 0 x) as [X|X].
  2:{ injection H as <-. repeat apply conj; try lia; try (intros; lia). }
  destruct (_ && _) eqn:G in H; [|discriminate]. apply andb_prop in G. destruct G as [G1 G2]. apply Z.ltb_lt in G1, G2.
  assert (P5 : 0 < val p5) by (rewrite E; apply Z.pow_pos_nonneg; lia). assert (Px : 0 < 2 ^ x) by (apply Z.pow_pos_nonneg; lia).
  destruct (extremes _ _ _ _ c) as [[m' d]|] eqn:X1 in H; [|discriminate]. injection H as ->.
  apply extremes_ok in X1; [destruct X1 as (L & _ & U) | exact HN | exact P5 | exact Px | rewrite E; apply rel_prime_sym, coprime_powers; lia | rewrite Z.log2_pow2 by lia; exact G2 | intros; rewrite !Z.shiftl_mul_pow2 by lia; reflexivity].
  assert (M0 : 0 <= m) by (destruct L as [(n & _ & <-) _]; apply residue_bounds; exact Px).
  split; [|split; [exact M0|split; [lia|]]].
  - intros _ n Hn. pose proof (proj2 L n Hn) as Y. unfold residue in Y. rewrite Z.mul_comm in Y. exact Y.
  - intros _ cfg j0 j1. destruct (power_of_2_valid cfg M j0 x ltac:(lia)) as (b & -> & Vb & Eb). cbn [bind].
    destruct (U cfg M j1 p5 b HM V Vb eq_refl Eb) as (e & -> & Ve & Ee & _). exists e. split; [reflexivity|]. rewrite (leading_bit_ok M _ HM Ve), Ee. reflexivity.
Qed.

Lemma positive_row_ok cfg f junk e k p5 c bits ok : valid (array_size_of (positive_k_max_bits f)) p5 -> 0 <= k -> val p5 = 5 ^ k ->
  positive_row f (positive_size f) e k (val p5) c = Some (bits, ok) ->
  positive_k_row cfg f junk e k p5 = Ok bits /\ 0 <= bits /\ (ok = true -> enough_up f e k bits).
Proof.
  intros V K E5 H. unfold positive_row in H. cbv zeta in H.
  set (p := precision f) in *. set (x := - e - k - q_mp_m2 f) in *. set (l := c_floor_log2_pow10 k) in *. set (a := val p5) in *. set (la := Z.log2 a) in *. set (base := l - k + 1) in *.
  destruct (_ && _ && _ && _ && _ && _ && _) eqn:G in H; cbn [negb] in H; [|discriminate].
  rewrite !andb_true_iff in G. destruct G as [[[[[[G1 G2] G3] G4] G5] G6] G7]. apply Z.leb_le in G1, G2. apply Z.eqb_eq in G3. apply Z.ltb_lt in G5, G6, G7.
  destruct (least_part a (positive_size f) x (range f) (fst c)) as [m1|] eqn:X1; [|discriminate].
  destruct (least_part a (positive_size f) (x - 2) (range f / 2) (snd c)) as [m2|] eqn:X2; [|discriminate].
  pose proof (range_in f) as Rg. pose proof (range_pow f) as Rp. pose proof (half_range_pow f) as Rh. fold p in Rp, Rh.
  assert (Rh' : 1 <= range f / 2 < 2 ^ 64) by (split; [apply Z.div_le_lower_bound | apply Z.div_lt_upper_bound]; lia).
  assert (P0 : 0 <= p) by (unfold p; destruct f; cbn; lia). assert (A : 0 < a) by (rewrite E5; apply Z.pow_pos_nonneg; lia).
  destruct (least_part_ok f k p5 x (range f) (fst c) m1 V K E5 ltac:(lia) X1) as (L1 & N1 & Z1 & U1).
  destruct (least_part_ok f k p5 (x - 2) (range f / 2) (snd c) m2 V K E5 Rh' X2) as (L2 & N2 & Z2 & U2). clear X1 X2.
  set (m3 := if 0 <? x + 1 then _ else 0) in *.
  assert (M3 : m3 = if 0 <? x + 1 then (range f - 1) * a mod 2 ^ (x + 1) else 0).
  { unfold m3. destruct (Z.ltb_spec 0 (x + 1)) as [X|X]; [|reflexivity]. rewrite Z.land_ones, Z.shiftl_mul_pow2, Rp by lia. f_equal. ring. }
  clearbody m3. set (s1 := saving m1 (p + 2)) in *. set (s2 := saving m2 (p + 1)) in *. set (s3 := saving m3 (p + 2)) in *.
  set (r2 := if s2 =? 0 then base - s1 else Z.max (base - s1) (base - s2)) in *. set (r3 := if s3 =? 0 then r2 else Z.max r2 (base - s3)) in *.
  destruct (_ && _ && _) eqn:G in H; [|discriminate]. rewrite !andb_true_iff in G. destruct G as [[B1 B2] B3]. apply Z.leb_le in B1, B2, B3.
  apply (f_equal (fun o => match o with Some v => v | None => (0, false) end)) in H. pose proof (f_equal fst H) as Hb. pose proof (f_equal snd H) as Hok. cbn [fst snd] in Hb, Hok. clear H. rewrite <- Hb. clear Hb bits.
  pose proof (positive_size_ok f) as HM. unfold positive_size in HM, G5, G6. set (M := array_size_of (positive_k_max_bits f)) in *.
  assert (S0 : forall m n, 0 <= saving m n) by (intros m n; unfold saving; destruct (0 <? m); lia).
  pose proof (S0 m1 (p + 2)) as S1. pose proof (S0 m2 (p + 1)) as S2. pose proof (S0 m3 (p + 2)) as S3. fold s1 in S1. fold s2 in S2. fold s3 in S3.
  assert (Bw : 0 <= base < 2 ^ 64). { unfold word in G4. apply andb_prop in G4. destruct G4 as [W1 W2]. apply Z.leb_le in W1. apply Z.ltb_lt in W2. lia. }
  assert (R2 : 0 <= r2 <= base) by (unfold r2; destruct (s2 =? 0); lia). assert (R3 : 0 <= r3 <= base) by (unfold r3; destruct (s3 =? 0); lia).
  split; [|split; [lia|]].
  - unfold positive_k_row. fold M. rewrite log2_pow10_ok by lia. cbn [bind]. fold l base. rewrite (wrap_in base) by lia. fold x.
    match goal with |- bind ?X _ = _ => assert (T1 : X = Ok (base - s1)) end.
    { unfold s1, saving. destruct (Z.ltb_spec 0 x) as [X|X].
      - destruct (U1 X cfg (junk e 0%nat 0%nat 0%nat) (junk e 1%nat)) as (e1 & Ee & El).
        destruct (power_of_2 cfg M (junk e 0%nat 0%nat 0%nat) x) as [b| | |]; cbn [bind] in Ee |- *; try discriminate. rewrite Ee. cbn [bind]. rewrite El.
        destruct (Z.ltb_spec 0 m1) as [P|P]; [|f_equal; lia]. destruct (Z.ltb_spec (precision f + 2) (Z.log2 m1)) as [Q|Q]; fold p in Q |- *; f_equal; [|lia].
        unfold s1, saving in B1. destruct (Z.ltb_spec 0 m1); [|lia]. rewrite wrap_in by lia. lia.
      - rewrite (Z1 X). cbn [Z.ltb Z.compare]. f_equal. lia. }
    rewrite T1. cbn [bind]. clear T1.
    match goal with |- bind ?X _ = _ => assert (T1 : X = Ok r2) end.
    { unfold r2, s2, saving. destruct (Z.ltb_spec 0 (x - 2)) as [X|X].
      - destruct (U2 X cfg (junk e 2%nat 0%nat 0%nat) (junk e 3%nat)) as (e1 & Ee & El).
        destruct (power_of_2 cfg M (junk e 2%nat 0%nat 0%nat) (x - 2)) as [b| | |]; cbn [bind] in Ee |- *; try discriminate. rewrite Ee. cbn [bind]. rewrite El.
        destruct (Z.ltb_spec 0 m2) as [P|P]; [|reflexivity]. fold p. destruct (Z.ltb_spec (p + 1) (Z.log2 m2)) as [Q|Q]; f_equal.
        + unfold s2, saving in B2. destruct (Z.ltb_spec 0 m2); [|lia]. rewrite Z.max_r in B2 |- * by lia. destruct (Z.eqb_spec (Z.log2 m2 - (p + 1)) 0); [lia|].
          rewrite wrap_in by lia. rewrite max_if. f_equal. lia.
        + rewrite Z.max_l by lia. reflexivity.
      - rewrite (Z2 X). reflexivity. }
    rewrite T1. cbn [bind]. clear T1. replace (x - 2 + 3) with (x + 1) by ring. unfold r3, s3, saving.
    destruct (Z.ltb_spec 0 (x + 1)) as [X|X].
    + assert (Pa : a < 2 ^ (la + 1)) by (unfold la; pose proof (Z.log2_spec a A) as [_ U]; exact U). pose proof (Z.log2_nonneg a) as La. fold la in La.
      assert (Ed : a * (range f - 1) < 2 ^ (la + p + 3)).
      { replace (la + p + 3) with (la + 1 + (p + 2)) by ring. rewrite Z.pow_add_r, <- Rp by lia. nia. }
      destruct (mul_assign_element_valid cfg M p5 (range f - 1) V ltac:(lia) ltac:(left; lia)) as (a4 & -> & Va4 & Ea4).
      { rewrite Wp_eq. fold a. eapply Z.lt_trans; [exact Ed|]. apply Z.pow_lt_mono_r; lia. }
      cbn [bind]. destruct (power_of_2_valid cfg M (junk e 4%nat 0%nat 0%nat) (x + 1) ltac:(lia)) as (b & -> & Vb & Eb). cbn [bind].
      assert (Px : 0 < 2 ^ (x + 1)) by (apply Z.pow_pos_nonneg; lia).
      destruct (long_division_valid cfg M (junk e 5%nat 0%nat 0%nat) (junk e 5%nat 0%nat 1%nat) a4 b HM Va4 Vb ltac:(lia)) as (rr & qq & -> & Vr & Err & _).
      { rewrite Ea4, Eb, Z.log2_pow2 by lia. fold a. assert (Z.log2 (a * (range f - 1)) < la + p + 3) by (apply Z.log2_lt_pow2; nia). lia. }
      cbn [bind fst]. rewrite (leading_bit_ok M rr HM Vr), Err, Ea4, Eb. fold a. rewrite (Z.mul_comm a), <- M3. fold p.
      destruct (Z.ltb_spec 0 m3) as [P|P]; [|reflexivity]. destruct (Z.ltb_spec (p + 2) (Z.log2 m3)) as [Q|Q]; f_equal.
      * unfold s3, saving in B3. destruct (Z.ltb_spec 0 m3); [|lia]. rewrite Z.max_r in B3 |- * by lia. destruct (Z.eqb_spec (Z.log2 m3 - (p + 2)) 0); [lia|].
        rewrite wrap_in by lia. rewrite max_if. f_equal. lia.
      * rewrite Z.max_l by lia. reflexivity.
    + rewrite M3. reflexivity.
  - intros Ok. rewrite Ok in Hok. rewrite !andb_true_iff in Hok. destruct Hok as [[O1 O2] O3]. rewrite Z.land_ones in O1, O2, O3 by lia.
    set (d := a mod 2 ^ (base - r3)) in *. assert (D : 0 <= d) by (apply Z.mod_pos_bound, Z.pow_pos_nonneg; lia).
    unfold enough_up. replace (fraction_bits f) with p by (destruct f; reflexivity). replace (width f) with (extended_precision f) by (destruct f; reflexivity).
    assert (Ex : - (extended_precision f - p - 2 + e + k) = x) by (unfold x, q_mp_m2; fold p; lia). cbv zeta. rewrite Ex.
    cbv zeta. rewrite <- E5. fold (truncated r3 a).
    assert (T : a = truncated r3 a + d).
    { unfold truncated. fold la. destruct (Z.leb_spec r3 la) as [B|B].
      - rewrite kept_spec by (try exact B; lia). fold la. rewrite <- G3. fold d. ring.
      - unfold d. replace (base - r3) with 0 by lia. rewrite Z.pow_0_r, Z.mod_1_r. ring. }
    split; [|split].
    + rewrite <- Rp. exact (unchanged_ok _ _ _ _ _ _ D T L1 O1).
    + rewrite <- Rh. exact (unchanged_ok _ _ _ _ _ _ D T L2 O2).
    + rewrite <- Rp. assert (Q : Z.shiftr ((range f - 1) * truncated r3 a) (x + 1) = Z.shiftr ((range f - 1) * a) (x + 1)); [|exact Q].
      unfold unchanged in O3. destruct (Z.ltb_spec 0 (x + 1)) as [X|X].
      * apply Z.leb_le in O3. rewrite !Z.shiftr_div_pow2 by lia. assert (P : 0 < 2 ^ (x + 1)) by (apply Z.pow_pos_nonneg; lia).
        pose proof (Z.div_mod ((range f - 1) * a) (2 ^ (x + 1)) ltac:(lia)) as Ed. pose proof (Z.mod_pos_bound ((range f - 1) * a) (2 ^ (x + 1)) P).
        symmetry. apply (Z.div_unique_pos _ _ _ ((range f - 1) * a mod 2 ^ (x + 1) - (range f - 1) * d)); [split; nia|]. nia.
      * apply Z.eqb_eq in O3. f_equal. f_equal. lia.
Qed.

Lemma positive_rows_ok cfg f except junk : forall cs fuel e prev_k p5 most r, (length cs < fuel)%nat -> valid (array_size_of (positive_k_max_bits f)) p5 -> 0 <= prev_k -> val p5 = 5 ^ prev_k ->
  positive_rows f except (positive_size f) e prev_k (val p5) most cs = Some r ->
  positive_k_loop cfg f junk fuel e prev_k p5 most = Ok r /\
  (forall e' bits, In (e', bits) (fst r) -> min_exponent f <= e' <= e /\ prev_k <= chosen e' /\ (e' <> except -> enough_up f e' (chosen e') bits)) /\
  (forall e', min_exponent f <= e' <= e -> exists bits, In (e', bits) (fst r) /\ bits <= snd r) /\ most <= snd r.
Proof.
  induction cs as [|c cs IH]; intros fuel e prev_k p5 most r F V K E H; (destruct fuel as [|fuel]; [cbn [length] in F; lia|]); cbn [positive_rows] in H; cbn [positive_k_loop].
  { destruct (Z.leb_spec (min_exponent f) e) as [L|L]; [discriminate|]. injection H as <-. cbn [fst snd In]. split; [reflexivity|]. split; [intros ? ? []|]. split; [intros; lia | lia]. }
  destruct ((_ <=? _) && _ && _) eqn:G in H; cbn [negb] in H; [|discriminate]. rewrite !andb_true_iff in G. destruct G as [[G1 G2] G3]. rewrite G1. apply Z.leb_le in G1, G2, G3.
  rewrite log10_pow2_ok by lia. cbn [bind]. rewrite chosen_at in H |- *. cbv zeta in H.
  set (k := chosen e) in *. set (M := array_size_of (positive_k_max_bits f)) in *.
  assert (S : exists p5', (if negb (k =? prev_k) then cassert cfg (k =? prev_k + 1) ;;; multiply_5 cfg M (junk e 6%nat 0%nat 0%nat) p5 else Ok p5) = Ok p5' /\ valid M p5' /\ prev_k <= k /\ val p5' = 5 ^ k /\
    (if k =? prev_k then Some (val p5) else if (k =? prev_k + 1) && (Z.log2 (val p5) + 3 <? positive_size f) then Some (5 * val p5) else None) = Some (val p5')).
  { destruct (Z.eqb_spec k prev_k) as [E0|N0]; cbn [negb].
    - exists p5. repeat apply conj; try assumption; try reflexivity; [lia | rewrite E0; exact E].
    - destruct (Z.eqb_spec k (prev_k + 1)) as [Ek|N1]; [|discriminate]. rewrite cassert_ok by reflexivity. cbn [bind andb] in *.
      destruct (Z.ltb_spec (Z.log2 (val p5) + 3) (positive_size f)) as [L|L]; [|discriminate].
      assert (P5 : 0 < val p5) by (rewrite E; apply Z.pow_pos_nonneg; lia).
      assert (Fi : 5 * val p5 < Wp M).
      { rewrite Wp_eq. change (64 * Z.of_nat M) with (positive_size f). pose proof (Z.log2_spec _ P5) as [_ U]. pose proof (Z.log2_nonneg (val p5)).
        apply Z.lt_le_trans with (2 ^ (Z.log2 (val p5) + 4)); [|apply Z.pow_le_mono_r; lia]. replace (Z.log2 (val p5) + 4) with (Z.succ (Z.log2 (val p5)) + 3) by ring. rewrite Z.pow_add_r by lia. lia. }
      destruct (multiply_5_valid cfg M (junk e 6%nat 0%nat 0%nat) p5 V P5 Fi) as (p5' & E5 & V5 & Ev).
      exists p5'. repeat apply conj; [exact E5 | exact V5 | lia | | f_equal; symmetry; exact Ev]. rewrite Ev, E, Ek. change (prev_k + 1) with (Z.succ prev_k). rewrite Z.pow_succ_r by lia. reflexivity. }
  destruct S as (p5' & -> & V' & Kk & E' & S). rewrite S in H. cbn [bind].
  destruct (positive_row f (positive_size f) e k (val p5') c) as [[bits ok]|] eqn:R; [|discriminate].
  destruct (positive_row_ok cfg f junk e k p5' c bits ok V' ltac:(lia) E' R) as (-> & B0 & En). cbn [bind].
  destruct (ok || (e =? except)) eqn:Oe; cbn [negb] in H; [|discriminate].
  destruct (positive_rows f _ _ (e - 1) k (val p5') (Z.max most bits) cs) as [r'|] eqn:T; [|discriminate]. injection H as <-.
  rewrite max_if. cbn [length] in F. destruct (IH fuel (e - 1) k p5' (Z.max most bits) r' ltac:(lia) V' ltac:(lia) E' T) as (-> & A1 & A2 & A3). cbn [bind fst snd]. split; [reflexivity|].
  split; [|split].
  - intros e' bits' [I|I].
    + injection I as <- <-. split; [lia|]. split; [exact Kk|]. intros Ne. apply En. destruct ok; [reflexivity|]. cbn [orb] in Oe. apply Z.eqb_eq in Oe. contradiction.
    + destruct (A1 e' bits' I) as (X1 & X2 & X3). split; [lia|]. split; [lia | exact X3].
  - intros e' He. destruct (Z.eq_dec e' e) as [->|Ne]; [exists bits; split; [left; reflexivity | lia]|].
    destruct (A2 e' ltac:(lia)) as (b' & I & L). exists b'. split; [right; exact I | exact L].
  - lia.
Qed.
