(** * The generator reproduces the tables of the header *)

From Coq Require Import ZArith List Bool Lia.
From Verif Require Import Machine Tables Model Arith ExpFacts Products BigintModel BigSpec BigFacts Bigint BigintOps BigintMul GenModel GenBits GenLoop.
Import ListNotations.
Open Scope Z_scope.

(** the tables of the header as lists of entries *)
Definition table (f : fmt) : list cache_entry :=
  match f with
  | Binary32 => map Cache64 cache_float
  | Binary64 => map (fun hl => Cache128 (mk_uint128 (fst hl) (snd hl))) cache_double
  end.

Lemma pos_part_of x : pos_part x = Z.max 0 x.
Proof. unfold pos_part. destruct (Z.ltb_spec 0 x); lia. Qed.

Lemma width_precision f : cache_precision f = 2 * extended_precision f.
Proof. destruct f; reflexivity. Qed.
Lemma precision_small f : 64 <= cache_precision f <= 128.
Proof. destruct f; cbn; lia. Qed.

(** each entry is what the generator computes, plus one for the negative powers *)
Lemma generated_phi f k : min_k f <= k <= max_k f -> phi f k = generated (cache_precision f) k + (if k <? 0 then 1 else 0).
Proof.
  intros Hk. pose proof (k_facts_all f k Hk) as K. pose proof (kf_half f k K) as H1. pose proof (kf_one f k K) as H2.
  pose proof (kf_floor f k K) as H3. pose proof (kf_ceil f k K) as H4. rewrite <- width_precision in H3, H4. pose proof (precision_small f) as PS.
  set (P := cache_precision f) in *. set (ph := phi f k) in *. unfold gnum, gden in *. rewrite !shiftl_mul in H1, H2, H3, H4 by (rewrite pos_part_of; lia).
  rewrite !pos_part_of in *. unfold generated. destruct (Z.leb_spec 0 k) as [S|S].
  - rewrite (proj2 (Z.ltb_ge _ _)) by lia. specialize (H3 S). clear H4. replace (Z.max 0 k) with k in * by lia. replace (Z.max 0 (- k)) with 0 in * by lia.
    change (5 ^ 0) with 1 in *. set (L := lexp k + 1 - k) in *. replace (k - lexp k - 1) with (- L) in * by lia.
    assert (0 < 5 ^ k) by (apply Z.pow_pos_nonneg; lia). unfold positive_bits.
    destruct (Z_lt_le_dec 0 L) as [HL|HL].
    2: { replace (Z.max 0 L) with 0 in H2 by lia. assert (0 < 2 ^ Z.max 0 (- L)) by (apply Z.pow_pos_nonneg; lia). nia. }
    replace (Z.max 0 L) with L in * by lia. replace (Z.max 0 (- L)) with 0 in * by lia. rewrite Z.pow_0_r, Z.mul_1_r in *. rewrite Z.mul_1_l in *.
    assert (E2 : 2 ^ L = 2 * 2 ^ (L - 1)) by (rewrite <- Z.pow_succ_r by lia; f_equal; lia).
    rewrite (nbits_unique (5 ^ k) L) by lia. rewrite Z.add_0_r.
    assert (0 < 2 ^ L) by (apply Z.pow_pos_nonneg; lia).
    destruct (Z_le_gt_dec L P) as [Q|Q].
    + rewrite shiftl_mul by lia. replace (2 ^ P) with (2 ^ (P - L) * 2 ^ L) in H3 by (rewrite <- Z.pow_add_r by lia; f_equal; lia). nia.
    + replace (P - L) with (- (L - P)) by lia. rewrite Z.shiftl_opp_r, shiftr_div by lia.
      replace (2 ^ L) with (2 ^ P * 2 ^ (L - P)) in H3 by (rewrite <- Z.pow_add_r by lia; f_equal; lia).
      assert (0 < 2 ^ P) by (apply Z.pow_pos_nonneg; lia). assert (0 < 2 ^ (L - P)) by (apply Z.pow_pos_nonneg; lia).
      apply Z.div_unique_pos with (r := 5 ^ k - 2 ^ (L - P) * ph); [split; nia | ring].
  - rewrite (proj2 (Z.ltb_lt _ _)) by lia. specialize (H4 S). clear H3. replace (Z.max 0 k) with 0 in * by lia. set (m := - k) in *. replace (Z.max 0 m) with m in * by lia.
    change (5 ^ 0) with 1 in *. set (M := k - lexp k - 1) in *. replace (lexp k + 1 - k) with (- M) in * by lia. rewrite Z.mul_1_l in *.
    assert (F5 : 5 <= 5 ^ m) by (change 5 with (5 ^ 1) at 1; apply Z.pow_le_mono_r; lia). unfold negative_bits.
    destruct (Z_lt_le_dec 0 M) as [HL|HL].
    2: { replace (Z.max 0 M) with 0 in H1 by lia. assert (0 < 2 ^ Z.max 0 (- M)) by (apply Z.pow_pos_nonneg; lia). nia. }
    replace (Z.max 0 M) with M in * by lia. replace (Z.max 0 (- M)) with 0 in * by lia. rewrite Z.pow_0_r, Z.mul_1_r in *.
    assert (E2 : 2 ^ (M + 1) = 2 * 2 ^ M) by (rewrite Z.add_1_r, Z.pow_succ_r by lia; reflexivity).
    assert (NE : 5 ^ m <> 2 ^ (M + 1)).
    { intros Q. apply (no_divide_2 (5 ^ m) (M + 1)); [|lia | rewrite <- Q; apply Z.divide_refl].
      replace m with (Z.of_nat (Z.to_nat m)) by lia. apply five_divides. lia. }
    rewrite (nbits_unique (5 ^ m) (M + 1)) by (try lia; replace (M + 1 - 1) with M by lia; lia).
    replace (M + 1 + P - 1) with (M + P) by lia. rewrite <- Z.pow_add_r in H4 by lia.
    assert (NE2 : 2 ^ (M + P) <> ph * 5 ^ m).
    { intros Q. apply (no_divide_2 (5 ^ m) (M + P)); [|lia | exists ph; exact Q].
      replace m with (Z.of_nat (Z.to_nat m)) by lia. apply five_divides. lia. }
    assert (X : ph - 1 = 2 ^ (M + P) / 5 ^ m); [|lia].
    apply Z.div_unique_pos with (r := 2 ^ (M + P) - 5 ^ m * (ph - 1)); [split; lia | ring].
Qed.

(** the low words of the entries for negative powers are not 0, so that adding one does not carry *)
Lemma low_words_true : forallb (fun hl => 0 <? snd hl) (firstn 290 cache_double) = true.
Proof. vm_compute. reflexivity. Qed.
Lemma low_words i : (i < 290)%nat -> 0 < snd (nth i cache_double (0, 0)).
Proof.
  intros H. pose proof low_words_true as C. rewrite forallb_forall in C. apply Z.ltb_lt. apply C.
  replace (nth i cache_double (0, 0)) with (nth i (firstn 290 cache_double) (0, 0)).
  - apply nth_In. rewrite firstn_length, cache_double_length. exact H.
  - rewrite <- (firstn_skipn 290 cache_double) at 2. rewrite app_nth1; [reflexivity|]. rewrite firstn_length, cache_double_length. exact H.
Qed.

Definition entry_at (f : fmt) (i : nat) : cache_entry := nth i (table f) (Cache64 0).
Lemma table_length f : length (table f) = Z.to_nat (max_k f - min_k f + 1).
Proof. destruct f; cbn [table]; rewrite map_length; reflexivity. Qed.

Lemma to_entry_ok f k c : min_k f <= k <= max_k f -> c = generated (cache_precision f) k ->
  (0 <= k -> to_entry f c = entry_at f (Z.to_nat (k - min_k f))) /\
  (k < 0 -> increment_entry (to_entry f c) = (entry_at f (Z.to_nat (k - min_k f)), false)).
Proof.
  intros Hk ->. pose proof (generated_phi f k Hk) as G. pose proof (kf_phi f k (k_facts_all f k Hk)) as R. unfold phi, cache_val in *. unfold entry_at.
  set (i := Z.to_nat (k - min_k f)) in *.
  assert (Hi : (i < length (table f))%nat) by (rewrite table_length; lia).
  destruct f; cbn [table to_entry] in *; rewrite map_length in Hi; set (v := generated _ k) in *.
  - rewrite (map_nth Cache64).
    change (2 ^ (2 * extended_precision Binary32)) with (2 ^ 64) in R. split; intros S.
    + rewrite (proj2 (Z.ltb_ge _ _)) in G by lia. f_equal. lia.
    + rewrite (proj2 (Z.ltb_lt _ _)) in G by lia. cbn [increment_entry]. unfold wrap.
      assert (0 <= v). { subst v. unfold generated. rewrite (proj2 (Z.leb_gt _ _)) by lia. unfold negative_bits. apply Z.div_pos; [apply Z.pow_nonneg; lia | apply Z.pow_pos_nonneg; lia]. }
      rewrite Z.mod_small by lia. rewrite <- G. f_equal. apply Z.eqb_neq. lia.
  - set (g := fun hl : Z * Z => Cache128 (mk_uint128 (fst hl) (snd hl))) in *.
    rewrite (nth_indep (map g cache_double) (Cache64 0) (g (0, 0)) ltac:(rewrite map_length; exact Hi)), (map_nth g).
    change (min_k Binary64) with (-290) in *. change (max_k Binary64) with 325 in *.
    pose proof (cache_double_range i ltac:(lia)) as CR. pose proof (low_words i) as LW. unfold g. destruct (nth i cache_double (0, 0)) as [h l]. cbn [fst snd] in *. split; intros S.
    + rewrite (proj2 (Z.ltb_ge _ _)) in G by lia. rewrite Z.add_0_r in G. rewrite <- G. do 2 f_equal.
      * rewrite shiftr_div by lia. rewrite Z.div_add_l, Z.div_small by lia. lia.
      * unfold wrap. rewrite Z.add_comm, Z.mod_add, Z.mod_small by lia. reflexivity.
    + rewrite (proj2 (Z.ltb_lt _ _)) in G by lia. specialize (LW ltac:(lia)). assert (Ev : v = h * 2 ^ 64 + (l - 1)) by lia. rewrite Ev.
      cbn [increment_entry u128_high u128_low]. rewrite shiftr_div by lia. rewrite Z.div_add_l, Z.div_small by lia.
      unfold wrap. replace ((h * 2 ^ 64 + (l - 1)) mod 2 ^ 64) with (l - 1) by (rewrite Z.add_comm, Z.mod_add, Z.mod_small by lia; reflexivity).
      replace (l - 1 + 1) with l by lia. rewrite Z.mod_small by lia. rewrite Z.add_0_r. f_equal. apply Z.eqb_neq. lia.
Qed.

Lemma write_file_ok f c : (forall k, min_k f <= k <= max_k f -> c k = generated (cache_precision f) k) -> write_file f c = (table f, false).
Proof.
  intros H. assert (K : min_k f <= 0 <= max_k f) by (destruct f; cbn; lia). unfold write_file.
  set (neg := map _ (seq 0 (Z.to_nat (- min_k f)))). set (pos := map _ (seq 0 (Z.to_nat (max_k f)))).
  assert (Ln : length neg = Z.to_nat (- min_k f)) by (unfold neg; rewrite map_length, seq_length; reflexivity).
  assert (Lp : length pos = Z.to_nat (max_k f)) by (unfold pos; rewrite map_length, seq_length; reflexivity).
  assert (An : forall i d, (i < length neg)%nat -> nth i neg d = (entry_at f i, false)).
  { intros i d Hi. unfold neg in *. rewrite (nth_indep _ d (increment_entry (to_entry f (c (min_k f + Z.of_nat 0))))) by exact Hi. rewrite (map_nth (fun i => increment_entry (to_entry f (c (min_k f + Z.of_nat i))))).
    rewrite seq_nth by lia. cbn [Nat.add]. destruct (to_entry_ok f (min_k f + Z.of_nat i) _ ltac:(lia) (H (min_k f + Z.of_nat i) ltac:(lia))) as [_ T].
    rewrite T by lia. f_equal. f_equal. lia. }
  assert (Ap : forall i d, (i < length pos)%nat -> nth i pos d = entry_at f (Z.to_nat (- min_k f) + i)).
  { intros i d Hi. unfold pos in *. rewrite (nth_indep _ d (to_entry f (c (Z.of_nat 0)))) by exact Hi. rewrite (map_nth (fun i => to_entry f (c (Z.of_nat i)))).
    rewrite seq_nth by lia. cbn [Nat.add]. destruct (to_entry_ok f (Z.of_nat i) _ ltac:(lia) (H (Z.of_nat i) ltac:(lia))) as [T _].
    rewrite T by lia. f_equal. lia. }
  f_equal.
  - apply nth_ext with (d := Cache64 0) (d' := Cache64 0).
    + rewrite !app_length, map_length, Ln, Lp, table_length. cbn [length]. lia.
    + intros i Hi. rewrite !app_length, map_length, Ln, Lp in Hi. cbn [length] in Hi. fold (entry_at f i).
      destruct (lt_dec i (Z.to_nat (- min_k f))) as [Q|Q].
      * rewrite app_nth1 by (rewrite map_length; lia). change (Cache64 0) with (fst (Cache64 0, false)). rewrite map_nth, An by lia. reflexivity.
      * rewrite app_nth2 by (rewrite map_length; lia). rewrite map_length, Ln. destruct (lt_dec i (Z.to_nat (- min_k f) + Z.to_nat (max_k f))) as [Q2|Q2].
        -- rewrite app_nth1, Ap by lia. f_equal. lia.
        -- rewrite app_nth2 by lia. rewrite Lp. replace (i - Z.to_nat (- min_k f) - Z.to_nat (max_k f))%nat with 0%nat by lia. cbn [nth].
           destruct (to_entry_ok f (max_k f) _ ltac:(lia) (H (max_k f) ltac:(lia))) as [T _]. rewrite T by lia. f_equal. lia.
  - destruct (existsb snd neg) eqn:E; [exfalso|reflexivity]. apply existsb_exists in E. destruct E as (x & I & S).
    destruct (In_nth neg x (Cache64 0, false) I) as (i & Hi & Ei). rewrite An in Ei by exact Hi. subst x. cbn [snd] in S. discriminate S.
Qed.

Lemma capacity f : 5 ^ max_k f < Wp (generator_array_size f) /\ 2 * 5 ^ (- min_k f) <= Wp (generator_array_size f) /\
  cache_precision f + 64 * Z.of_nat (generator_array_size f) < W.
Proof. rewrite Wp_eq. destruct f; vm_compute; repeat split; discriminate. Qed.

Lemma generate_cache_ok over cfg junk f : (over <> None \/ f = Binary32) -> generate_cache over cfg junk f = Ok (table f, false).
Proof.
  intros Ho. destruct (capacity f) as (C1 & C2 & C3). pose proof (precision_small f). unfold generate_cache.
  destruct (generate_cache_bitset_ok over cfg junk (cache_precision f) (min_k f) (max_k f) (generator_array_size f)) as (c & -> & G); try assumption; try lia.
  - destruct f; cbn; lia.
  - destruct Ho as [Ho| ->]; [left; exact Ho | right]. intros k _ [L _]. change (cache_precision Binary32) with 64 in L. lia.
  - cbn [bind]. rewrite write_file_ok by exact G. reflexivity.
Qed.

(** 5^110 has 256 bits: two elements fill the 128 bits, and two are left *)
Lemma early_powers_true : forallb (fun k => let n := nbits (5 ^ Z.of_nat k) in (n <=? 128) || negb ((n - 128) mod 64 =? 0)) (seq 0 110) = true.
Proof. vm_compute. reflexivity. Qed.

Lemma generate_cache_undefined cfg junk : generate_cache None cfg junk Binary64 = Undefined.
Proof.
  destruct (capacity Binary64) as (C1 & C2 & C3). pose proof (precision_small Binary64). unfold generate_cache.
  rewrite (generate_cache_bitset_undefined None cfg junk (cache_precision Binary64) (min_k Binary64) (max_k Binary64) (generator_array_size Binary64)) with (k := 110%nat);
    try assumption; try lia; try reflexivity.
  - cbn; lia.
  - split; [reflexivity|]. change (nbits (5 ^ Z.of_nat 110)) with 256. split; [reflexivity|]. exists 2. reflexivity.
  - intros j Hj [_ [L [m M]]]. pose proof early_powers_true as E. rewrite forallb_forall in E. specialize (E (Z.to_nat j) ltac:(apply in_seq; lia)).
    cbv zeta in E. rewrite Z2Nat.id in E by lia. change (cache_precision Binary64) with 128 in *.
    apply orb_true_iff in E. destruct E as [E|E]; [apply Z.leb_le in E; lia|]. apply negb_true_iff, Z.eqb_neq in E. apply E.
    rewrite M. rewrite Z.mul_comm. apply Z.mod_mul. lia.
Qed.

Lemma generate_cache_any over cfg junk f : generate_cache (Some over) cfg junk f = Ok (table f, false).
Proof. apply generate_cache_ok. left. discriminate. Qed.
Lemma generate_cache_float cfg junk : generate_cache None cfg junk Binary32 = Ok (table Binary32, false).
Proof. apply generate_cache_ok. right. reflexivity. Qed.
