(** * The top bits of a bigint: get_upper_bits of tests/generate_cache.cpp *)

From Coq Require Import ZArith List Bool Lia.
From Verif Require Import Machine Model Arith BigintModel BigSpec BigFacts Bigint BigintOps BigintMul GenModel.
Open Scope Z_scope.

Lemma set_bit_ok P u idx b : 0 <= idx < P ->
  exists u', set_bit P u idx b = Ok u' /\ forall i, 0 <= i -> Z.testbit u' i = if i =? idx then b else Z.testbit u i.
Proof.
  intros H. unfold set_bit. rewrite (proj2 (Z.leb_le _ _)), (proj2 (Z.ltb_lt _ _)) by lia. cbn [andb]. eexists. split; [reflexivity|].
  intros i Hi. destruct b; destruct (Z.eqb_spec i idx) as [->|Q].
  - apply Z.setbit_eq. lia.
  - apply Z.setbit_neq; lia.
  - apply Z.clearbit_eq.
  - apply Z.clearbit_neq. lia.
Qed.

Lemma mask_bit x j : 0 <= j -> negb (Z.land x (2 ^ j) =? 0) = Z.testbit x j.
Proof.
  intros Hj. destruct (Z.testbit x j) eqn:T.
  - apply negb_true_iff, Z.eqb_neq. intros E. assert (B : Z.testbit (Z.land x (2 ^ j)) j = false) by (rewrite E; apply Z.bits_0).
    rewrite Z.land_spec, T, Z.pow2_bits_true in B by lia. discriminate.
  - apply negb_false_iff, Z.eqb_eq, Z.bits_inj'. intros i Hi. rewrite Z.land_spec, Z.bits_0.
    destruct (Z.eq_dec i j) as [->|Q]; [rewrite T; reflexivity|]. rewrite Z.pow2_bits_false by lia. apply andb_false_r.
Qed.

Lemma copy_down_ok P x n idx j u : idx < P -> Z.of_nat n <= idx + 1 -> Z.of_nat n <= j + 1 ->
  exists u' m, copy_down P x n idx (2 ^ j) u = Ok (u', m) /\ (Z.of_nat n <= j -> m = 2 ^ (j - Z.of_nat n)) /\
    forall i, 0 <= i -> Z.testbit u' i = if (idx - Z.of_nat n <? i) && (i <=? idx) then Z.testbit x (i - idx + j) else Z.testbit u i.
Proof.
  revert idx j u. induction n as [|n IH]; intros idx j u H1 H2 H3.
  - cbn [copy_down]. exists u, (2 ^ j). split; [reflexivity|]. split; [intros _; f_equal; lia|]. intros i Hi.
    destruct (Z.ltb_spec (idx - Z.of_nat 0) i); destruct (Z.leb_spec i idx); cbn [andb]; try reflexivity. lia.
  - cbn [copy_down]. rewrite mask_bit by lia. destruct (set_bit_ok P u idx (Z.testbit x j) ltac:(lia)) as (u1 & -> & U1). cbn [bind].
    destruct (Z.eq_dec j 0) as [->|J].
    + (* the last bit of the element: the mask becomes 0, but the loop ends *)
      assert (n = 0%nat) by lia. subst n. cbn [copy_down]. eexists u1, _. split; [reflexivity|]. split; [lia|].
      intros i Hi. rewrite U1 by exact Hi. change (Z.of_nat 1) with 1.
      destruct (Z.eqb_spec i idx) as [->|Q].
      * destruct (Z.ltb_spec (idx - 1) idx); [|lia]. rewrite Z.leb_refl. cbn [andb]. f_equal. lia.
      * destruct (Z.ltb_spec (idx - 1) i); destruct (Z.leb_spec i idx); cbn [andb]; try reflexivity. lia.
    + replace (Z.shiftr (2 ^ j) 1) with (2 ^ (j - 1)).
      2: { rewrite shiftr_div by lia. change (2 ^ 1) with 2. replace j with (j - 1 + 1) at 2 by lia. rewrite Z.pow_add_r, Z.div_mul by lia. reflexivity. }
      destruct (IH (idx - 1) (j - 1) u1 ltac:(lia) ltac:(lia) ltac:(lia)) as (u2 & m & -> & M & U2). exists u2, m. split; [reflexivity|].
      split; [intros L; rewrite M by lia; f_equal; lia|]. intros i Hi. rewrite U2, U1 by exact Hi.
      destruct (Z.ltb_spec (idx - 1 - Z.of_nat n) i); destruct (Z.leb_spec i (idx - 1)); destruct (Z.eqb_spec i idx);
        destruct (Z.ltb_spec (idx - Z.of_nat (S n)) i); destruct (Z.leb_spec i idx); cbn [andb]; try lia; try reflexivity.
      * f_equal. lia.
      * subst i. f_equal. lia.
Qed.

Lemma reset_below_ok P n u : Z.of_nat n <= P ->
  exists u', reset_below P n u = Ok u' /\ forall i, 0 <= i -> Z.testbit u' i = if i <? Z.of_nat n then false else Z.testbit u i.
Proof.
  revert u. induction n as [|n IH]; intros u H; cbn [reset_below].
  - exists u. split; [reflexivity|]. intros i Hi. destruct (Z.ltb_spec i (Z.of_nat 0)); [lia|reflexivity].
  - destruct (set_bit_ok P u (Z.of_nat n) false ltac:(lia)) as (u1 & -> & U1). cbn [bind]. destruct (IH u1 ltac:(lia)) as (u2 & -> & U2).
    exists u2. split; [reflexivity|]. intros i Hi. rewrite U2, U1 by exact Hi.
    destruct (Z.ltb_spec i (Z.of_nat n)); destruct (Z.ltb_spec i (Z.of_nat (S n))); destruct (Z.eqb_spec i (Z.of_nat n)); try reflexivity; lia.
Qed.

Lemma copy_up_ok P x n idx j u : 0 <= idx -> 0 <= j -> idx + Z.of_nat n <= P -> j + Z.of_nat n <= 64 ->
  exists u', copy_up P x n idx (wrap 64 (2 ^ j)) u = Ok u' /\
    forall i, 0 <= i -> Z.testbit u' i = if (idx <=? i) && (i <? idx + Z.of_nat n) then Z.testbit x (i - idx + j) else Z.testbit u i.
Proof.
  revert idx j u. induction n as [|n IH]; intros idx j u H0 H1 H2 H3.
  - cbn [copy_up]. exists u. split; [reflexivity|]. intros i Hi.
    destruct (Z.leb_spec idx i); destruct (Z.ltb_spec i (idx + Z.of_nat 0)); cbn [andb]; try reflexivity. lia.
  - cbn [copy_up]. assert (Wj : wrap 64 (2 ^ j) = 2 ^ j).
    { unfold wrap. apply Z.mod_small. split; [apply Z.pow_nonneg; lia | apply Z.pow_lt_mono_r; lia]. }
    rewrite Wj, mask_bit by lia.
    destruct (set_bit_ok P u idx (Z.testbit x j) ltac:(lia)) as (u1 & -> & U1). cbn [bind].
    replace (Z.shiftl (2 ^ j) 1) with (2 ^ (j + 1)) by (rewrite shiftl_mul, <- Z.pow_add_r by lia; reflexivity).
    destruct (IH (idx + 1) (j + 1) u1 ltac:(lia) ltac:(lia) ltac:(lia) ltac:(lia)) as (u2 & -> & U2). exists u2. split; [reflexivity|].
    intros i Hi. rewrite U2, U1 by exact Hi.
    destruct (Z.leb_spec (idx + 1) i); destruct (Z.ltb_spec i (idx + 1 + Z.of_nat n)); destruct (Z.eqb_spec i idx);
      destruct (Z.leb_spec idx i); destruct (Z.ltb_spec i (idx + Z.of_nat (S n))); cbn [andb]; try lia; try reflexivity.
    + f_equal. lia.
    + subst i. f_equal. lia.
Qed.

(** the bits of the elements are the bits of the number *)
Lemma element_bit N b e j : valid N b -> (e < N)%nat -> 0 <= j < 64 -> Z.testbit (elements b e) j = Z.testbit (val b) (64 * Z.of_nat e + j).
Proof.
  intros V He Hj. rewrite (element_mod (elements b) N e (v_words _ _ V) He), (val_number N b V), Wp_eq.
  change W with (2 ^ 64). rewrite Z.mod_pow2_bits_low, Z.div_pow2_bits by lia. f_equal. lia.
Qed.

(** the copied elements fill the [P] bits exactly, and some are left *)
Definition over_shift (P v : Z) : Prop := P < nbits v /\ exists m, nbits v - P = 64 * m.

Section Bits.
Variables (over : option Z) (P : Z) (N : nat) (b : big).
Hypotheses (HP : 1 <= P) (V : valid N b) (Pos : 0 < val b).

(** the bits at [remaining] and above are in place *)
Definition placed (u remaining : Z) : Prop :=
  forall i, remaining <= i -> 0 <= i -> Z.testbit u i = Z.testbit (val b) (i - P + nbits (val b)).

Lemma placed_all u : placed u 0 -> u = Z.shiftl (val b) (P - nbits (val b)).
Proof. intros H. apply Z.bits_inj'. intros i Hi. rewrite (H i Hi Hi), Z.shiftl_spec by exact Hi. f_equal. lia. Qed.

Lemma copy_elements_ok fuel : forall remaining e u, (e <= element_pos b)%nat -> (S e < fuel)%nat -> 0 <= remaining <= P ->
  remaining = P - nbits (val b) + 64 * Z.of_nat e -> placed u remaining ->
  exists r, copy_elements P N (elements b) fuel remaining e u = Ok r /\
    match r with
    | inl u' => placed u' 0
    | inr (u', remaining', e') => placed u' remaining' /\ (e' <= e)%nat /\ 0 <= remaining' < 64 /\ remaining' = P - nbits (val b) + 64 * Z.of_nat e'
    end.
Proof.
  induction fuel as [|fuel IH]; intros remaining e u He Hf Hr Er Hu; [lia|].
  cbn [copy_elements]. destruct (Z.leb_spec 64 remaining) as [R|R].
  2: { eexists. split; [reflexivity|]. cbn. repeat split; try assumption; lia. }
  pose proof (v_pos _ _ V) as Pp. destruct e as [|e].
  - destruct (reset_below_ok P (Z.to_nat remaining) u ltac:(lia)) as (u1 & -> & U1). cbn [bind]. eexists. split; [reflexivity|].
    intros i _ Hi. rewrite U1 by exact Hi. destruct (Z.ltb_spec i (Z.of_nat (Z.to_nat remaining))) as [L|L].
    + symmetry. apply Z.testbit_neg_r. lia.
    + apply Hu; lia.
  - unfold element_number_of_bits. rewrite shl_ok by lia. cbn [bind]. change ((1 * 2 ^ (64 - 1)) mod W) with (2 ^ 63).
    rewrite sel_ok by lia. cbn [bind].
    destruct (copy_down_ok P (elements b e) 63 (remaining - 1) 63 u ltac:(lia) ltac:(lia) ltac:(lia)) as (u1 & m & -> & M & U1). cbn [bind].
    rewrite M by lia. change (63 - Z.of_nat 63) with 0. rewrite mask_bit by lia.
    destruct (set_bit_ok P u1 (remaining - 64) (Z.testbit (elements b e) 0) ltac:(lia)) as (u2 & -> & U2). cbn [bind].
    destruct (IH (remaining - 64) e u2 ltac:(lia) ltac:(lia) ltac:(lia) ltac:(lia)) as (r & -> & Hres).
    + intros i Li Hi. rewrite U2, U1 by exact Hi. change (Z.of_nat 63) with 63.
      destruct (Z.eqb_spec i (remaining - 64)) as [->|Q]; [rewrite (element_bit N b e 0 V) by lia; f_equal; lia|].
      destruct (Z.ltb_spec (remaining - 1 - 63) i); destruct (Z.leb_spec i (remaining - 1)); cbn [andb].
      * rewrite (element_bit N b e _ V) by lia. f_equal. lia.
      * apply Hu; lia.
      * lia.
      * lia.
    + exists r. split; [reflexivity|]. destruct r as [u'|[[u' r'] e']]; [exact Hres|]. destruct Hres as (A & B & C). repeat split; try assumption; lia.
Qed.

(** The result is the number, shifted so that its leading one becomes the top bit of [P] bits.  The only
    behaviour that the C++ standard does not define is the shift by 64, which happens in the case
    [over_shift]. *)
Lemma get_upper_bits_ok : (over <> None \/ ~ (64 < P /\ over_shift P (val b))) ->
  get_upper_bits over P N b = Ok (Z.shiftl (val b) (P - nbits (val b))).
Proof.
  intros Hover. pose proof (v_pos _ _ V) as Pp. destruct (bits_of N b V Pos) as [B E].
  assert (NB : nbits (val b) = 64 * Z.of_nat (element_pos b) + bit_pos b) by (rewrite nbits_pos by exact Pos; lia).
  pose proof (nbits_bounds (val b) Pos) as VB.
  assert (Top : elements b (element_pos b) = val b / Wp (element_pos b)).
  { rewrite (element_mod (elements b) N (element_pos b) (v_words _ _ V) Pp), (val_number N b V). apply Z.mod_small.
    pose proof (val_pos_bound N b V) as U. rewrite Wp_S in U. pose proof (Wp_pos (element_pos b)).
    split; [apply Z.div_pos; lia | apply Z.div_lt_upper_bound; lia]. }
  unfold get_upper_bits. destruct (Z.leb_spec P (bit_pos b)) as [L|L].
  - rewrite sel_ok by exact Pp. cbn [bind]. rewrite shr_ok by lia. cbn [bind]. f_equal. rewrite Top, Wp_eq, Z.div_div by (try apply Z.pow_nonzero; try apply Z.pow_pos_nonneg; lia).
    rewrite <- Z.pow_add_r by lia. rewrite <- shiftr_div by lia.
    replace (P - nbits (val b)) with (- (64 * Z.of_nat (element_pos b) + (bit_pos b - P))) by lia. rewrite Z.shiftl_opp_r. rewrite shiftr_div by lia.
    unfold wrap. apply Z.mod_small. split; [apply Z.div_pos; [lia | apply Z.pow_pos_nonneg; lia]|].
    apply Z.div_lt_upper_bound; [apply Z.pow_pos_nonneg; lia|]. rewrite <- Z.pow_add_r by lia.
    replace (64 * Z.of_nat (element_pos b) + (bit_pos b - P) + P) with (nbits (val b)) by lia. apply VB.
  - rewrite shl_ok by lia. cbn [bind]. rewrite sel_ok by exact Pp. cbn [bind].
    replace ((1 * 2 ^ (bit_pos b - 1)) mod W) with (2 ^ (bit_pos b - 1)).
    2: { rewrite Z.mul_1_l. symmetry. apply Z.mod_small. change W with (2 ^ 64). split; [apply Z.pow_nonneg; lia | apply Z.pow_lt_mono_r; lia]. }
    destruct (copy_down_ok P (elements b (element_pos b)) (Z.to_nat (bit_pos b)) (P - 1) (bit_pos b - 1) 0 ltac:(lia) ltac:(lia) ltac:(lia)) as (u1 & m & -> & _ & U1).
    cbn [bind].
    destruct (copy_elements_ok (S (S (element_pos b))) (P - bit_pos b) (element_pos b) u1 ltac:(lia) ltac:(lia) ltac:(lia) ltac:(lia)) as (r & -> & Hr).
    { intros i Li Hi. rewrite U1 by exact Hi. rewrite Z2Nat.id by lia.
      destruct (Z.ltb_spec (P - 1 - bit_pos b) i); destruct (Z.leb_spec i (P - 1)); cbn [andb]; try lia.
      - rewrite (element_bit N b _ _ V) by lia. f_equal. lia.
      - rewrite Z.bits_0. symmetry. apply Z.bits_above_log2; [lia|]. lia. }
    cbn [bind]. destruct r as [u|[[u rm] e]]; [f_equal; apply placed_all; exact Hr|]. destruct Hr as (Hu & He & Hrm & Erm).
    destruct e as [|e].
    + destruct (reset_below_ok P (Z.to_nat rm) u ltac:(lia)) as (u2 & -> & U2). f_equal. apply placed_all. intros i _ Hi. rewrite U2 by exact Hi.
      destruct (Z.ltb_spec i (Z.of_nat (Z.to_nat rm))) as [Q|Q]; [symmetry; apply Z.testbit_neg_r; lia | apply Hu; lia].
    + destruct (Z.eqb_spec rm 0) as [Z0|Z0].
      * destruct over as [o|]; [cbn [bind]; f_equal; apply placed_all; rewrite Z0 in Hu; exact Hu|].
        exfalso. destruct Hover as [C|C]; [congruence|]. apply C. split; [|split; [lia | exists (Z.of_nat (S e)); lia]].
        destruct (Z_lt_le_dec 64 P); [assumption|]. exfalso. assert (Z.of_nat (S e) <= Z.of_nat (element_pos b)) by lia. nia.
      * unfold element_number_of_bits. rewrite shl_ok by lia. cbn [bind]. rewrite sel_ok by lia. cbn [bind].
        rewrite Z.mul_1_l. change ((2 ^ (64 - rm)) mod W) with (wrap 64 (2 ^ (64 - rm))).
        destruct (copy_up_ok P (elements b e) (Z.to_nat rm) 0 (64 - rm) u ltac:(lia) ltac:(lia) ltac:(lia) ltac:(lia)) as (u2 & -> & U2).
        f_equal. apply placed_all. intros i _ Hi. rewrite U2 by exact Hi. rewrite Z2Nat.id by lia. cbn [Z.add].
        destruct (Z.leb_spec 0 i); destruct (Z.ltb_spec i rm); cbn [andb]; try lia.
        -- rewrite (element_bit N b e _ V) by lia. f_equal. lia.
        -- apply Hu; lia.
Qed.

(** with the shift left undefined, the function has no defined result in that case *)
Lemma get_upper_bits_undefined : over = None -> 64 < P -> over_shift P (val b) -> get_upper_bits over P N b = Undefined.
Proof.
  intros Ho P64 [Lt [m Hm]]. pose proof (v_pos _ _ V) as Pp. destruct (bits_of N b V Pos) as [B E].
  assert (NB : nbits (val b) = 64 * Z.of_nat (element_pos b) + bit_pos b) by (rewrite nbits_pos by exact Pos; lia).
  unfold get_upper_bits. destruct (Z.leb_spec P (bit_pos b)) as [L|L]; [lia|].
  rewrite shl_ok by lia. cbn [bind]. rewrite sel_ok by exact Pp. cbn [bind].
  replace ((1 * 2 ^ (bit_pos b - 1)) mod W) with (2 ^ (bit_pos b - 1)).
  2: { rewrite Z.mul_1_l. symmetry. apply Z.mod_small. change W with (2 ^ 64). split; [apply Z.pow_nonneg; lia | apply Z.pow_lt_mono_r; lia]. }
  destruct (copy_down_ok P (elements b (element_pos b)) (Z.to_nat (bit_pos b)) (P - 1) (bit_pos b - 1) 0 ltac:(lia) ltac:(lia) ltac:(lia)) as (u1 & m1 & -> & _ & U1).
  cbn [bind].
  assert (G : forall fuel remaining e u, (S e < fuel)%nat -> (e <= element_pos b)%nat -> 0 <= remaining <= P -> remaining = P - nbits (val b) + 64 * Z.of_nat e ->
    exists u' e', copy_elements P N (elements b) fuel remaining e u = Ok (inr (u', 0, S e'))).
  { clear U1 u1 m1. induction fuel as [|fuel IH]; intros remaining e u Hf He Hr Er; [lia|]. cbn [copy_elements].
    destruct (Z.leb_spec 64 remaining) as [R|R].
    - destruct e as [|e]; [lia|]. unfold element_number_of_bits. rewrite shl_ok by lia. cbn [bind]. change ((1 * 2 ^ (64 - 1)) mod W) with (2 ^ 63).
      rewrite sel_ok by lia. cbn [bind].
      destruct (copy_down_ok P (elements b e) 63 (remaining - 1) 63 u ltac:(lia) ltac:(lia) ltac:(lia)) as (u2 & m2 & -> & M & _). cbn [bind].
      destruct (set_bit_ok P u2 (remaining - 64) (negb (Z.land (elements b e) m2 =? 0)) ltac:(lia)) as (u3 & -> & _). cbn [bind].
      apply IH; lia.
    - assert (remaining = 0) by lia. subst remaining. destruct e as [|e]; [lia|]. rewrite H. eauto. }
  destruct (G (S (S (element_pos b))) (P - bit_pos b) (element_pos b) u1 ltac:(lia) ltac:(lia) ltac:(lia) ltac:(lia)) as (u' & e' & ->).
  cbn [bind]. rewrite Z.eqb_refl, Ho. reflexivity.
Qed.
End Bits.
