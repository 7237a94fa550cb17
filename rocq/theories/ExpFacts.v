(** * Facts about the binary exponents: the scaled products computed with the cache are exact floors

    For a binary exponent e the algorithm multiplies by 2^e * 10^k with k = [kexp e].  This file shows
    that multiplying by the cached 64/128-bit approximation and truncating gives exactly the floor of
    the exact product, for every operand the algorithm uses. *)

From Coq Require Import ZArith List Bool Lia.
From Verif Require Import Machine Tables Model Arith FareyTables.
Import ListNotations.
Open Scope Z_scope.

Definition kexp (e : Z) : Z := - Z.shiftr ((e + 6) * 0x4d104) 20.
Definition lexp (k : Z) : Z := Z.shiftr (k * 0x35269e) 20.
Definition mbexp (e : Z) : Z := - (e + lexp (kexp e) + 1).

Definition pos_part (x : Z) : Z := if 0 <? x then x else 0.

(** 10^k / 2^(lexp k + 1) as a fraction *)
Definition gnum (k : Z) : Z := Z.shiftl (5 ^ pos_part k) (pos_part (k - lexp k - 1)).
Definition gden (k : Z) : Z := Z.shiftl (5 ^ pos_part (- k)) (pos_part (lexp k + 1 - k)).

(** 2^e * 10^k as a fraction *)
Definition anum (e k : Z) : Z := 2 ^ pos_part (e + k) * 5 ^ pos_part k.
Definition aden (e k : Z) : Z := 2 ^ pos_part (- (e + k)) * 5 ^ pos_part (- k).

Definition cache_val (f : fmt) (i : Z) : Z :=
  match f with
  | Binary32 => nth (Z.to_nat i) cache_float 0
  | Binary64 => let '(h, l) := nth (Z.to_nat i) cache_double (0, 0) in h * 2 ^ 64 + l
  end.
Definition phi (f : fmt) (k : Z) : Z := cache_val f (k - min_k f).

Definition check_k (q p : Z) (k ph : Z) (w : Z * Z * Z * Z) : bool :=
  let '(a, b, c, d) := w in
  let num := gnum k in
  let den := gden k in
  let numq := Z.shiftl num (2 * q) in
  let pden := ph * den in
  (den <=? 2 * num) && (num <? den) && (0 <=? ph) && (ph <? 2 ^ (2 * q)) &&
  (if 0 <=? k then (pden <=? numq) && (numq <? pden + den)
   else (pden - den <? numq) && (numq <=? pden)) &&
  (0 <? b) && (0 <? d) &&
  (* a/b <= (both multipliers) < c/d; for k < 0 either from the neighbour ph - 1 or exactly *)
  (if 0 <=? k then
     (Z.shiftl a (2 * q) <=? Z.shiftl (b * ph) (q - p - 5)) &&
     (Z.shiftl (d * (ph + 1)) (q - p - 5) <=? Z.shiftl c (2 * q))
   else
     ((Z.shiftl a (2 * q) <=? Z.shiftl (b * (ph - 1)) (q - p - 5)) ||
      (a * den <=? Z.shiftl (b * num) (q - p - 5))) &&
     (Z.shiftl (d * ph) (q - p - 5) <? Z.shiftl c (2 * q))) &&
  (b * c - a * d =? 1) && (2 ^ (p + 4) <? b + d).

Fixpoint check_from {A : Type} (chk : Z -> A -> Z * Z * Z * Z -> bool) (k : Z)
  (l : list A) (w : list (Z * Z * Z * Z)) : bool :=
  match l, w with
  | [], [] => true
  | x :: l', y :: w' => chk k x y && check_from chk (k + 1) l' w'
  | _, _ => false
  end.

Lemma check_from_nth {A : Type} chk (d : A) dw l : forall k w i,
  check_from chk k l w = true -> 0 <= i < Z.of_nat (length l) ->
  chk (k + i) (nth (Z.to_nat i) l d) (nth (Z.to_nat i) w dw) = true.
Proof.
  induction l as [|x l IH]; intros k w i H Hi; [cbn in Hi; lia|].
  destruct w as [|y w]; [discriminate|]. cbn [check_from] in H.
  apply andb_true_iff in H. destruct H as [H1 H2].
  destruct (Z.eq_dec i 0) as [->|Hne].
  - rewrite Z.add_0_r. exact H1.
  - specialize (IH (k + 1) w (i - 1) H2). cbn [length] in Hi.
    specialize (IH ltac:(lia)).
    replace (k + 1 + (i - 1)) with (k + i) in IH by lia.
    replace (Z.to_nat i) with (S (Z.to_nat (i - 1))) by lia. exact IH.
Qed.

Lemma check_all_float_true : check_from (check_k 32 23) (-30) cache_float farey_float = true.
Proof. vm_cast_no_check (eq_refl true). Qed.
Definition check_k_double (k : Z) (v : Z * Z) := check_k 64 52 k (Z.shiftl (fst v) 64 + snd v).
Lemma check_all_double_true : check_from check_k_double (-290) cache_double farey_double = true.
Proof. vm_cast_no_check (eq_refl true). Qed.

(** ** Consequences for one k *)

Definition epm5 (f : fmt) : Z := extended_precision f - precision f - 5.

Record k_facts (f : fmt) (k : Z) : Prop := {
  kf_half : gden k <= 2 * gnum k;
  kf_one : gnum k < gden k;
  kf_phi : 0 <= phi f k < 2 ^ (2 * extended_precision f);
  kf_floor : 0 <= k -> phi f k * gden k <= gnum k * 2 ^ (2 * extended_precision f)
                       < (phi f k + 1) * gden k;
  kf_ceil : k < 0 -> (phi f k - 1) * gden k < gnum k * 2 ^ (2 * extended_precision f)
                     <= phi f k * gden k;
  kf_farey : exists a b c d, 0 < b /\ 0 < d /\ b * c - a * d = 1 /\ 2 ^ (precision f + 4) < b + d /\
     a * gden k <= b * (gnum k * 2 ^ epm5 f) /\ d * (gnum k * 2 ^ epm5 f) < c * gden k /\
     a * 2 ^ (2 * extended_precision f) <= b * (phi f k * 2 ^ epm5 f) /\
     d * (phi f k * 2 ^ epm5 f) < c * 2 ^ (2 * extended_precision f)
}.

Lemma gnum_pos k : 0 < gnum k.
Proof.
  unfold gnum. rewrite shiftl_mul by (unfold pos_part; destruct (Z.ltb_spec 0 (k - lexp k - 1)); lia).
  apply Z.mul_pos_pos; apply Z.pow_pos_nonneg; try lia; unfold pos_part;
    destruct (Z.ltb_spec 0 k); destruct (Z.ltb_spec 0 (k - lexp k - 1)); lia.
Qed.
Lemma gden_pos k : 0 < gden k.
Proof.
  unfold gden. rewrite shiftl_mul by (unfold pos_part; destruct (Z.ltb_spec 0 (lexp k + 1 - k)); lia).
  apply Z.mul_pos_pos; apply Z.pow_pos_nonneg; try lia; unfold pos_part;
    destruct (Z.ltb_spec 0 (-k)); destruct (Z.ltb_spec 0 (lexp k + 1 - k)); lia.
Qed.

Lemma check_k_facts f k w :
  check_k (extended_precision f) (precision f) k (phi f k) w = true -> k_facts f k.
Proof.
  destruct w as [[[a b] c] d]. unfold check_k. cbv zeta.
  pose proof (gnum_pos k) as Hn. pose proof (gden_pos k) as Hd.
  assert (Hq : 0 <= 2 * extended_precision f) by (destruct f; cbn; lia).
  assert (Hu : 0 <= extended_precision f - precision f - 5) by (destruct f; cbn; lia).
  rewrite !shiftl_mul by assumption. fold (epm5 f).
  assert (HU : 0 < 2 ^ epm5 f) by (apply Z.pow_pos_nonneg; [lia | exact Hu]).
  assert (HQ : 0 < 2 ^ (2 * extended_precision f)) by (apply Z.pow_pos_nonneg; [lia | exact Hq]).
  rewrite !andb_true_iff. intros [[[[[[[[[H1 H2] H3] H4] H5] H6] H7] H8] H9] H10].
  apply Z.leb_le in H1, H3. apply Z.ltb_lt in H2, H4, H6, H7, H10. apply Z.eqb_eq in H9.
  revert H5 H8. set (n := gnum k) in *. set (dn := gden k) in *. set (ph := phi f k) in *.
  set (Q := 2 ^ (2 * extended_precision f)) in *. set (u := 2 ^ epm5 f) in *.
  intros H5 H8.
  destruct (Z.leb_spec 0 k) as [Hk|Hk].
  - apply andb_true_iff in H5. destruct H5 as [H5 H5']. apply andb_true_iff in H8. destruct H8 as [H8 H8'].
    apply Z.leb_le in H5, H8, H8'. apply Z.ltb_lt in H5'.
    constructor; fold n dn ph Q u; try lia.
    exists a, b, c, d. repeat split; try lia.
    + (* a dn Q <= b ph u dn <= b n Q u *)
      apply Z.mul_le_mono_pos_r with Q; [exact HQ|].
      replace (a * dn * Q) with (a * Q * dn) by ring.
      replace (b * (n * u) * Q) with (b * u * (n * Q)) by ring.
      transitivity (b * u * (ph * dn)); [nia|].
      apply Z.mul_le_mono_nonneg_l; [nia | exact H5].
    + apply Z.mul_lt_mono_pos_r with Q; [exact HQ|].
      replace (d * (n * u) * Q) with (d * u * (n * Q)) by ring.
      apply Z.lt_le_trans with (d * u * ((ph + 1) * dn)).
      * apply Z.mul_lt_mono_pos_l; [nia | lia].
      * nia.
  - apply andb_true_iff in H5. destruct H5 as [H5 H5']. apply andb_true_iff in H8. destruct H8 as [H8 H8'].
    apply Z.ltb_lt in H5, H8'. apply Z.leb_le in H5'.
    constructor; fold n dn ph Q u; try lia.
    assert (L1 : a * dn <= b * (n * u)).
    { apply orb_true_iff in H8. destruct H8 as [H8|H8]; apply Z.leb_le in H8; [|lia].
      apply Z.mul_le_mono_pos_r with Q; [exact HQ|].
      replace (a * dn * Q) with (a * Q * dn) by ring.
      replace (b * (n * u) * Q) with (b * u * (n * Q)) by ring.
      transitivity (b * u * ((ph - 1) * dn)); [nia|].
      apply Z.mul_le_mono_nonneg_l; [nia | lia]. }
    exists a, b, c, d. repeat split; try lia.
    + apply Z.mul_lt_mono_pos_r with Q; [exact HQ|].
      replace (d * (n * u) * Q) with (d * u * (n * Q)) by ring.
      apply Z.le_lt_trans with (d * u * (ph * dn)).
      * apply Z.mul_le_mono_nonneg_l; [nia | exact H5'].
      * nia.
    + apply Z.mul_le_mono_pos_r with dn; [exact Hd|].
      replace (a * Q * dn) with (a * dn * Q) by ring.
      transitivity (b * (n * u) * Q); [nia|].
      replace (b * (n * u) * Q) with (b * u * (n * Q)) by ring.
      replace (b * (ph * u) * dn) with (b * u * (ph * dn)) by ring.
      apply Z.mul_le_mono_nonneg_l; [nia | exact H5'].
Qed.

Lemma cache_float_length : length cache_float = 77%nat. Proof. reflexivity. Qed.
Lemma cache_double_length : length cache_double = 616%nat. Proof. reflexivity. Qed.

Lemma k_facts_all f k : min_k f <= k <= max_k f -> k_facts f k.
Proof.
  intros Hk. destruct f.
  - change (min_k Binary32) with (-30) in *. change (max_k Binary32) with 46 in *.
    pose proof (check_from_nth (check_k 32 23) 0 (0, 0, 0, 0) cache_float (-30) farey_float (k + 30)
                  check_all_float_true) as H.
    rewrite cache_float_length in H. specialize (H ltac:(lia)).
    replace (-30 + (k + 30)) with k in H by lia.
    eapply (check_k_facts Binary32).
    unfold phi, cache_val. change (min_k Binary32) with (-30).
    replace (k - -30) with (k + 30) by lia. exact H.
  - change (min_k Binary64) with (-290) in *. change (max_k Binary64) with 325 in *.
    pose proof (check_from_nth check_k_double
                  (0, 0) (0, 0, 0, 0) cache_double (-290) farey_double (k + 290)
                  check_all_double_true) as H.
    rewrite cache_double_length in H. specialize (H ltac:(lia)). unfold check_k_double in H.
    replace (-290 + (k + 290)) with k in H by lia.
    eapply (check_k_facts Binary64).
    unfold phi, cache_val. change (min_k Binary64) with (-290).
    replace (k - -290) with (k + 290) by lia.
    destruct (nth (Z.to_nat (k + 290)) cache_double (0, 0)) as [h l]; cbn [fst snd] in H.
    rewrite shiftl_mul in H by lia. exact H.
Qed.

(** ** Farey neighbours give equal floors *)

Lemma farey_floor a b c d n1 d1 n2 d2 m :
  0 < b -> 0 < d -> b * c - a * d = 1 -> 0 < d1 -> 0 < d2 ->
  a * d1 <= b * n1 -> d * n1 < c * d1 -> a * d2 <= b * n2 -> d * n2 < c * d2 ->
  0 <= m < b + d -> m * n1 / d1 <= m * n2 / d2.
Proof.
  intros Hb Hd Hdet Hd1 Hd2 L1 U1 L2 U2 Hm.
  destruct (Z.le_gt_cases (m * n1 / d1) (m * n2 / d2)) as [|G]; [assumption|exfalso].
  set (t := m * n1 / d1) in *.
  assert (T1 : t * d1 <= m * n1) by (unfold t; rewrite Z.mul_comm; apply Z.mul_div_le; lia).
  assert (T2 : m * n2 < t * d2).
  { apply Z.lt_le_trans with ((m * n2 / d2 + 1) * d2).
    - pose proof (Z.mul_succ_div_gt (m * n2) d2 Hd2). lia.
    - apply Z.mul_le_mono_nonneg_r; lia. }
  (* m a < t b *)
  assert (P1 : m * a < t * b).
  { apply Z.mul_lt_mono_pos_r with d2; [exact Hd2|].
    replace (m * a * d2) with (m * (a * d2)) by ring.
    apply Z.le_lt_trans with (m * (b * n2)).
    - apply Z.mul_le_mono_nonneg_l; lia.
    - replace (m * (b * n2)) with (b * (m * n2)) by ring.
      replace (t * b * d2) with (b * (t * d2)) by ring.
      apply Z.mul_lt_mono_pos_l; assumption. }
  (* t d < m c *)
  assert (P2 : t * d < m * c).
  { destruct (Z.eq_dec m 0) as [E|E].
    - exfalso. subst m. unfold t in *. rewrite !Z.mul_0_l, !Z.div_0_l in G by lia. lia.
    - apply Z.mul_lt_mono_pos_r with d1; [exact Hd1|].
      replace (t * d * d1) with (d * (t * d1)) by ring.
      apply Z.le_lt_trans with (d * (m * n1)).
      + apply Z.mul_le_mono_nonneg_l; lia.
      + replace (d * (m * n1)) with (m * (d * n1)) by ring.
        replace (m * c * d1) with (m * (c * d1)) by ring.
        apply Z.mul_lt_mono_pos_l; lia. }
  assert (M : m = b * (m * c - t * d) + d * (t * b - m * a)).
  { transitivity (m * (b * c - a * d)); [rewrite Hdet; ring | ring]. }
  assert (b * 1 <= b * (m * c - t * d)) by (apply Z.mul_le_mono_nonneg_l; lia).
  assert (d * 1 <= d * (t * b - m * a)) by (apply Z.mul_le_mono_nonneg_l; lia).
  lia.
Qed.

Lemma div_eq_cross a b c d : 0 < b -> 0 < d -> a * d = c * b -> a / b = c / d.
Proof.
  intros Hb Hd H.
  rewrite <- (Z.div_mul_cancel_r a b d) by lia. rewrite H, (Z.mul_comm b d).
  apply Z.div_mul_cancel_r; lia.
Qed.

(** ** The exact multiplier *)

Lemma pos_part_nonneg x : 0 <= pos_part x.
Proof. unfold pos_part; destruct (Z.ltb_spec 0 x); lia. Qed.
Lemma pos_part_diff x : pos_part x = x + pos_part (- x).
Proof. unfold pos_part; destruct (Z.ltb_spec 0 x); destruct (Z.ltb_spec 0 (- x)); lia. Qed.

Lemma anum_pos e k : 0 < anum e k.
Proof.
  unfold anum. apply Z.mul_pos_pos; apply Z.pow_pos_nonneg; try lia; apply pos_part_nonneg.
Qed.
Lemma aden_pos e k : 0 < aden e k.
Proof.
  unfold aden. apply Z.mul_pos_pos; apply Z.pow_pos_nonneg; try lia; apply pos_part_nonneg.
Qed.

(** 2^e 10^k = (10^k / 2^(lexp k + 1)) / 2^mb *)
Lemma multiplier_rel e k mb : 0 <= mb -> mb = - (e + lexp k + 1) ->
  anum e k * (gden k * 2 ^ mb) = gnum k * aden e k.
Proof.
  intros Hmb E. unfold anum, aden, gden, gnum.
  rewrite !shiftl_mul by apply pos_part_nonneg.
  set (x := pos_part (e + k)). set (x' := pos_part (- (e + k))).
  set (y := pos_part (lexp k + 1 - k)). set (y' := pos_part (k - lexp k - 1)).
  assert (Ex : x = e + k + x') by apply pos_part_diff.
  assert (Ey : y = lexp k + 1 - k + y').
  { unfold y, y'. rewrite pos_part_diff. do 2 f_equal; lia. }
  assert (0 <= x /\ 0 <= x' /\ 0 <= y /\ 0 <= y') by (repeat split; apply pos_part_nonneg).
  transitivity (5 ^ pos_part k * 5 ^ pos_part (- k) * (2 ^ x * 2 ^ y * 2 ^ mb)); [ring|].
  transitivity (5 ^ pos_part k * 5 ^ pos_part (- k) * (2 ^ y' * 2 ^ x')); [|ring].
  f_equal. rewrite <- !Z.pow_add_r by lia. f_equal. lia.
Qed.

(** Size of the smallest unit: operands are multiples of 2^(q-p-3). *)
Definition unit (f : fmt) : Z := 2 ^ (extended_precision f - precision f - 3).

Definition exp_min (f : fmt) := min_exponent f.
Definition exp_max (f : fmt) := max_exponent f.

(** per-exponent side conditions, one sweep *)
Definition check_e_basic (f : fmt) (e : Z) : bool :=
  (min_k f <=? kexp e) && (kexp e <=? max_k f) && (2 <=? mbexp e) && (mbexp e <=? 5).

Definition erange (f : fmt) : list Z :=
  map (fun i => exp_min f + Z.of_nat i) (seq 0 (Z.to_nat (exp_max f - exp_min f + 1))).

Lemma erange_in f e : exp_min f <= e <= exp_max f -> In e (erange f).
Proof.
  intros H. unfold erange. apply in_map_iff. exists (Z.to_nat (e - exp_min f)).
  split; [lia|]. apply in_seq. lia.
Qed.

Lemma sweep f (P : Z -> bool) e : forallb P (erange f) = true -> exp_min f <= e <= exp_max f -> P e = true.
Proof. intros H He. apply (proj1 (forallb_forall P (erange f)) H). apply erange_in; exact He. Qed.

Lemma check_e_basic_float : forallb (check_e_basic Binary32) (erange Binary32) = true.
Proof. vm_cast_no_check (eq_refl true). Qed.
Lemma check_e_basic_double : forallb (check_e_basic Binary64) (erange Binary64) = true.
Proof. vm_cast_no_check (eq_refl true). Qed.

Lemma e_basic f e : exp_min f <= e <= exp_max f ->
  min_k f <= kexp e <= max_k f /\ 2 <= mbexp e <= 5.
Proof.
  intros He.
  assert (H : check_e_basic f e = true).
  { destruct f; [apply (sweep Binary32 _ _ check_e_basic_float He)
                | apply (sweep Binary64 _ _ check_e_basic_double He)]. }
  unfold check_e_basic in H. rewrite !andb_true_iff, !Z.leb_le in H. lia.
Qed.

(** The truncated product with the cached multiplier is the exact floor. *)
Theorem mul_floor_exact f e m :
  exp_min f <= e <= exp_max f -> 0 <= m <= 2 ^ (precision f + 4) ->
  m * unit f * phi f (kexp e) / 2 ^ (2 * extended_precision f + mbexp e)
  = m * unit f * anum e (kexp e) / aden e (kexp e).
Proof.
  intros He Hm. destruct (e_basic f e He) as [Hk Hmb].
  pose proof (k_facts_all f _ Hk) as KF.
  set (k := kexp e) in *. set (mb := mbexp e) in *.
  pose proof (gnum_pos k). pose proof (gden_pos k). pose proof (anum_pos e k). pose proof (aden_pos e k).
  assert (HQ : 0 < 2 ^ (2 * extended_precision f)) by (destruct f; reflexivity).
  assert (Hq : 0 <= 2 * extended_precision f) by (destruct f; discriminate).
  assert (Hu : unit f = 4 * 2 ^ epm5 f) by (destruct f; reflexivity).
  assert (Hs : 2 ^ mb = 4 * 2 ^ (mb - 2)).
  { change 4 with (2 ^ 2). rewrite <- Z.pow_add_r by lia. f_equal; lia. }
  assert (Hs0 : 0 < 2 ^ (mb - 2)) by (apply Z.pow_pos_nonneg; lia).
  (* left side *)
  assert (EL : m * unit f * phi f k / 2 ^ (2 * extended_precision f + mb)
          = (m * (phi f k * 2 ^ epm5 f) / 2 ^ (2 * extended_precision f)) / 2 ^ (mb - 2)).
  { rewrite div_div by assumption. apply div_eq_cross.
    - apply Z.pow_pos_nonneg; lia.
    - apply Z.mul_pos_pos; assumption.
    - rewrite Z.pow_add_r by lia. rewrite Hu, Hs. ring. }
  assert (ER : m * unit f * anum e k / aden e k
          = (m * (gnum k * 2 ^ epm5 f) / gden k) / 2 ^ (mb - 2)).
  { rewrite div_div by assumption. apply div_eq_cross.
    - assumption.
    - apply Z.mul_pos_pos; assumption.
    - pose proof (multiplier_rel e k mb ltac:(lia) eq_refl) as R.
      rewrite Hs in R. rewrite Hu.
      replace (m * (4 * 2 ^ epm5 f) * anum e k * (gden k * 2 ^ (mb - 2)))
        with (m * 2 ^ epm5 f * (anum e k * (gden k * (4 * 2 ^ (mb - 2))))) by ring.
      rewrite R. ring. }
  rewrite EL, ER. f_equal.
  destruct (kf_farey _ _ KF) as (a & b & c & d & Hb & Hd & Hdet & HN & F1 & F2 & F3 & F4).
  apply Z.le_antisymm; apply (farey_floor a b c d); try assumption; lia.
Qed.

(** Multiplier between 2^-6 and 2^-2. *)
Lemma multiplier_bounds f e : exp_min f <= e <= exp_max f ->
  aden e (kexp e) <= 64 * anum e (kexp e) /\ 4 * anum e (kexp e) < aden e (kexp e).
Proof.
  intros He. destruct (e_basic f e He) as [Hk Hmb].
  pose proof (k_facts_all f _ Hk) as KF.
  pose proof (multiplier_rel e (kexp e) (mbexp e) ltac:(lia) eq_refl) as R.
  pose proof (kf_half _ _ KF). pose proof (kf_one _ _ KF).
  pose proof (gnum_pos (kexp e)). pose proof (gden_pos (kexp e)).
  pose proof (anum_pos e (kexp e)). pose proof (aden_pos e (kexp e)).
  assert (4 <= 2 ^ mbexp e <= 32).
  { split; [change 4 with (2 ^ 2) | change 32 with (2 ^ 5)]; apply Z.pow_le_mono_r; lia. }
  set (A := anum e (kexp e)) in *. set (B := aden e (kexp e)) in *.
  set (n := gnum (kexp e)) in *. set (dn := gden (kexp e)) in *.
  set (P := 2 ^ mbexp e) in *. clearbody A B n dn P.
  split.
  - (* B n = A dn P <= A * 2n * 32 *)
    apply Z.mul_le_mono_pos_l with n; [assumption|]. rewrite <- R.
    transitivity (A * (2 * n * 32)); [|lia].
    apply Z.mul_le_mono_nonneg_l; [lia|]. apply Z.mul_le_mono_nonneg; lia.
  - apply Z.mul_lt_mono_pos_l with n; [assumption|]. rewrite <- R.
    apply Z.lt_le_trans with (A * (dn * 4)).
    + replace (n * (4 * A)) with (A * (n * 4)) by ring. apply Z.mul_lt_mono_pos_l; lia.
    + apply Z.mul_le_mono_nonneg_l; [lia|]. apply Z.mul_le_mono_nonneg_l; lia.
Qed.
