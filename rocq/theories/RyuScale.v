(** * Ryu's scaling step: one sweep over the binary exponents

    [rq], [rS], [rD]: the number of digits removed at once and the factor S/D, which is 2^e2 / 10^e10. *)

From Coq Require Import ZArith List Bool Lia.
From Verif Require Import Machine Model CharsModel RyuTables RyuModel RyuFarey Arith ExpFacts.
Import ListNotations.
Open Scope Z_scope.

Definition rq (f : fmt) (e2 : Z) : Z :=
  if 0 <=? e2 then e2 * 78913 / 2 ^ 18 - (match f with Binary64 => b2z (3 <? e2) | Binary32 => 0 end)
  else - e2 * 732923 / 2 ^ 20 - (match f with Binary64 => b2z (1 <? - e2) | Binary32 => 0 end).
Definition rS (f : fmt) (e2 : Z) : Z := if 0 <=? e2 then 2 ^ (e2 - rq f e2) else 5 ^ (- e2 - rq f e2).
Definition rD (f : fmt) (e2 : Z) : Z := if 0 <=? e2 then 5 ^ rq f e2 else 2 ^ rq f e2.
(** the last removed digit is not needed *)
Definition wide (e2 S D : Z) : bool := (11 * D <=? 3 * S) || (e2 =? - 151) && (11 * D <=? 4 * S).

Definition witness_ok (w : Z * Z * Z * Z) (S D F J N : Z) : bool :=
  let '(a, b, c, d) := w in
  (0 <? b) && (0 <? d) && (b * c - a * d =? 1) && (0 <? D) && (0 <=? J) &&
  (a * D <=? b * S) && (d * S <? c * D) && (a * 2 ^ J <=? b * F) && (d * F <? c * 2 ^ J) && (N <? b + d).

Lemma witness_floor w S D F J N : witness_ok w S D F J N = true -> forall m, 0 <= m <= N -> m * F / 2 ^ J = m * S / D.
Proof.
  destruct w as [[[a b] c] d]. unfold witness_ok. rewrite !andb_true_iff, !Z.ltb_lt, !Z.leb_le, Z.eqb_eq.
  intros (((((((((H1 & H2) & H3) & H4) & H5) & H6) & H7) & H8) & H9) & H10) m Hm.
  assert (0 < 2 ^ J) by (apply Z.pow_pos_nonneg; lia).
  apply Z.le_antisymm; apply (farey_floor a b c d); lia.
Qed.

Fixpoint sweep {A} (check : Z -> A -> bool) (e : Z) (l : list A) : bool :=
  match l with [] => true | w :: l => check e w && sweep check (e + 1) l end.
Lemma sweep_at {A} (check : Z -> A -> bool) : forall l e0 e, sweep check e0 l = true -> e0 <= e < e0 + Z.of_nat (length l) -> exists w, check e w = true.
Proof.
  induction l as [|w l IH]; intros e0 e H He; cbn [sweep length] in *; [lia|].
  apply andb_prop in H. destruct H as [H1 H2]. destruct (Z.eq_dec e e0) as [->|]; [exists w; exact H1|].
  apply (IH (e0 + 1)); [exact H2|lia].
Qed.

(** ** Doubles *)

Definition build (nd table : bool) : ryu_config := mk_ryu (mk_config MulInt128 CtzBuiltin true nd) false table.

(** what is known of a multiplier [mul] and a shift [j] *)
Definition d_good (e2 : Z) (mul : Z * Z) (j : Z) (w : Z * Z * Z * Z) : bool :=
  let S := rS Binary64 e2 in let D := rD Binary64 e2 in let F := snd mul * 2 ^ 64 + fst mul in
  (0 <=? fst mul) && (fst mul <? 2 ^ 64) && (0 <=? snd mul) && (snd mul <? 2 ^ 62) && (65 <? j) && (j <? 128) &&
  ((2 ^ 55 + 2) * S / D <? 2 ^ 64) && ((2 ^ 53 * F / 2 ^ 64) mod 2 ^ 64 <? 2 ^ 64 - 1) &&
  (D <=? S) && ((rq Binary64 e2 =? 0) || (4 * D <=? S)) && (0 <=? rq Binary64 e2) && (rq Binary64 e2 <? 1000) &&
  witness_ok w S D F j (2 ^ 55 + 2).

Record d_facts (e2 : Z) (mul : Z * Z) (j : Z) : Prop := {
  df_lo : 0 <= fst mul < 2 ^ 64; df_hi : 0 <= snd mul < 2 ^ 62; df_j : 65 < j < 128;
  df_top : (2 ^ 55 + 2) * rS Binary64 e2 / rD Binary64 e2 < 2 ^ 64;
  df_ones : (2 ^ 53 * (snd mul * 2 ^ 64 + fst mul) / 2 ^ 64) mod 2 ^ 64 < 2 ^ 64 - 1;
  df_SD : rD Binary64 e2 <= rS Binary64 e2; df_wide : rq Binary64 e2 = 0 \/ 4 * rD Binary64 e2 <= rS Binary64 e2;
  df_q : 0 <= rq Binary64 e2 < 1000;
  df_floor : forall m, 0 <= m <= 2 ^ 55 + 2 -> m * (snd mul * 2 ^ 64 + fst mul) / 2 ^ j = m * rS Binary64 e2 / rD Binary64 e2 }.

Lemma d_good_facts e2 mul j w : d_good e2 mul j w = true -> d_facts e2 mul j.
Proof.
  unfold d_good. cbv zeta. rewrite !andb_true_iff, orb_true_iff, !Z.ltb_lt, !Z.leb_le, Z.eqb_eq. intros H.
  constructor; try tauto. apply (witness_floor w). tauto.
Qed.


(** Most exponents need no product with the large powers: the tables bound the factor by [lo/2^j] and [hi/2^j]. *)
Definition d_quick (e2 : Z) (mul : Z * Z) (j : Z) (w : Z * Z * Z * Z) (lo hi : Z) : bool :=
  let F := snd mul * 2 ^ 64 + fst mul in let P := 2 ^ j in let '(a, b, c, d) := w in
  (0 <=? fst mul) && (fst mul <? 2 ^ 64) && (0 <=? snd mul) && (snd mul <? 2 ^ 62) && (65 <? j) && (j <? 128) &&
  ((2 ^ 55 + 2) * hi <=? 2 ^ 64 * P) && ((2 ^ 53 * F / 2 ^ 64) mod 2 ^ 64 <? 2 ^ 64 - 1) &&
  (P <=? lo) && ((rq Binary64 e2 =? 0) || (4 * P <=? lo)) && (0 <=? rq Binary64 e2) && (rq Binary64 e2 <? 1000) &&
  (0 <? b) && (0 <? d) && (b * c - a * d =? 1) && (P * a <=? b * lo) && (d * hi <=? P * c) &&
  (P * a <=? b * F) && (d * F <? P * c) && (2 ^ 55 + 2 <? b + d).
Lemma d_quick_facts e2 mul j w lo hi : 0 < rD Binary64 e2 ->
  lo * rD Binary64 e2 <= rS Binary64 e2 * 2 ^ j < hi * rD Binary64 e2 -> d_quick e2 mul j w lo hi = true -> d_facts e2 mul j.
Proof.
  intros HD HB. unfold d_quick. destruct w as [[[a b] c] d]. cbv zeta. rewrite !andb_true_iff, orb_true_iff, !Z.ltb_lt, !Z.leb_le, !Z.eqb_eq.
  set (F := snd mul * 2 ^ 64 + fst mul) in *. intros H.
  do 18 (let H1 := fresh "C" in destruct H as [H H1]).
  set (P := 2 ^ j) in *. set (S := rS Binary64 e2) in *. set (D := rD Binary64 e2) in *.
  assert (HP : 0 < P) by (apply Z.pow_pos_nonneg; lia). assert (HlD : P * D <= lo * D) by (apply Z.mul_le_mono_nonneg_r; lia).
  constructor; fold F; fold S; fold D; try lia.
  - apply Z.div_lt_upper_bound; [exact HD|]. apply (Z.mul_lt_mono_pos_r P); [exact HP|]. nia.
  - apply (Z.mul_le_mono_pos_r _ _ P); [exact HP|]. lia.
  - destruct C9 as [Q|Q]; [left; exact Q|right]. apply (Z.mul_le_mono_pos_r _ _ P); [exact HP|]. nia.
  - fold P. intros m Hm. apply Z.le_antisymm; apply (farey_floor a b c d); try lia; nia.
Qed.

Definition five_bits (q : Z) : Z := q * 1217359 / 2 ^ 19 + 1.
Fixpoint inv_table_ok (q p : Z) (t : list (Z * Z)) : bool :=
  match t with
  | [] => true
  | (l, h) :: t =>
      let F := h * 2 ^ 64 + l in let P := 2 ^ (124 + five_bits q) in
      ((F - 1) * p <=? P) && (P <? F * p) && inv_table_ok (q + 1) (5 * p) t
  end.
Fixpoint pow_table_ok (i p : Z) (t : list (Z * Z)) : bool :=
  match t with
  | [] => true
  | (l, h) :: t =>
      let F := h * 2 ^ 64 + l in let n := five_bits i - 125 in
      (if 0 <=? n then (2 ^ n * F <=? p) && (p <? 2 ^ n * (F + 1)) else F =? 2 ^ (- n) * p) && pow_table_ok (i + 1) (5 * p) t
  end.
Lemma inv_table : inv_table_ok 0 1 DOUBLE_POW5_INV_SPLIT = true.
Proof. vm_cast_no_check (eq_refl true). Qed.
Lemma pow_table : pow_table_ok 0 1 DOUBLE_POW5_SPLIT = true.
Proof. vm_cast_no_check (eq_refl true). Qed.
Lemma inv_table_nth t : forall q p n mul, inv_table_ok q p t = true -> nth_error t n = Some mul ->
  let F := snd mul * 2 ^ 64 + fst mul in
  (F - 1) * (p * 5 ^ Z.of_nat n) <= 2 ^ (124 + five_bits (q + Z.of_nat n)) < F * (p * 5 ^ Z.of_nat n).
Proof.
  induction t as [|[l h] t IH]; intros q p n mul H E; [destruct n; discriminate|]. cbn [inv_table_ok] in H. cbv zeta in H.
  rewrite !andb_true_iff, Z.leb_le, Z.ltb_lt in H. destruct H as [[H1 H2] H]. destruct n as [|n]; cbn [nth_error] in E.
  - injection E as <-. cbn [fst snd]. change (Z.of_nat 0) with 0. rewrite Z.add_0_r, Z.pow_0_r, Z.mul_1_r. lia.
  - specialize (IH _ _ _ _ H E). cbv zeta in IH |- *. rewrite Nat2Z.inj_succ, <- Z.add_1_l, Z.pow_add_r by lia.
    rewrite Z.add_assoc. replace (p * (5 ^ 1 * 5 ^ Z.of_nat n)) with (5 * p * 5 ^ Z.of_nat n) by (change (5 ^ 1) with 5; ring). exact IH.
Qed.
Lemma pow_table_nth t : forall i p n mul, pow_table_ok i p t = true -> nth_error t n = Some mul ->
  let F := snd mul * 2 ^ 64 + fst mul in let s := five_bits (i + Z.of_nat n) - 125 in
  if 0 <=? s then 2 ^ s * F <= p * 5 ^ Z.of_nat n < 2 ^ s * (F + 1) else F = 2 ^ (- s) * (p * 5 ^ Z.of_nat n).
Proof.
  induction t as [|[l h] t IH]; intros q p n mul H E; [destruct n; discriminate|]. cbn [pow_table_ok] in H. cbv zeta in H.
  apply andb_prop in H. destruct H as [H1 H]. destruct n as [|n]; cbn [nth_error] in E.
  - injection E as <-. cbn [fst snd]. change (Z.of_nat 0) with 0. rewrite Z.add_0_r, Z.pow_0_r, Z.mul_1_r.
    destruct (0 <=? five_bits q - 125); [apply andb_prop in H1; rewrite Z.leb_le, Z.ltb_lt in H1; exact H1 | apply Z.eqb_eq in H1; exact H1].
  - specialize (IH _ _ _ _ H E). cbv zeta in IH |- *. rewrite Nat2Z.inj_succ, <- Z.add_1_l, Z.pow_add_r by lia.
    rewrite Z.add_assoc. replace (p * (5 ^ 1 * 5 ^ Z.of_nat n)) with (5 * p * 5 ^ Z.of_nat n) by (change (5 ^ 1) with 5; ring). exact IH.
Qed.
Lemma inv_entry q mul : 0 <= q -> read_array DOUBLE_POW5_INV_SPLIT q = Ok mul ->
  let F := snd mul * 2 ^ 64 + fst mul in (F - 1) * 5 ^ q <= 2 ^ (124 + five_bits q) < F * 5 ^ q.
Proof.
  intros Hq. unfold read_array. destruct (q <? 0); [discriminate|]. destruct (nth_error _ _) eqn:E; [|discriminate]. intros H; injection H as ->.
  pose proof (inv_table_nth _ _ _ _ _ inv_table E) as T. rewrite Z2Nat.id, Z.add_0_l, Z.mul_1_l in T by exact Hq. exact T.
Qed.
Lemma pow_entry i mul : 0 <= i -> read_array DOUBLE_POW5_SPLIT i = Ok mul ->
  let F := snd mul * 2 ^ 64 + fst mul in let n := five_bits i - 125 in
  if 0 <=? n then 2 ^ n * F <= 5 ^ i < 2 ^ n * (F + 1) else F = 2 ^ (- n) * 5 ^ i.
Proof.
  intros Hq. unfold read_array. destruct (i <? 0); [discriminate|]. destruct (nth_error _ _) eqn:E; [|discriminate]. intros H; injection H as ->.
  pose proof (pow_table_nth _ _ _ _ _ pow_table E) as T. cbv zeta in T. rewrite Z2Nat.id, Z.add_0_l, Z.mul_1_l in T by exact Hq. exact T.
Qed.

Definition d_check (e2 : Z) (w : Z * Z * Z * Z) : bool :=
  if 0 <=? e2 then
    match d2d_inv_scale (build false false) e2 with
    | Ok (q, j) => (q =? rq Binary64 e2) && (j =? q - e2 + 124 + five_bits q) && (0 <=? q) && (q <=? e2) &&
        match read_array DOUBLE_POW5_INV_SPLIT q with
        | Ok mul => let F := snd mul * 2 ^ 64 + fst mul in if d_quick e2 mul j w (F - 1) F then true else d_good e2 mul j w
        | _ => false
        end
    | _ => false
    end
  else
    match d2d_pow_scale (build false false) e2 with
    | Ok (q, i, j) => (q =? rq Binary64 e2) && (i =? - e2 - q) && (0 <=? i) && (j =? q - five_bits i + 125) && (0 <=? q) &&
        match read_array DOUBLE_POW5_SPLIT i with
        | Ok mul => let F := snd mul * 2 ^ 64 + fst mul in if d_quick e2 mul j w F (F + 1) then true else d_good e2 mul j w
        | _ => false
        end
    | _ => false
    end.
Lemma d_sweep : sweep d_check (-1076) ryu_double = true.
Proof. vm_cast_no_check (eq_refl true). Qed.
Lemma ryu_double_length : Z.of_nat (length ryu_double) = 2046.
Proof. reflexivity. Qed.

(** a build without assertions computes what a build with assertions computes *)
Lemma build_inv rc e2 v : d2d_inv_scale (build false false) e2 = Ok v -> d2d_inv_scale rc e2 = Ok v.
Proof.
  destruct rc as [[m c x nd] r t]. destruct nd; [|exact id].
  unfold d2d_inv_scale, log10Pow2, pow5bits, cassert. cbn [build ry_config cfg_ndebug].
  do 2 (destruct (_ <=? _); [|discriminate]; cbn [bind]). cbv zeta. do 2 (destruct (_ <=? _); [|discriminate]; cbn [bind]). exact id.
Qed.
Lemma build_pow rc e2 v : d2d_pow_scale (build false false) e2 = Ok v -> d2d_pow_scale rc e2 = Ok v.
Proof.
  destruct rc as [[m c x nd] r t]. destruct nd; [|exact id].
  unfold d2d_pow_scale, log10Pow5, pow5bits, cassert. cbn [build ry_config cfg_ndebug].
  do 2 (destruct (_ <=? _); [|discriminate]; cbn [bind]). cbv zeta. destruct (int_sum _ _) as [i| | |]; cbn [bind]; try discriminate.
  do 2 (destruct (_ <=? _); [|discriminate]; cbn [bind]). exact id.
Qed.
Lemma rD_pos f e2 : 0 <= rq f e2 -> 0 < rD f e2.
Proof. intros H. unfold rD. destruct (0 <=? e2); apply Z.pow_pos_nonneg; lia. Qed.

Lemma d_inv_facts rc e2 : 0 <= e2 <= 969 -> exists mul j,
  d2d_inv_scale rc e2 = Ok (rq Binary64 e2, j) /\ read_array DOUBLE_POW5_INV_SPLIT (rq Binary64 e2) = Ok mul /\ d_facts e2 mul j.
Proof.
  intros He. destruct (sweep_at _ _ _ e2 d_sweep) as [w H]; [rewrite ryu_double_length; lia|].
  unfold d_check in H. rewrite (proj2 (Z.leb_le 0 e2)) in H by lia.
  destruct (d2d_inv_scale _ e2) as [[q j]| | |] eqn:E; try discriminate. apply (build_inv rc) in E.
  rewrite !andb_true_iff, !Z.eqb_eq, !Z.leb_le in H. destruct H as [[[[H1 H2] H3] H4] H]. subst q.
  destruct (read_array _ _) as [mul| | |] eqn:E2; try discriminate.
  exists mul, j. split; [exact E|]. split; [reflexivity|]. cbv zeta in H. destruct (d_quick _ _ _ _ _ _) eqn:Q; [|exact (d_good_facts _ _ _ _ H)].
  apply (d_quick_facts e2 mul j w _ _ (rD_pos Binary64 e2 H3)) in Q; [exact Q|].
  unfold rS, rD. rewrite (proj2 (Z.leb_le 0 e2)) by lia. pose proof (inv_entry _ _ H3 E2) as T. cbv zeta in T.
  assert (J : 0 <= j) by (unfold d_quick in Q; destruct w as [[[a b] c] d]; rewrite !andb_true_iff, Z.ltb_lt in Q; lia).
  rewrite <- Z.pow_add_r by lia. replace (e2 - rq Binary64 e2 + j) with (124 + five_bits (rq Binary64 e2)) by lia. exact T.
Qed.
Lemma d_pow_facts rc e2 : - 1076 <= e2 < 0 -> exists mul j,
  d2d_pow_scale rc e2 = Ok (rq Binary64 e2, - e2 - rq Binary64 e2, j) /\ 0 <= - e2 - rq Binary64 e2 /\
  read_array DOUBLE_POW5_SPLIT (- e2 - rq Binary64 e2) = Ok mul /\ d_facts e2 mul j.
Proof.
  intros He. destruct (sweep_at _ _ _ e2 d_sweep) as [w H]; [rewrite ryu_double_length; lia|].
  unfold d_check in H. rewrite (proj2 (Z.leb_gt 0 e2)) in H by lia.
  destruct (d2d_pow_scale _ e2) as [[[q i] j]| | |] eqn:E; try discriminate. apply (build_pow rc) in E.
  rewrite !andb_true_iff, !Z.eqb_eq, !Z.leb_le in H. destruct H as [[[[[H1 H2] H3] H4] H5] H]. subst i q.
  destruct (read_array _ _) as [mul| | |] eqn:E2; try discriminate.
  exists mul, j. split; [exact E|]. split; [exact H3|]. split; [reflexivity|]. cbv zeta in H. destruct (d_quick _ _ _ _ _ _) eqn:Q; [|exact (d_good_facts _ _ _ _ H)].
  apply (d_quick_facts e2 mul j w _ _ (rD_pos Binary64 e2 H5)) in Q; [exact Q|].
  unfold rS, rD. rewrite (proj2 (Z.leb_gt 0 e2)) by lia. pose proof (pow_entry _ _ H3 E2) as T. cbv zeta in T.
  assert (J : 0 <= j) by (unfold d_quick in Q; destruct w as [[[a b] c] d]; rewrite !andb_true_iff, Z.ltb_lt in Q; lia).
  set (F := snd mul * 2 ^ 64 + fst mul) in *. set (i := - e2 - rq Binary64 e2) in *. set (q := rq Binary64 e2) in *.
  destruct (Z.leb_spec 0 (five_bits i - 125)).
  - assert (2 ^ q = 2 ^ j * 2 ^ (five_bits i - 125)) as -> by (rewrite <- Z.pow_add_r by lia; f_equal; lia).
    assert (0 < 2 ^ j) by (apply Z.pow_pos_nonneg; lia). nia.
  - assert (2 ^ j = 2 ^ q * 2 ^ (- (five_bits i - 125))) as -> by (rewrite <- Z.pow_add_r by lia; f_equal; lia).
    assert (0 < 2 ^ q) by (apply Z.pow_pos_nonneg; lia). nia.
Qed.

(** ** Floats *)

Definition f_good (e2 F j : Z) (w : Z * Z * Z * Z) : bool :=
  let S := rS Binary32 e2 in let D := rD Binary32 e2 in
  (0 <=? F) && (F <? 2 ^ 64) && (32 <? j) && (j <? 64) && ((2 ^ 26 + 2) * S / D <? 2 ^ 32) &&
  (D <=? S) && (0 <=? rq Binary32 e2) && (rq Binary32 e2 <? 1000) && witness_ok w S D F j (2 ^ 26 + 2).
Definition f_good_last (e2 F j : Z) (w : Z * Z * Z * Z) : bool :=
  let S := rS Binary32 e2 in let D := rD Binary32 e2 in
  (0 <=? F) && (F <? 2 ^ 64) && (32 <? j) && (j <? 64) && (2 ^ 24 * (40 * S) / D <? 2 ^ 32) &&
  witness_ok w (40 * S) D (4 * F) j (2 ^ 24).
Definition f_check (rc : ryu_config) (e2 : Z) (w : (Z * Z * Z * Z) * (Z * Z * Z * Z)) : bool :=
  let wd := (rq Binary32 e2 =? 0) || wide e2 (rS Binary32 e2) (rD Binary32 e2) in
  if 0 <=? e2 then
    match f2d_inv_scale rc e2 with
    | Ok (q, j) => (q =? rq Binary32 e2) &&
        match inv_factor rc q with Ok F => f_good e2 F j (fst w) | _ => false end &&
        (if wd then true else match f2d_inv_last rc e2 q with
               | Ok j => match inv_factor rc (wrap 32 (q - 1)) with Ok F => f_good_last e2 F j (snd w) | _ => false end
               | _ => false
               end)
    | _ => false
    end
  else
    match f2d_pow_scale rc e2 with
    | Ok (q, i, j) => (q =? rq Binary32 e2) && (i =? - e2 - q) && (0 <=? i) && (i <? 1000) &&
        match pow_factor rc i with Ok F => f_good e2 F j (fst w) | _ => false end &&
        (if wd then true else match f2d_pow_last rc q i with
               | Ok (i1, j) => (0 <=? i1) && (i1 <? 1000) &&
                   match pow_factor rc i1 with Ok F => f_good_last e2 F j (snd w) | _ => false end
               | _ => false
               end)
    | _ => false
    end.

Lemma f_sweep nd table : sweep (f_check (build nd table)) (-151) (combine ryu_float ryu_float_last) = true.
Proof. destruct nd, table; vm_cast_no_check (eq_refl true). Qed.
Lemma ryu_float_length : Z.of_nat (length (combine ryu_float ryu_float_last)) = 254.
Proof. reflexivity. Qed.

Lemma build_check rc e2 w : f_check rc e2 w = f_check (build (cfg_ndebug (ry_config rc)) (ry_float_table rc)) e2 w.
Proof. destruct rc as [[m c x nd] r t]. reflexivity. Qed.

Record f_facts (e2 F j : Z) : Prop := {
  ff_F : 0 <= F < 2 ^ 64; ff_j : 32 < j < 64;
  ff_top : (2 ^ 26 + 2) * rS Binary32 e2 / rD Binary32 e2 < 2 ^ 32;
  ff_SD : rD Binary32 e2 <= rS Binary32 e2; ff_q : 0 <= rq Binary32 e2 < 1000;
  ff_floor : forall m, 0 <= m <= 2 ^ 26 + 2 -> m * F / 2 ^ j = m * rS Binary32 e2 / rD Binary32 e2 }.
Record f_facts_last (e2 F j : Z) : Prop := {
  fl_F : 0 <= F < 2 ^ 64; fl_j : 32 < j < 64;
  fl_top : 2 ^ 24 * (40 * rS Binary32 e2) / rD Binary32 e2 < 2 ^ 32;
  fl_floor : forall m, 0 <= m <= 2 ^ 24 -> m * (4 * F) / 2 ^ j = m * (40 * rS Binary32 e2) / rD Binary32 e2 }.

Lemma f_good_facts e2 F j w : f_good e2 F j w = true -> f_facts e2 F j.
Proof.
  unfold f_good. cbv zeta. rewrite !andb_true_iff, !Z.ltb_lt, !Z.leb_le. intros H.
  constructor; try tauto. apply (witness_floor w). tauto.
Qed.
Lemma f_good_last_facts e2 F j w : f_good_last e2 F j w = true -> f_facts_last e2 F j.
Proof.
  unfold f_good_last. cbv zeta. rewrite !andb_true_iff, !Z.ltb_lt, !Z.leb_le. intros H.
  constructor; try tauto. apply (witness_floor w). tauto.
Qed.

Definition needs_last (e2 : Z) : Prop := rq Binary32 e2 <> 0 /\ wide e2 (rS Binary32 e2) (rD Binary32 e2) = false.
Lemma not_needed e2 (b : bool) : (if (rq Binary32 e2 =? 0) || wide e2 (rS Binary32 e2) (rD Binary32 e2) then true else b) = true -> needs_last e2 -> b = true.
Proof. intros H [H1 H2]. rewrite H2, orb_false_r in H. apply Z.eqb_neq in H1. rewrite H1 in H. exact H. Qed.

Lemma f_inv_facts rc e2 : 0 <= e2 <= 102 -> exists F j,
  f2d_inv_scale rc e2 = Ok (rq Binary32 e2, j) /\ inv_factor rc (rq Binary32 e2) = Ok F /\ f_facts e2 F j /\
  (needs_last e2 -> exists F j, f2d_inv_last rc e2 (rq Binary32 e2) = Ok j /\ inv_factor rc (wrap 32 (rq Binary32 e2 - 1)) = Ok F /\
     f_facts_last e2 F j).
Proof.
  intros He. destruct (sweep_at _ _ _ e2 (f_sweep (cfg_ndebug (ry_config rc)) (ry_float_table rc))) as [w H]; [rewrite ryu_float_length; lia|].
  rewrite <- build_check in H. unfold f_check in H. cbv zeta in H. rewrite (proj2 (Z.leb_le 0 e2)) in H by lia.
  destruct (f2d_inv_scale rc e2) as [[q j]| | |] eqn:E; try discriminate.
  apply andb_prop in H. destruct H as [H HL]. apply andb_prop in H. destruct H as [H1 H]. apply Z.eqb_eq in H1. subst q.
  destruct (inv_factor rc (rq Binary32 e2)) as [F| | |] eqn:E2; try discriminate.
  exists F, j. split; [reflexivity|]. split; [reflexivity|]. split; [exact (f_good_facts _ _ _ _ H)|].
  intros N. apply not_needed in HL; [|exact N]. destruct (f2d_inv_last rc e2 _) as [j'| | |]; try discriminate.
  destruct (inv_factor rc (wrap 32 _)) as [F'| | |]; try discriminate. exists F', j'. split; [reflexivity|]. split; [reflexivity|].
  exact (f_good_last_facts _ _ _ _ HL).
Qed.
Lemma f_pow_facts rc e2 : - 151 <= e2 < 0 -> exists F j,
  f2d_pow_scale rc e2 = Ok (rq Binary32 e2, - e2 - rq Binary32 e2, j) /\ 0 <= - e2 - rq Binary32 e2 < 1000 /\
  pow_factor rc (- e2 - rq Binary32 e2) = Ok F /\ f_facts e2 F j /\
  (needs_last e2 -> exists i1 F j, f2d_pow_last rc (rq Binary32 e2) (- e2 - rq Binary32 e2) = Ok (i1, j) /\ 0 <= i1 < 1000 /\
     pow_factor rc i1 = Ok F /\ f_facts_last e2 F j).
Proof.
  intros He. destruct (sweep_at _ _ _ e2 (f_sweep (cfg_ndebug (ry_config rc)) (ry_float_table rc))) as [w H]; [rewrite ryu_float_length; lia|].
  rewrite <- build_check in H. unfold f_check in H. cbv zeta in H. rewrite (proj2 (Z.leb_gt 0 e2)) in H by lia.
  destruct (f2d_pow_scale rc e2) as [[[q i] j]| | |] eqn:E; try discriminate.
  apply andb_prop in H. destruct H as [H HL]. rewrite !andb_true_iff, !Z.eqb_eq, Z.leb_le, Z.ltb_lt in H. destruct H as [[[[H1 H2] H3] H4] H]. subst i q.
  destruct (pow_factor rc (- e2 - _)) as [F| | |] eqn:E2; try discriminate.
  exists F, j. split; [reflexivity|]. split; [lia|]. split; [reflexivity|]. split; [exact (f_good_facts _ _ _ _ H)|].
  intros N. apply not_needed in HL; [|exact N]. destruct (f2d_pow_last rc _ _) as [[i1 j']| | |]; try discriminate.
  rewrite !andb_true_iff, Z.leb_le, Z.ltb_lt in HL. destruct HL as [[H5 H6] HL].
  destruct (pow_factor rc i1) as [F'| | |] eqn:E3; try discriminate. exists i1, F', j'.
  split; [reflexivity|]. split; [lia|]. split; [exact E3|]. exact (f_good_last_facts _ _ _ _ HL).
Qed.
