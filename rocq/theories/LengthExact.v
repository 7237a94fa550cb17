(** * Which rows of verify_cache_length give enough bits *)

From Coq Require Import ZArith List Bool Lia.
From Verif Require Import Machine Model Arith Products LengthModel LengthTables LengthCerts LengthNum LengthCheck LengthSpec LengthShort Lengths LengthClaims BigClaims.
Import ListNotations.
Open Scope Z_scope.

(** ** k < 0: the fraction next above 2^x / b decides *)
Lemma neighbours N x b S c s u t w : 0 <= x -> 0 < b -> 0 <= S -> 2 ^ S <= c * b -> 0 < s -> 0 < u <= N -> N < s + u -> s * w - u * t = 1 ->
  t * b <= s * 2 ^ x -> u * 2 ^ x < w * b -> (same_quotients N x b S c <-> u * 2 ^ x * c < w * 2 ^ S).
Proof.
  intros X B HS C Ps Pu Sum Det L1 L2. assert (P : 0 < 2 ^ S) by (apply Z.pow_pos_nonneg; lia). set (a := 2 ^ x) in *.
  assert (A : 0 < a) by (apply Z.pow_pos_nonneg; lia). split.
  - intros H. destruct (Z_lt_le_dec (u * a * c) (w * 2 ^ S)) as [|G]; [assumption|exfalso]. specialize (H u ltac:(lia)). fold a in H.
    assert (w <= u * a * c / 2 ^ S) by (apply Z.div_le_lower_bound; lia). assert (u * a / b < w) by (apply Z.div_lt_upper_bound; lia). lia.
  - intros H n Hn. fold a. symmetry. set (q := n * a / b). pose proof (Z.div_mod (n * a) b ltac:(lia)) as D. pose proof (Z.mod_pos_bound (n * a) b B) as R.
    fold q in D. set (r := n * a mod b) in *.
    assert (F1 : 2 ^ S * q <= n * a * c).
    { assert (2 ^ S * q * b <= n * a * c * b); [|nia]. replace (2 ^ S * q * b) with (2 ^ S * (b * q)) by ring. replace (n * a * c * b) with ((n * a) * (c * b)) by ring.
      assert (0 <= q) by (apply Z.div_pos; nia). assert (b * q <= n * a) by lia. nia. }
    assert (F2 : n * a * c < 2 ^ S * (q + 1)).
    { destruct (Z_lt_le_dec (n * a * c) (2 ^ S * (q + 1))) as [|G]; [assumption|exfalso]. set (m := q + 1) in *.
      assert (M : n * a < m * b) by (unfold m; lia). assert (0 < n) by (destruct (Z.eq_dec n 0) as [->|]; [exfalso|lia]; assert (0 <= q) by (apply Z.div_pos; nia); nia).
      assert (G1 : m * u < n * w).
      { assert (m * 2 ^ S * u <= n * a * c * u) by nia. assert (n * a * c * u < n * (w * 2 ^ S)) by nia. nia. }
      assert (G2 : n * t < m * s).
      { assert (n * t * b <= n * (s * a)) by nia. assert (n * (s * a) < m * b * s) by nia. nia. }
      assert (n = u * (m * s - n * t) + s * (n * w - m * u)); [|nia]. transitivity (n * (s * w - u * t)); [rewrite Det; ring | ring]. }
    apply (Z.div_unique_pos _ _ _ (n * a * c - 2 ^ S * q)); [lia | ring].
Qed.

(** multipliers for 5^j <= N: s = b *)
Definition multipliers (N x b : Z) (c : cert) : Z * Z * Z * Z :=
  match c with
  | Near s u t w => (s, u, t, w)
  | Run => let i := Zpow_facts.Zpow_mod ((b + 1) / 2) x b in
           let u0 := (- i) mod b in
           let u := u0 + b * ((N - u0) / b) in
           (b, u, 2 ^ x, (u * 2 ^ x + 1) / b)
  end.
(** whether the quotients are the same, if the multipliers are neighbours *)
Definition decided (N x b S c : Z) (m : Z * Z * Z * Z) : option bool :=
  let '(s, u, t, w) := m in
  if (0 <=? x) && (0 <? s) && (0 <? u) && (u <=? N) && (N <? s + u) && (s * w - u * t =? 1) && (t * b <=? Z.shiftl s x) && (Z.shiftl u x <? w * b)
  then Some (Z.shiftl (u * c) x <? Z.shiftl w S) else None.
Lemma decided_ok N x b S c m v : 0 < b -> 0 <= S -> 2 ^ S <= c * b -> decided N x b S c m = Some v -> (same_quotients N x b S c <-> v = true).
Proof.
  intros B HS C. destruct m as [[[s u] t] w]. unfold decided. destruct (_ && _) eqn:H; [|discriminate]. intros [= <-].
  repeat (apply andb_prop in H; destruct H as [H ?]). assert (X : 0 <= x) by lia. rewrite Z.ltb_lt, !Z.shiftl_mul_pow2 in * by assumption.
  replace (u * c * 2 ^ x) with (u * 2 ^ x * c) by ring. apply (neighbours N x b S c s u t w); lia.
Qed.
(** the reciprocal, from the entry of the cache table *)
Definition shortened (f : fmt) (k bits : Z) : Z :=
  let v := match cache_at f k with Cache64 v => v | Cache128 v => u128_high v * 2 ^ 64 + u128_low v end in
  - Z.shiftr (- v) (2 * width f - bits).
(** [b] is 5^-k *)
Definition row_verdict (f : fmt) (e k b bits : Z) (c : cert * cert * Z) : option bool :=
  let '(c1, c2, _) := c in
  let p := fraction_bits f in
  let x := width f - p - 2 + e + k in
  let s := bits + Z.log2 b in
  let g := shortened f k bits in
  let gb := g * b in
  let one := Z.shiftl 1 s in
  if (0 <? b) && (0 <=? s) && (1 <=? x) && (gb - b <? one) && (one <=? gb) then
    match decided (2 ^ (p + 2)) x b s g (multipliers (2 ^ (p + 2)) x b c1), decided (2 ^ (p + 1)) (x + 2) b s g (multipliers (2 ^ (p + 1)) (x + 2) b c2) with
    | Some v1, Some v2 =>
        let a := Z.shiftl (2 ^ (p + 2) - 1) (x - 1) in
        let q := Z.shiftr (Z.shiftl ((2 ^ (p + 2) - 1) * g) (x - 1)) s in
        let r := a - q * b in
        Some (v1 && v2 && (0 <=? r) && (r <? b))
    | _, _ => None
    end
  else None.
Lemma row_verdict_ok f e k bits c v : row_verdict f e k (5 ^ (- k)) bits c = Some v -> (enough_down f e k bits <-> v = true).
Proof.
  unfold row_verdict, enough_down. destruct c as [[c1 c2] c3]. cbv zeta. set (b := 5 ^ (- k)) in *. set (s := bits + Z.log2 b) in *.
  set (g := shortened f k bits). set (p := fraction_bits f). set (x := width f - p - 2 + e + k).
  destruct ((0 <? b) && _ && _ && _ && _) eqn:H; [|discriminate]. repeat (apply andb_prop in H; destruct H as [H ?]).
  assert (Hs : 0 <= s) by lia. rewrite Z.shiftl_mul_pow2, Z.mul_1_l in * by assumption.
  assert (G : reciprocal b s = g).
  { unfold reciprocal. symmetry. apply (Z.div_unique_pos _ _ _ (2 ^ s + b - 1 - b * g)); lia. }
  rewrite G.
  destruct (decided _ _ _ _ _ (multipliers _ _ _ c1)) as [v1|] eqn:D1; [|discriminate].
  destruct (decided _ _ _ _ _ (multipliers _ _ _ c2)) as [v2|] eqn:D2; [|discriminate]. intros [= <-].
  apply decided_ok in D1, D2; try lia. rewrite D1, D2, !andb_true_iff, Z.shiftr_div_pow2, !Z.shiftl_mul_pow2, Z.leb_le, Z.ltb_lt by lia.
  replace ((2 ^ (p + 2) - 1) * g * 2 ^ (x - 1)) with ((2 ^ (p + 2) - 1) * 2 ^ (x - 1) * g) by ring.
  set (q := (2 ^ (p + 2) - 1) * 2 ^ (x - 1) * g / 2 ^ s). set (a := (2 ^ (p + 2) - 1) * 2 ^ (x - 1)).
  assert (Q : q = a / b <-> 0 <= a - q * b /\ a - q * b < b).
  { split; intros Hq; [|apply (Z.div_unique_pos _ _ _ (a - q * b)); lia]. rewrite Hq. pose proof (Z.div_mod a b ltac:(lia)). pose proof (Z.mod_pos_bound a b ltac:(lia)). lia. }
  rewrite Q. tauto.
Qed.

(** ** All rows *)

(** multipliers for the rows whose certificate is to follow the algorithm although 5^j is large *)
Definition others (f : fmt) : list (Z * (cert * cert * Z)) :=
  match f with
  | Binary32 => []
  | Binary64 => [
      (656, (Near 8887055249355788 11293410846981049 272104041512242479 345781886991700394, Near 2221763812338947 6849883222303155 272104041512242479 838919464942316618, 0));
      (657, (Near 4443527624677894 15736938471658943 272104041512242479 963667815495643267, Near 2221763812338947 8979351141998945 544208083024484958 2199439672503529013, 0));
      (658, (Near 2221763812338947 17958702283997890 272104041512242479 2199439672503529013, Near 2221763812338947 7822321289507893 1088416166048969916 3832063921576983887, 0));
      (659, (Near 11108819061694735 13515174659319996 272104041512242479 331046317895808811, Near 7730025396864736 3378793664829999 757369848153161105 331046317895808811, 0));
      (660, (Near 11108819061694735 17866406391354733 544208083024484958 875254400920293769, Near 3865012698432368 7243806363262367 757369848153161105 1419462483944778727, 0));
      (661, (Near 11108819061694735 14487612726524734 1088416166048969916 1419462483944778727, Near 1932506349216184 7243806363262367 757369848153161105 2838924967889557454, 0))]
  end.
Definition multipliers_of (f : fmt) (e : Z) (c : cert * cert * Z) : cert * cert * Z :=
  match find (fun r => fst r =? e) (others f) with Some r => snd r | None => c end.
(** [b0] is 5^-k0 *)
Fixpoint verdicts (f : fmt) (k0 b0 : Z) (rows : list (Z * Z)) (cs : list (cert * cert * Z)) : bool :=
  match rows, cs with
  | [], [] => true
  | (e, bits) :: rows, c :: cs =>
      let k := chosen e in
      let b := if k =? k0 then b0 else if k =? k0 - 1 then 5 * b0 else 5 ^ (- k) in
      match row_verdict f e k b bits (multipliers_of f e c) with
      | Some v => Bool.eqb v (short_by f e =? 0) && verdicts f k b rows cs
      | None => false
      end
  | _, _ => false
  end.
Lemma verdicts_ok f : forall rows cs k0, k0 <= 0 -> verdicts f k0 (5 ^ (- k0)) rows cs = true ->
  (forall e bits, In (e, bits) rows -> chosen e <= 0) -> forall e bits, In (e, bits) rows -> (enough_down f e (chosen e) bits <-> short_by f e = 0).
Proof.
  induction rows as [|[e0 b0] rows IH]; intros cs k0 K0 H Hc e bits I; [destruct I|]. destruct cs as [|c cs]; [discriminate|]. cbn [verdicts] in H. cbv zeta in H.
  assert (B : (if chosen e0 =? k0 then 5 ^ (- k0) else if chosen e0 =? k0 - 1 then 5 * 5 ^ (- k0) else 5 ^ (- chosen e0)) = 5 ^ (- chosen e0)).
  { destruct (Z.eqb_spec (chosen e0) k0) as [->|]; [reflexivity|]. destruct (Z.eqb_spec (chosen e0) (k0 - 1)) as [->|]; [|reflexivity].
    replace (- (k0 - 1)) with (Z.succ (- k0)) by lia. rewrite Z.pow_succ_r by lia. reflexivity. }
  rewrite B in H.
  destruct (row_verdict f e0 (chosen e0) (5 ^ (- chosen e0)) b0 (multipliers_of f e0 c)) as [v|] eqn:R; [|discriminate]. apply andb_prop in H. destruct H as [H1 H2].
  destruct I as [I|I].
  - injection I as <- <-. rewrite (row_verdict_ok _ _ _ _ _ _ R). apply eqb_prop in H1. rewrite H1. apply Z.eqb_eq.
  - apply (IH cs (chosen e0)); [apply (Hc e0 b0); left; reflexivity | exact H2 | intros e' b' I'; apply (Hc e' b'); right; exact I' | exact I].
Qed.
Definition certs (f : fmt) : list (cert * cert * Z) := match f with Binary32 => binary32_negative_certs | Binary64 => binary64_negative_certs end.
Lemma verdicts_all f : verdicts f 0 1 (recorded_negative f) (certs f) = true.
Proof. destruct f; vm_cast_no_check (eq_refl true). Qed.

Lemma negative_exact f e bits : In (e, bits) (recorded_negative f) -> (enough f e bits <-> short_by f e = 0).
Proof.
  intros I. destruct (proj1 (proj2 (negative_all debug_cfg f (fun _ _ _ _ _ => 0))) e bits I) as (H1 & H2 & H3). pose proof (exponents f).
  unfold enough. rewrite chosen_eq by lia. cbv zeta. rewrite (proj2 (Z.ltb_lt _ _) (chosen_negative e ltac:(lia))).
  apply (verdicts_ok f _ _ 0 ltac:(lia) (verdicts_all f)) with (bits := bits); [|exact I].
  intros e' bits' I'. destruct (proj1 (proj2 (negative_all debug_cfg f (fun _ _ _ _ _ => 0))) e' bits' I') as (G & _). pose proof (chosen_negative e' ltac:(lia)). lia.
Qed.
Lemma short_negative f e : -2 <= e -> short_by f e = 0 \/ short_by f e = 1.
Proof.
  intros H. unfold short_by. destruct (match f with Binary32 => e =? -90 | Binary64 => false end) eqn:D; [destruct f; [apply Z.eqb_eq in D; lia | discriminate]|].
  destruct (existsb _ _); [right | left]; reflexivity.
Qed.
Lemma short_positive f e : e <= -3 -> short_by f e = if match f with Binary32 => e =? -90 | Binary64 => false end then 6 else 0.
Proof.
  intros H. unfold short_by. destruct (match f with Binary32 => e =? -90 | Binary64 => false end); [reflexivity|].
  destruct (existsb _ _) eqn:D; [exfalso|reflexivity]. apply existsb_exists in D. destruct D as (y & I & E). apply Z.eqb_eq in E. subst y.
  assert (A : forallb (fun y => -3 <? y) (one_short f) = true) by (destruct f; reflexivity). rewrite forallb_forall in A. specialize (A e I). lia.
Qed.
Lemma positive_row_90 : forall bits, In (-90, bits) binary32_positive_k -> bits = 55.
Proof.
  intros bits I. assert (A : forallb (fun r => negb (fst r =? -90) || (snd r =? 55)) binary32_positive_k = true) by (vm_compute; reflexivity).
  rewrite forallb_forall in A. specialize (A _ I). cbn [fst snd] in A. replace (-90 =? -90) with true in A by reflexivity. cbn in A. lia.
Qed.
Lemma not_enough_90 bits : 55 <= bits <= 60 -> ~ enough Binary32 (-90) bits.
Proof.
  intros H. unfold enough. rewrite chosen_eq by lia. replace (chosen (-90)) with 26 by reflexivity. cbn [Z.ltb Z.compare].
  intros (_ & A & _). specialize (A 14855922 ltac:(split; vm_compute; discriminate)).
  assert (C : bits = 55 \/ bits = 56 \/ bits = 57 \/ bits = 58 \/ bits = 59 \/ bits = 60) by lia.
  destruct C as [->|[->|[->|[->|[->| ->]]]]]; revert A; vm_compute; discriminate.
Qed.
Lemma exact_rows f e bits bits' : In (e, bits) (recorded_negative f ++ recorded_positive f) -> bits <= bits' -> (enough f e bits' <-> bits + short_by f e <= bits').
Proof.
  intros I L. apply in_app_or in I. destruct I as [I|I].
  - destruct (proj1 (proj2 (negative_all debug_cfg f (fun _ _ _ _ _ => 0))) e bits I) as (H1 & _).
    destruct (Z.eq_dec bits' bits) as [->|N].
    + rewrite (negative_exact f e bits I). destruct (short_negative f e ltac:(lia)); lia.
    + split; intros; [destruct (short_negative f e ltac:(lia)); lia | apply (negative_enough f e bits); [exact I | lia]].
  - destruct (proj1 (proj2 (positive_all debug_cfg f (fun _ _ _ _ _ => 0))) e bits I) as (H1 & _). rewrite short_positive by lia.
    destruct (match f with Binary32 => e =? -90 | Binary64 => false end) eqn:D.
    + destruct f; [|discriminate]. apply Z.eqb_eq in D. subst e. rewrite (positive_row_90 bits I) in *. split; intros G.
      * destruct (Z_le_gt_dec (55 + 6) bits') as [|F]; [assumption|]. exfalso. apply (not_enough_90 bits'); [lia | exact G].
      * unfold enough. rewrite chosen_eq by lia. replace (chosen (-90)) with 26 by reflexivity. apply untouched.
        replace (Z.log2 (5 ^ 26)) with 60 by (vm_compute; reflexivity). lia.
    + split; intros; [lia|]. apply (positive_enough f e bits); [exact I | | exact L]. destruct f; [right; apply Z.eqb_neq; exact D | left; reflexivity].
Qed.
