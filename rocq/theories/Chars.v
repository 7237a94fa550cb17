(** * fp_to_chars writes the scientific notation of the result *)

From Coq Require Import ZArith List Bool Lia.
From Flocq Require Import Core.
From Verif Require Import Machine Tables Model CharsModel Spec TextSpec.
Import ListNotations.
Open Scope Z_scope.

(** ** Memory *)
Lemma store_ok b p v : 0 <= p < capacity b ->
  store b p v = Ok (mk_buffer (capacity b) (fun j => if j =? p then v else byte_at b j)).
Proof. intros H. unfold store. destruct (Z.leb_spec 0 p), (Z.ltb_spec p (capacity b)); try lia. reflexivity. Qed.
Lemma ptr_ok b p d : 0 <= p + d <= capacity b -> ptr b p d = Ok (p + d).
Proof. intros H. unfold ptr. destruct (Z.leb_spec 0 (p + d)), (Z.leb_spec (p + d) (capacity b)); try lia. reflexivity. Qed.

Lemma text_length_app t u : text_length (t ++ u) = text_length t + text_length u.
Proof. unfold text_length. rewrite app_length. lia. Qed.
Lemma text_length_nonneg t : 0 <= text_length t.
Proof. unfold text_length. lia. Qed.
Lemma text_length_cons c t : text_length (c :: t) = text_length t + 1.
Proof. unfold text_length. cbn [length]. lia. Qed.

Lemma written_nil b p : written b p [] b.
Proof.
  split; [reflexivity|]. intros j. change (text_length []) with 0.
  destruct (Z.leb_spec p j), (Z.ltb_spec j (p + 0)); try lia; reflexivity.
Qed.
Lemma written_app b p t b1 u b2 : written b p t b1 -> written b1 (p + text_length t) u b2 -> written b p (t ++ u) b2.
Proof.
  intros [C1 H1] [C2 H2]. split; [congruence|]. intros j. rewrite H2, H1, text_length_app.
  pose proof (text_length_nonneg t). pose proof (text_length_nonneg u).
  destruct (Z.leb_spec (p + text_length t) j), (Z.ltb_spec j (p + text_length t + text_length u)),
    (Z.leb_spec p j), (Z.ltb_spec j (p + text_length t)), (Z.ltb_spec j (p + (text_length t + text_length u)));
    cbn [andb]; try lia; try reflexivity.
  - rewrite app_nth2; [f_equal|]; unfold text_length in *; lia.
  - rewrite app_nth1; [reflexivity|]. unfold text_length in *; lia.
Qed.
Lemma written_one b p v b' : capacity b' = capacity b ->
  (forall j, byte_at b' j = if j =? p then v else byte_at b j) -> written b p [v] b'.
Proof.
  intros C H. split; [exact C|]. intros j. rewrite H. change (text_length [v]) with 1.
  destruct (Z.leb_spec p j), (Z.ltb_spec j (p + 1)), (Z.eqb_spec j p); cbn [andb]; try lia; try reflexivity.
  replace (Z.to_nat (j - p)) with O by lia. reflexivity.
Qed.
Lemma store_written b p v : 0 <= p < capacity b -> exists b', store b p v = Ok b' /\ written b p [v] b'.
Proof. intros H. eexists. split; [apply store_ok, H|]. apply written_one; reflexivity. Qed.
Lemma memcpy_written t : forall b p, 0 <= p -> p + text_length t <= capacity b ->
  exists b', memcpy b p t = Ok b' /\ written b p t b'.
Proof.
  induction t as [|v t IH]; intros b p Hp Hc; [exists b; split; [reflexivity | apply written_nil]|].
  rewrite text_length_cons in Hc. pose proof (text_length_nonneg t).
  destruct (store_written b p v ltac:(lia)) as (b1 & E1 & W1). cbn [memcpy]. rewrite E1. cbn [bind].
  destruct (IH b1 (p + 1)) as (b2 & E2 & W2); [lia | rewrite (proj1 W1); lia|].
  exists b2. split; [exact E2|]. change (v :: t) with ([v] ++ t). eapply written_app; [exact W1 | exact W2].
Qed.

(** ** The digit table *)
Lemma table_check : forallb (fun n => let c := Z.of_nat n in
  match read_array radix_100_table (2 * c), read_array radix_100_table (2 * c + 1) with
  | Ok a, Ok b => (a =? 48 + c / 10) && (b =? 48 + c mod 10)
  | _, _ => false
  end) (seq 0 100) = true.
Proof. vm_compute. reflexivity. Qed.
Lemma table_ok c : 0 <= c < 100 ->
  read_array radix_100_table (2 * c) = Ok (48 + c / 10) /\ read_array radix_100_table (2 * c + 1) = Ok (48 + c mod 10).
Proof.
  intros H. pose proof table_check as T. rewrite forallb_forall in T. specialize (T (Z.to_nat c)).
  rewrite in_seq in T. specialize (T ltac:(lia)). cbv zeta in T. rewrite Z2Nat.id in T by lia.
  destruct (read_array radix_100_table (2 * c)) as [a| | |], (read_array radix_100_table (2 * c + 1)) as [b| | |]; try discriminate.
  apply andb_prop in T. destruct T as [A B]. apply Z.eqb_eq in A, B. subst. split; reflexivity.
Qed.
Lemma copy_pair_written b p c : 0 <= c < 100 -> 0 <= p -> p + 2 <= capacity b ->
  exists b', copy_pair b p (2 * c) = Ok b' /\ written b p [48 + c / 10; 48 + c mod 10] b'.
Proof.
  intros Hc Hp Hb. unfold copy_pair. destruct (table_ok c Hc) as [-> ->]. cbn [bind]. apply memcpy_written; [exact Hp | exact Hb].
Qed.
Lemma double_wrap c : 0 <= c < 100 -> wrap 32 (Z.shiftl c 1) = 2 * c.
Proof. intros H. rewrite Z.shiftl_mul_pow2 by lia. unfold wrap. change (2 ^ 1) with 2. rewrite Z.mod_small by lia. lia. Qed.

(** ** Digits of a number *)
Lemma digits_bounds s : 0 < s -> 1 <= digits s /\ 10 ^ (digits s - 1) <= s < 10 ^ digits s.
Proof.
  intros H. pose proof (Zdigits_correct radix10 s) as C. rewrite Z.abs_eq in C by lia.
  pose proof (Zdigits_gt_0 radix10 s ltac:(lia)). unfold digits. change (Zpower radix10) with (Z.pow 10) in C. lia.
Qed.
Lemma digits_unique s n : 0 < n -> 10 ^ (n - 1) <= s < 10 ^ n -> digits s = n.
Proof.
  intros Hn H. apply Zdigits_unique. change (Zpower radix10) with (Z.pow 10). rewrite Z.abs_eq; [exact H|].
  pose proof (Z.pow_pos_nonneg 10 (n - 1) ltac:(lia) ltac:(lia)). lia.
Qed.
Lemma pow10_pos n : 0 <= n -> 0 < 10 ^ n.
Proof. intros H. apply Z.pow_pos_nonneg; lia. Qed.
Lemma digits_le s n : 0 < s -> 0 <= n -> (digits s <= n <-> s < 10 ^ n).
Proof.
  intros Hs Hn. destruct (digits_bounds s Hs) as [H1 H2]. split; intros H.
  - assert (10 ^ digits s <= 10 ^ n) by (apply Z.pow_le_mono_r; lia). lia.
  - destruct (Z.le_gt_cases (digits s) n) as [L|G]; [exact L|]. exfalso.
    assert (10 ^ n <= 10 ^ (digits s - 1)) by (apply Z.pow_le_mono_r; lia). lia.
Qed.

(** ** decimal_length *)
Lemma decimal_length_ok cfg f s : 0 < s -> digits s <= max_digits f -> decimal_length cfg f s = Ok (digits s).
Proof.
  intros Hs Hd.
  assert (Hb : s < match f with Binary32 => 1000000000 | Binary64 => 100000000000000000 end)
    by (apply digits_le in Hd; [|exact Hs|destruct f; discriminate]; destruct f; exact Hd).
  assert (U : forall n, 0 < n -> 10 ^ (n - 1) <= s < 10 ^ n -> n = digits s) by (intros n A B; symmetry; apply digits_unique; assumption).
  destruct f; cbn [decimal_length]; unfold cassert; rewrite (proj2 (Z.ltb_lt _ _) Hb);
  (assert (forall A (k : outcome A), bind (if cfg_ndebug cfg then Ok tt else Ok tt) (fun _ => k) = k) as -> by (intros; destruct (cfg_ndebug cfg); reflexivity));
  apply f_equal; clear Hd;
  repeat match goal with
  | |- (if ?a <=? s then _ else _) = _ => destruct (Z.leb_spec a s); [apply U; [reflexivity | split; assumption]|]
  end; (apply U; [reflexivity | split; [cbn; lia | assumption]]).
Qed.

(** ** The digits written so far: the [i] lowest ones, at the end of the mantissa *)
Definition digit (s j : Z) : Z := 48 + (s / 10 ^ j) mod 10.
Definition partly (b0 b : buffer) (base L s i : Z) : Prop :=
  capacity b = capacity b0 /\
  forall j, byte_at b j = if (base + L - i <? j) && (j <=? base + L) then digit s (base + L - j) else byte_at b0 j.

Lemma partly_0 b base L s : partly b b base L s 0.
Proof.
  split; [reflexivity|]. intros j. destruct (Z.ltb_spec (base + L - 0) j), (Z.leb_spec j (base + L)); try lia; reflexivity.
Qed.
Lemma div_shift s i k : 0 <= i -> 0 <= k -> s / 10 ^ (i + k) = s / 10 ^ i / 10 ^ k.
Proof. intros Hi Hk. rewrite Z.pow_add_r by lia. rewrite Z.div_div; [reflexivity| |apply pow10_pos; lia]. pose proof (pow10_pos i). lia. Qed.

Lemma partly_pair b0 b base L s k i d c :
  partly b0 b base L s k -> 0 <= base -> base + L < capacity b0 -> 0 <= i -> 1 <= d -> k = i + d - 1 -> k + 2 < L ->
  c = (s / 10 ^ k) mod 100 ->
  exists b', copy_pair_back b base L i d (wrap 32 (Z.shiftl c 1)) = Ok b' /\ partly b0 b' base L s (k + 2).
Proof.
  intros [Cb Hb] Hbase Hcap Hi Hd Hk HL Ec.
  assert (Hc : 0 <= c < 100) by (rewrite Ec; apply Z.mod_pos_bound; reflexivity).
  unfold copy_pair_back. rewrite double_wrap by exact Hc.
  rewrite ptr_ok by (rewrite Cb; lia). cbn [bind]. rewrite ptr_ok by (rewrite Cb; lia). cbn [bind].
  rewrite ptr_ok by (rewrite Cb; lia). cbn [bind].
  replace (base + L + - i + - d) with (base + L - k - 1) by lia.
  destruct (copy_pair_written b (base + L - k - 1) c Hc ltac:(lia) ltac:(lia)) as (b' & E & [C W]).
  exists b'. split; [exact E|]. split; [congruence|]. intros j. rewrite W, Hb. change (text_length [48 + c / 10; 48 + c mod 10]) with 2.
  assert (Hk0 : 0 <= k) by lia.
  assert (D0 : digit s k = 48 + c mod 10).
  { unfold digit. rewrite Ec. generalize (s / 10 ^ k). intros z. Z.div_mod_to_equations; lia. }
  assert (D1 : digit s (k + 1) = 48 + c / 10).
  { unfold digit. rewrite Ec, div_shift by lia. generalize (s / 10 ^ k). intros z. change (10 ^ 1) with 10. Z.div_mod_to_equations; lia. }
  destruct (Z.leb_spec (base + L - k - 1) j), (Z.ltb_spec j (base + L - k - 1 + 2)),
    (Z.ltb_spec (base + L - k) j), (Z.leb_spec j (base + L)), (Z.ltb_spec (base + L - (k + 2)) j);
    cbn [andb]; try lia; try reflexivity.
  destruct (Z.eq_dec j (base + L - k)) as [->|N].
  - replace (Z.to_nat (base + L - k - (base + L - k - 1))) with 1%nat by lia. cbn [nth].
    replace (base + L - (base + L - k)) with k by lia. symmetry; exact D0.
  - assert (j = base + L - k - 1) as -> by lia.
    replace (Z.to_nat (base + L - k - 1 - (base + L - k - 1))) with 0%nat by lia. cbn [nth].
    replace (base + L - (base + L - k - 1)) with (k + 1) by lia. symmetry; exact D1.
Qed.

Lemma last_digits_length n z : length (last_digits n z) = n.
Proof. revert z. induction n as [|n IH]; intros z; [reflexivity|]. cbn [last_digits]. rewrite app_length, IH. cbn. lia. Qed.
Lemma last_digits_nth : forall n z k, (k < n)%nat -> nth k (last_digits n z) 0 = digit z (Z.of_nat n - 1 - Z.of_nat k).
Proof.
  induction n as [|n IH]; intros z k Hk; [lia|]. cbn [last_digits].
  destruct (Nat.eq_dec k n) as [->|N].
  - rewrite app_nth2 by (rewrite last_digits_length; lia). rewrite last_digits_length, Nat.sub_diag. cbn [nth].
    replace (Z.of_nat (S n) - 1 - Z.of_nat n) with 0 by lia. unfold digit. change (10 ^ 0) with 1. rewrite Z.div_1_r. reflexivity.
  - rewrite app_nth1 by (rewrite last_digits_length; lia). rewrite IH by lia. unfold digit.
    replace (Z.of_nat (S n) - 1 - Z.of_nat k) with (1 + (Z.of_nat n - 1 - Z.of_nat k)) by lia.
    rewrite div_shift by lia. reflexivity.
Qed.
Lemma pointed_length t : text_length (pointed t) = if 1 <? text_length t then text_length t + 1 else text_length t.
Proof.
  destruct t as [|c [|d t]]; [reflexivity | reflexivity|]. cbn [pointed]. unfold text_length. cbn [length].
  destruct (Z.ltb_spec 1 (Z.of_nat (S (S (length t))))); lia.
Qed.

Section Mantissa.
Variables (b0 : buffer) (base s : Z).
Hypotheses (Hs : 0 < s) (Hbase : 0 <= base) (Hcap : base + digits s < capacity b0).
Let L := digits s.

Lemma room i k : 0 <= i -> 0 <= k -> 10 ^ k <= s / 10 ^ i -> i + k < L.
Proof using Hs.
  intros Hi Hk H. destruct (Z.lt_ge_cases (i + k) L) as [A|A]; [exact A|]. exfalso.
  apply digits_le in A; [|exact Hs|lia]. rewrite Z.pow_add_r in A by lia.
  apply (Z.div_lt_upper_bound s (10 ^ i) (10 ^ k)) in A; [lia | apply pow10_pos; lia].
Qed.

Lemma loop_ok : forall fuel b i o, partly b0 b base L s i -> 0 <= i -> o = s / 10 ^ i -> 1 <= o -> o < 10000 ^ Z.of_nat fuel ->
  i + 4 * Z.of_nat fuel < 2 ^ 32 ->
  exists b' i' o', four_digit_loop fuel b base L i o = Ok (b', i', o') /\
    partly b0 b' base L s i' /\ 0 <= i' /\ o' = s / 10 ^ i' /\ 1 <= o' < 10000.
Proof using Hs Hbase Hcap.
  induction fuel as [|n IH]; intros b i o Hp Hi Eo Ho Hf Hw; [change (10000 ^ Z.of_nat 0) with 1 in Hf; lia|].
  cbn [four_digit_loop]. destruct (Z.leb_spec 10000 o) as [G|Le]; cbv zeta.
  - pose proof (room i 4 Hi ltac:(lia)) as R. rewrite <- Eo in R. specialize (R G).
    destruct (partly_pair b0 b base L s i i 1 (o mod 10000 mod 100) Hp Hbase Hcap Hi ltac:(lia) ltac:(lia) ltac:(lia)) as (b1 & E1 & P1).
    { rewrite Eo. generalize (s / 10 ^ i). intros z. Z.div_mod_to_equations; lia. }
    rewrite E1. cbn [bind].
    destruct (partly_pair b0 b1 base L s (i + 2) i 3 (o mod 10000 / 100) P1 Hbase Hcap Hi ltac:(lia) ltac:(lia) ltac:(lia)) as (b2 & E2 & P2).
    { rewrite div_shift by lia. rewrite Eo. generalize (s / 10 ^ i). intros z. change (10 ^ 2) with 100. Z.div_mod_to_equations; lia. }
    rewrite E2. cbn [bind].
    assert (wrap 32 (i + 4) = i + 4) as -> by (unfold wrap; apply Z.mod_small; lia).
    apply IH.
    + replace (i + 4) with (i + 2 + 2) by lia. exact P2.
    + lia.
    + rewrite div_shift by lia. rewrite Eo. reflexivity.
    + Z.div_mod_to_equations; lia.
    + apply Z.div_lt_upper_bound; [lia|]. rewrite Nat2Z.inj_succ, Z.pow_succ_r in Hf by lia. lia.
    + lia.
  - exists b, i, o. repeat split; (assumption || lia || apply Hp).
Qed.

Lemma two_ok b i o : partly b0 b base L s i -> 0 <= i < 100 -> o = s / 10 ^ i -> 1 <= o < 10000 ->
  exists b' i' o', two_digits b base L i o = Ok (b', i', o') /\
    partly b0 b' base L s i' /\ 0 <= i' /\ o' = s / 10 ^ i' /\ 1 <= o' < 100.
Proof using Hs Hbase Hcap.
  intros Hp Hi Eo Ho. unfold two_digits. destruct (Z.leb_spec 100 o) as [G|Le]; cbv zeta.
  - pose proof (room i 2 ltac:(lia) ltac:(lia)) as R. rewrite <- Eo in R. specialize (R G).
    destruct (partly_pair b0 b base L s i i 1 (o mod 100) Hp Hbase Hcap) as (b1 & E1 & P1); try lia.
    { rewrite Eo; reflexivity. }
    rewrite E1. cbn [bind].
    assert (wrap 32 (i + 2) = i + 2) as -> by (unfold wrap; apply Z.mod_small; lia).
    exists b1, (i + 2), (o / 100). split; [reflexivity|]. split; [exact P1|]. split; [lia|]. split.
    + rewrite div_shift by lia. rewrite Eo. reflexivity.
    + Z.div_mod_to_equations; lia.
  - exists b, i, o. repeat split; (assumption || lia || apply Hp).
Qed.

(** the digits of the mantissa in place, the point not yet written *)
Definition mantissa (b : buffer) : Prop :=
  capacity b = capacity b0 /\
  forall j, byte_at b j = if j =? base then digit s (L - 1)
                          else if (base + 1 <? j) && (j <=? base + L) then digit s (base + L - j) else byte_at b0 j.

Lemma first_ok b i o : partly b0 b base L s i -> 0 <= i < 100 -> o = s / 10 ^ i -> 1 <= o < 100 ->
  exists b', first_digits b base L i o = Ok b' /\ mantissa b'.
Proof using Hs Hbase Hcap.
  intros [Cb Hp] Hi Eo Ho. unfold first_digits. destruct (digits_bounds s Hs) as [HL1 HL]. fold L in HL1, HL. fold L in Hcap.
  destruct (Z.leb_spec 10 o) as [G|Le]; cbv zeta.
  - assert (EL : L = i + 2).
    { pose proof (room i 1 ltac:(lia) ltac:(lia)) as R. rewrite <- Eo in R. specialize (R G).
      assert (L <= i + 2); [|lia]. apply digits_le; [exact Hs | lia|]. rewrite Z.pow_add_r by lia.
      pose proof (pow10_pos i ltac:(lia)). pose proof (Z.div_mod s (10 ^ i) ltac:(lia)).
      pose proof (Z.mod_pos_bound s (10 ^ i) ltac:(lia)). change (10 ^ 2) with 100. nia. }
    rewrite double_wrap by lia. assert (wrap 32 (2 * o + 1) = 2 * o + 1) as -> by (unfold wrap; apply Z.mod_small; lia).
    destruct (table_ok o ltac:(lia)) as [-> ->]. cbn [bind].
    assert (wrap 32 (L - i) = 2) as -> by (rewrite EL; unfold wrap; rewrite Z.mod_small; lia).
    rewrite store_ok by lia. cbn [bind]. rewrite store_ok by (cbn [capacity]; lia).
    eexists. split; [reflexivity|]. split; [exact Cb|]. cbn [byte_at]. intros j.
    rewrite Hp.
    assert (D1 : digit s (L - 1) = 48 + o / 10).
    { unfold digit. replace (L - 1) with (i + 1) by lia. rewrite div_shift by lia. rewrite <- Eo. change (10 ^ 1) with 10.
      rewrite (Z.mod_small (o / 10)); [reflexivity | Z.div_mod_to_equations; lia]. }
    assert (D0 : digit s i = 48 + o mod 10) by (unfold digit; rewrite <- Eo; reflexivity).
    destruct (Z.eqb_spec j base); [symmetry; exact D1|].
    destruct (Z.eqb_spec j (base + 2)) as [->|N].
    + destruct (Z.ltb_spec (base + 1) (base + 2)), (Z.leb_spec (base + 2) (base + L)); try lia. cbn [andb].
      replace (base + L - (base + 2)) with i by lia. symmetry; exact D0.
    + destruct (Z.ltb_spec (base + L - i) j), (Z.ltb_spec (base + 1) j); try lia; reflexivity.
  - assert (EL : L = i + 1).
    { pose proof (room i 0 ltac:(lia) ltac:(lia)) as R. rewrite <- Eo in R. specialize (R ltac:(lia)).
      assert (L <= i + 1); [|lia]. apply digits_le; [exact Hs | lia|]. rewrite Z.pow_add_r by lia.
      pose proof (pow10_pos i ltac:(lia)). pose proof (Z.div_mod s (10 ^ i) ltac:(lia)).
      pose proof (Z.mod_pos_bound s (10 ^ i) ltac:(lia)). change (10 ^ 1) with 10. nia. }
    rewrite store_ok by lia. eexists. split; [reflexivity|]. split; [exact Cb|]. cbn [byte_at]. intros j. rewrite Hp.
    assert (D0 : digit s (L - 1) = 48 + o).
    { unfold digit. replace (L - 1) with i by lia. rewrite <- Eo. rewrite Z.mod_small; lia. }
    unfold to_char, char_0. assert (wrap 8 (48 + o) = 48 + o) as -> by (unfold wrap; apply Z.mod_small; lia).
    destruct (Z.eqb_spec j base); [symmetry; exact D0|].
    destruct (Z.ltb_spec (base + L - i) j), (Z.ltb_spec (base + 1) j); try lia; reflexivity.
Qed.

Lemma integer_text_pos : integer_text s = last_digits (Z.to_nat L) s.
Proof using Hs. unfold integer_text. destruct (Z.eqb_spec s 0); [lia | reflexivity]. Qed.
Lemma integer_text_length : text_length (integer_text s) = L.
Proof using Hs. rewrite integer_text_pos. unfold text_length. rewrite last_digits_length. destruct (digits_bounds s Hs). fold L in H. lia. Qed.
Lemma point_ok b : mantissa b -> L < 2 ^ 31 ->
  exists b' p, put_point b base L = Ok (b', p) /\ written b0 base (pointed (integer_text s)) b' /\
    p = base + text_length (pointed (integer_text s)).
Proof using Hs Hbase Hcap.
  intros [Cb Hm] HLm. destruct (digits_bounds s Hs) as [HL1 _]. fold L in HL1. fold L in Hcap.
  unfold put_point. rewrite pointed_length, integer_text_length.
  destruct (Z.ltb_spec 1 L) as [G|Le].
  - rewrite store_ok by lia. cbn [bind]. assert (wrap 32 (L + 1) = L + 1) as -> by (unfold wrap; apply Z.mod_small; lia).
    rewrite ptr_ok by (cbn [capacity]; lia). cbn [bind]. eexists _, _. split; [reflexivity|]. split; [|lia].
    split; [exact Cb|]. cbn [byte_at]. intros j. rewrite Hm, pointed_length, integer_text_length.
    destruct (Z.ltb_spec 1 L); [|lia]. rewrite integer_text_pos.
    assert (EN : exists n, Z.to_nat L = S (S n)) by (exists (Z.to_nat (L - 2)); lia). destruct EN as [n EN]. rewrite EN.
    pose proof (last_digits_length (S (S n)) s) as Hlen. pose proof (last_digits_nth (S (S n)) s) as Hnth.
    destruct (last_digits (S (S n)) s) as [|d0 [|d1 rest]]; [discriminate Hlen | discriminate Hlen|]. cbn [pointed].
    destruct (Z.eqb_spec j (base + 1)) as [->|N1].
    { destruct (Z.leb_spec base (base + 1)), (Z.ltb_spec (base + 1) (base + (L + 1))); try lia. cbn [andb].
      replace (Z.to_nat (base + 1 - base)) with 1%nat by lia. reflexivity. }
    destruct (Z.eqb_spec j base) as [->|N0].
    { destruct (Z.leb_spec base base), (Z.ltb_spec base (base + (L + 1))); try lia. cbn [andb].
      replace (Z.to_nat (base - base)) with 0%nat by lia. cbn [nth]. specialize (Hnth 0%nat ltac:(lia)). cbn [nth] in Hnth. rewrite Hnth.
      f_equal. lia. }
    destruct (Z.leb_spec base j), (Z.ltb_spec j (base + (L + 1))), (Z.ltb_spec (base + 1) j), (Z.leb_spec j (base + L)); cbn [andb]; try lia; try reflexivity.
    assert (EJ : exists m, Z.to_nat (j - base) = S (S m)) by (exists (Z.to_nat (j - base - 2)); lia). destruct EJ as [m EJ]. rewrite EJ. cbn [nth].
    specialize (Hnth (S m) ltac:(lia)). cbn [nth] in Hnth. change (match m with O => d1 | S k => nth k rest 0 end) with (nth m (d1 :: rest) 0) in *.
    rewrite Hnth. f_equal. lia.
  - rewrite ptr_ok by lia. cbn [bind]. eexists _, _. split; [reflexivity|]. split; [|lia].
    assert (EL : L = 1) by lia. assert (Es : integer_text s = [digit s 0]).
    { rewrite integer_text_pos, EL. change (Z.to_nat 1) with 1%nat. cbn [last_digits app]. unfold digit. change (10 ^ 0) with 1. rewrite Z.div_1_r. reflexivity. }
    rewrite Es. cbn [pointed]. apply written_one; [exact Cb|]. intros j. rewrite Hm, EL.
    destruct (Z.eqb_spec j base); [reflexivity|]. destruct (Z.ltb_spec (base + 1) j), (Z.leb_spec j (base + 1)); try lia; reflexivity.
Qed.
End Mantissa.

(** ** The exponent *)
Lemma integer_text_1 z : 0 <= z < 10 -> integer_text z = [48 + z].
Proof.
  intros H. unfold integer_text. destruct (Z.eqb_spec z 0) as [->|N]; [reflexivity|].
  rewrite (digits_unique z 1) by (cbn; lia). change (Z.to_nat 1) with 1%nat. cbn [last_digits app]. rewrite Z.mod_small by lia. reflexivity.
Qed.
Lemma integer_text_2 z : 10 <= z < 100 -> integer_text z = [48 + z / 10; 48 + z mod 10].
Proof.
  intros H. unfold integer_text. destruct (Z.eqb_spec z 0); [lia|].
  rewrite (digits_unique z 2) by (cbn; lia). change (Z.to_nat 2) with 2%nat. cbn [last_digits app].
  rewrite (Z.mod_small (z / 10)) by (Z.div_mod_to_equations; lia). reflexivity.
Qed.
Lemma integer_text_3 z : 100 <= z < 1000 -> integer_text z = [48 + z / 10 / 10; 48 + (z / 10) mod 10; 48 + z mod 10].
Proof.
  intros H. unfold integer_text. destruct (Z.eqb_spec z 0); [lia|].
  rewrite (digits_unique z 3) by (cbn; lia). change (Z.to_nat 3) with 3%nat. cbn [last_digits app].
  rewrite (Z.mod_small (z / 10 / 10)) by (Z.div_mod_to_equations; lia). reflexivity.
Qed.

Definition exponent_text (x : Z) : list Z := if x <? 0 then 45 :: integer_text (- x) else integer_text x.
Definition exponent_limit (f : fmt) : Z := match f with Binary32 => 100 | Binary64 => 1000 end.

Lemma i32_ok z : - 2 ^ 31 <= z < 2 ^ 31 -> i32 z = Ok z.
Proof. intros H. unfold i32. destruct (Z.leb_spec (- 2 ^ 31) z), (Z.ltb_spec z (2 ^ 31)); try lia. reflexivity. Qed.

Lemma short_ok b p x : 0 <= p -> 0 <= x < 100 -> p + text_length (integer_text x) <= capacity b ->
  exists b', (if 10 <=? x then
      off <- i32 (2 * x) ;; b <- copy_pair b p off ;; p <- ptr b p 2 ;; Ok (b, p)
    else b <- store b p (to_char (char_0 + x)) ;; p <- ptr b p 1 ;; Ok (b, p)) = Ok (b', p + text_length (integer_text x)) /\
    written b p (integer_text x) b'.
Proof.
  intros Hp Hx. destruct (Z.leb_spec 10 x).
  - rewrite integer_text_2 by lia. change (text_length _) with 2. intros Hc. rewrite i32_ok by lia. cbn [bind].
    destruct (copy_pair_written b p x ltac:(lia) Hp Hc) as (b' & -> & W). cbn [bind].
    rewrite ptr_ok by (rewrite (proj1 W); lia). exists b'. split; [reflexivity | exact W].
  - rewrite integer_text_1 by lia. change (text_length _) with 1. intros Hc.
    assert (to_char (char_0 + x) = 48 + x) as -> by (unfold to_char, char_0, wrap; apply Z.mod_small; lia).
    destruct (store_written b p (48 + x) ltac:(lia)) as (b' & -> & W). cbn [bind].
    rewrite ptr_ok by (rewrite (proj1 W); lia). exists b'. split; [reflexivity | exact W].
Qed.

Lemma exponent_ok f b p e L : 0 <= p -> 0 < L < 100 -> Z.abs (e + L - 1) < exponent_limit f ->
  p + 1 + text_length (exponent_text (e + L - 1)) <= capacity b ->
  exists b', put_exponent f b p e L = Ok (b', p + 1 + text_length (exponent_text (e + L - 1))) /\
    written b p (69 :: exponent_text (e + L - 1)) b'.
Proof.
  intros Hp HL Hx Hc. set (x := e + L - 1) in *. pose proof (text_length_nonneg (exponent_text x)) as Hn.
  assert (Hlim : exponent_limit f <= 1000) by (destruct f; cbn; lia).
  unfold put_exponent.
  destruct (store_written b p char_E ltac:(lia)) as (b1 & -> & W1). cbn [bind].
  rewrite ptr_ok by (rewrite (proj1 W1); lia). cbn [bind].
  rewrite i32_ok by lia. cbn [bind]. fold x. rewrite i32_ok by lia. cbn [bind].
  assert (S : exists b2 p2, (if x <? 0 then b <- store b1 (p + 1) char_minus ;; p <- ptr b (p + 1) 1 ;; exp <- i32 (- x) ;; Ok (b, p, exp)
     else Ok (b1, p + 1, x)) = Ok (b2, p2, Z.abs x) /\
     written b1 (p + 1) (if x <? 0 then [45] else []) b2 /\ p2 = p + 1 + (if x <? 0 then 1 else 0) /\
     exponent_text x = (if x <? 0 then [45] else []) ++ integer_text (Z.abs x)).
  { unfold exponent_text in *. destruct (Z.ltb_spec x 0).
    - rewrite text_length_cons in Hc. pose proof (text_length_nonneg (integer_text (- x))).
      destruct (store_written b1 (p + 1) char_minus) as (b2 & -> & W2); [rewrite (proj1 W1); lia|]. cbn [bind].
      rewrite ptr_ok by (rewrite (proj1 W2), (proj1 W1); lia). cbn [bind]. rewrite i32_ok by lia. cbn [bind].
      exists b2, (p + 1 + 1). rewrite Z.abs_neq by lia. repeat split; apply W2.
    - exists b1, (p + 1). rewrite Z.abs_eq by lia. repeat split; [|lia]. apply written_nil. }
  destruct S as (b2 & p2 & -> & W2 & Ep2 & Et). cbn [bind].
  assert (Hlen : text_length (exponent_text x) = (if x <? 0 then 1 else 0) + text_length (integer_text (Z.abs x)))
    by (rewrite Et, text_length_app; destruct (x <? 0); reflexivity).
  assert (F : forall b3 q, written b2 p2 (integer_text (Z.abs x)) b3 -> q = p2 + text_length (integer_text (Z.abs x)) ->
     exists b', Ok (b3, q) = Ok (b', p + 1 + text_length (exponent_text x)) /\ written b p (69 :: exponent_text x) b').
  { intros b3 q W3 ->. exists b3. split; [f_equal; f_equal; lia|]. rewrite Et. change (69 :: ?t) with ([69] ++ t).
    eapply written_app; [exact W1|]. change (text_length [69]) with 1. eapply written_app; [exact W2|].
    replace (p + 1 + text_length (if x <? 0 then [45] else [])) with p2 by (rewrite Ep2; destruct (x <? 0); reflexivity). exact W3. }
  assert (Hp2 : 0 <= p2) by (rewrite Ep2; destruct (x <? 0); lia).
  assert (Hc2 : p2 + text_length (integer_text (Z.abs x)) <= capacity b2) by (rewrite (proj1 W2), (proj1 W1), Ep2; lia).
  clear W1 W2 Et Hlen Hc Ep2. set (y := Z.abs x) in *. assert (Hy : 0 <= y) by (unfold y; lia). clearbody y.
  destruct f.
  - destruct (short_ok b2 p2 y Hp2 ltac:(cbn in Hx; lia) Hc2) as (b3 & E & W). rewrite E. apply F; [exact W | reflexivity].
  - destruct (Z.leb_spec 100 y) as [G|Le].
    + cbn in Hx. assert (Hq : 0 <= y / 10 < 100) by (Z.div_mod_to_equations; lia).
      rewrite integer_text_3 in Hc2 by lia. cbn in Hc2.
      rewrite i32_ok by lia. cbn [bind].
      destruct (copy_pair_written b2 p2 (y / 10) Hq Hp2 ltac:(lia)) as (b3 & -> & W3). cbn [bind].
      assert (to_char (char_0 + y mod 10) = 48 + y mod 10) as ->
        by (unfold to_char, char_0, wrap; apply Z.mod_small; pose proof (Z.mod_pos_bound y 10); lia).
      destruct (store_written b3 (p2 + 2) (48 + y mod 10)) as (b4 & -> & W4); [rewrite (proj1 W3); lia|]. cbn [bind].
      rewrite ptr_ok by (rewrite (proj1 W4), (proj1 W3); lia). cbn [bind]. apply F; [|rewrite integer_text_3 by lia; reflexivity].
      rewrite integer_text_3 by lia. change [?a; ?c; ?d] with ([a; c] ++ [d]). eapply written_app; [exact W3 | exact W4].
    + destruct (short_ok b2 p2 y Hp2 ltac:(lia) Hc2) as (b3 & E & W). rewrite E. apply F; [exact W | reflexivity].
Qed.

(** ** fp_to_chars_impl *)
Lemma split_ok f b base s : 0 < s -> digits s <= max_digits f -> 0 <= base -> base + digits s < capacity b ->
  exists b' o i, split_8 f b base (digits s) s = Ok (b', o, i) /\ partly b b' base (digits s) s i /\
    (i = 0 \/ i = 8) /\ o = s / 10 ^ i /\ 1 <= o < 2 ^ 32.
Proof.
  intros Hs Hd Hb Hc. apply digits_le in Hd; [|exact Hs|destruct f; discriminate].
  assert (Z0 : s = s / 10 ^ 0) by (change (10 ^ 0) with 1; rewrite Z.div_1_r; reflexivity).
  destruct f; cbn [split_8 max_digits] in *.
  - exists b, s, 0. split; [reflexivity|]. split; [apply partly_0|]. split; [left; reflexivity|]. split; [exact Z0|].
    change (10 ^ 9) with 1000000000 in Hd. lia.
  - change (10 ^ 17) with 100000000000000000 in Hd. rewrite Z.shiftr_div_pow2 by lia.
    destruct (Z.eqb_spec (s / 2 ^ 32) 0) as [E0|N0]; cbn [negb].
    + exists b, s, 0. split; [reflexivity|]. split; [apply partly_0|]. split; [left; reflexivity|]. split; [exact Z0|].
      Z.div_mod_to_equations. lia.
    + assert (G : 2 ^ 32 <= s) by (Z.div_mod_to_equations; lia). cbv zeta.
      set (q := s / 100000000). assert (Hq : 1 <= q < 1000000000) by (unfold q; Z.div_mod_to_equations; lia).
      assert (Hq32 : wrap 32 q = q) by (apply Z.mod_small; lia).
      assert (Hlow : wrap 32 (wrap 32 s - wrap 32 (100000000 * wrap 32 q)) = s mod 100000000).
      { rewrite Hq32. unfold wrap. rewrite <- Zminus_mod. rewrite Z.mod_small; unfold q; Z.div_mod_to_equations; lia. }
      rewrite Hlow. assert (HL : 9 < digits s).
      { destruct (Z.lt_ge_cases 9 (digits s)) as [A|A]; [exact A|]. apply digits_le in A; [|exact Hs|lia]. change (10 ^ 9) with 1000000000 in A. lia. }
      destruct (partly_pair b b base (digits s) s 0 0 1 (s mod 100000000 mod 10000 mod 100) (partly_0 _ _ _ _) Hb Hc) as (b1 & E1 & P1); try lia.
      { rewrite <- Z0. Z.div_mod_to_equations; lia. }
      rewrite E1. cbn [bind].
      destruct (partly_pair b b1 base (digits s) s (0 + 2) 0 3 (s mod 100000000 mod 10000 / 100) P1 Hb Hc) as (b2 & E2 & P2); try lia.
      { change (10 ^ (0 + 2)) with 100. Z.div_mod_to_equations; lia. }
      rewrite E2. cbn [bind].
      destruct (partly_pair b b2 base (digits s) s (0 + 2 + 2) 0 5 (s mod 100000000 / 10000 mod 10000 mod 100) P2 Hb Hc) as (b3 & E3 & P3); try lia.
      { change (10 ^ (0 + 2 + 2)) with 10000. Z.div_mod_to_equations; lia. }
      rewrite E3. cbn [bind].
      destruct (partly_pair b b3 base (digits s) s (0 + 2 + 2 + 2) 0 7 (s mod 100000000 / 10000 mod 10000 / 100) P3 Hb Hc) as (b4 & E4 & P4); try lia.
      { change (10 ^ (0 + 2 + 2 + 2)) with 1000000. Z.div_mod_to_equations; lia. }
      rewrite E4. cbn [bind]. exists b4, q, 8. split; [reflexivity|]. split; [exact P4|]. split; [right; reflexivity|].
      split; [reflexivity | lia].
Qed.

Lemma impl_ok cfg f v b base : 0 < fp_significand v -> digits (fp_significand v) <= max_digits f ->
  Z.abs (fp_exponent v + digits (fp_significand v) - 1) < exponent_limit f -> 0 <= base ->
  base + text_length (scientific false (fp_significand v) (fp_exponent v)) <= capacity b ->
  exists b', fp_to_chars_impl cfg f v b base =
      Ok (b', base + text_length (scientific false (fp_significand v) (fp_exponent v))) /\
    written b base (scientific false (fp_significand v) (fp_exponent v)) b'.
Proof.
  set (s := fp_significand v). set (e := fp_exponent v). intros Hs Hd He Hb Hc.
  destruct (digits_bounds s Hs) as [HL1 _].
  assert (HLmax : digits s <= 17) by (destruct f; cbn in Hd; lia).
  assert (Et : scientific false s e = pointed (integer_text s) ++ 69 :: exponent_text (e + digits s - 1)) by reflexivity.
  assert (El : text_length (scientific false s e) = text_length (pointed (integer_text s)) + 1 + text_length (exponent_text (e + digits s - 1)))
    by (rewrite Et, text_length_app, text_length_cons; lia).
  pose proof (text_length_nonneg (exponent_text (e + digits s - 1))) as Hn.
  assert (Hroom : base + digits s < capacity b).
  { rewrite El, pointed_length, (integer_text_length s Hs) in Hc. destruct (1 <? digits s); lia. }
  unfold fp_to_chars_impl. fold s e. rewrite decimal_length_ok by assumption. cbn [bind].
  destruct (split_ok f b base s Hs Hd Hb Hroom) as (b1 & o & i & -> & P1 & Hi & Eo & Ho). cbn [bind].
  assert (wrap 32 o = o) as -> by (apply Z.mod_small; lia).
  destruct (loop_ok b base s Hs Hb Hroom 4 b1 i o P1) as (b2 & i2 & o2 & -> & P2 & Hi2 & Eo2 & Ho2); try lia. cbn [bind].
  assert (R : forall k z, 0 <= k -> z = s / 10 ^ k -> 1 <= z -> k < 100).
  { intros k z Hk Ez Hz. pose proof (room s Hs k 0 Hk ltac:(lia)) as R. rewrite <- Ez in R. specialize (R Hz). lia. }
  destruct (two_ok b base s Hs Hb Hroom b2 i2 o2 P2 (conj Hi2 (R i2 o2 Hi2 Eo2 ltac:(lia))) Eo2 Ho2) as (b3 & i3 & o3 & -> & P3 & Hi3 & Eo3 & Ho3). cbn [bind].
  destruct (first_ok b base s Hs Hb Hroom b3 i3 o3 P3 (conj Hi3 (R i3 o3 Hi3 Eo3 ltac:(lia))) Eo3 Ho3) as (b4 & -> & M4). cbn [bind].
  destruct (point_ok b base s Hs Hb Hroom b4 M4 ltac:(lia)) as (b5 & p & -> & W5 & Ep). cbn [bind].
  pose proof (text_length_nonneg (pointed (integer_text s))) as Hn2.
  destruct (exponent_ok f b5 p e (digits s)) as (b6 & -> & W6); [lia | lia | exact He | rewrite (proj1 W5); lia|].
  exists b6. split; [f_equal; f_equal; lia|]. rewrite Et. eapply written_app; [exact W5|]. rewrite <- Ep. exact W6.
Qed.
