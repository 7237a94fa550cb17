(** * Counting the divisions of a power of 2 by 10, tests/verify_log_computation.cpp:44-47 *)

From Coq Require Import ZArith List Bool Lia.
From Verif Require Import Machine Model BigintModel BigSpec BigClaims DivModel DivSpec Division CheckModel.
From Verif Require DivClaims.
Open Scope Z_scope.

(** ** Quotients without 60 zeros in a row *)
Fixpoint close_bits (p : positive) (room : nat) : bool :=
  match p with
  | xH => true
  | xI q => close_bits q 59
  | xO q => match room with O => false | S r => close_bits q r end
  end.
Lemma close_bits_ok p : forall room, close_bits p room = true ->
  forall t, 0 <= t -> Z.testbit (Zpos p) t = true -> t <= Z.of_nat room \/ exists s, 0 <= s /\ t - 60 <= s < t /\ Z.testbit (Zpos p) s = true.
Proof.
  induction p as [p IH|p IH|]; intros room H t Ht B; cbn [close_bits] in H.
  - destruct (Z.eq_dec t 0) as [->|T0]; [left; lia | right].
    replace t with (Z.succ (t - 1)) in B by lia. rewrite (Pos2Z.inj_xI p), Z.testbit_odd_succ in B by lia.
    destruct (IH 59%nat H (t - 1) ltac:(lia) B) as [L|(s & S0 & S1 & S2)].
    + exists 0. split; [lia|]. split; [lia | reflexivity].
    + exists (Z.succ s). split; [lia|]. split; [lia|]. rewrite (Pos2Z.inj_xI p), Z.testbit_odd_succ by lia. exact S2.
  - destruct room as [|room]; [discriminate|]. destruct (Z.eq_dec t 0) as [->|T0]; [discriminate|].
    replace t with (Z.succ (t - 1)) in B by lia. rewrite (Pos2Z.inj_xO p), Z.testbit_even_succ in B by lia.
    destruct (IH room H (t - 1) ltac:(lia) B) as [L|(s & S0 & S1 & S2)]; [left; lia | right].
    exists (Z.succ s). split; [lia|]. split; [lia|]. rewrite (Pos2Z.inj_xO p), Z.testbit_even_succ by lia. exact S2.
  - left. destruct (Z.eq_dec t 0) as [->|T0]; [lia|]. exfalso. rewrite Z.bits_above_log2 in B; [discriminate | lia | cbn; lia].
Qed.
Definition dense_check (q : Z) : bool := match q with Zpos p => close_bits p 59 | _ => true end.
Lemma dense_check_ok q : 0 <= q -> dense_check q = true -> dense q.
Proof.
  intros Hq H t Ht B. destruct q as [|p|p]; [rewrite Z.bits_0 in B; discriminate | | lia].
  destruct (close_bits_ok p 59 H t ltac:(lia) B) as [L|(s & _ & S1 & S2)]; [lia | exists s; split; assumption].
Qed.
Lemma dense_shift q d : 0 <= d -> dense q -> dense (q / 2 ^ d).
Proof.
  intros Hd H t Ht B. rewrite Z.div_pow2_bits in B by lia. destruct (H (t + d) ltac:(lia) B) as (s & S1 & S2).
  exists (s - d). split; [lia|]. rewrite Z.div_pow2_bits by lia. replace (s - d + d) with s by ring. exact S2.
Qed.
(** all the quotients by powers of 10 *)
Definition all_dense (v : Z) : Prop := forall j, 1 <= j -> dense (v / 10 ^ j).
Fixpoint quotients (n : nat) (v : Z) : bool :=
  match n with O => v =? 0 | S n => let q := v / 10 in if dense_check q then quotients n q else false end.
Lemma quotients_ok n : forall v, 0 <= v -> quotients n v = true -> all_dense v.
Proof.
  induction n as [|n IH]; intros v Hv H j Hj; cbn [quotients] in H.
  - apply Z.eqb_eq in H. subst v. rewrite Z.div_0_l by (apply Z.pow_nonzero; lia). intros t _ B. rewrite Z.bits_0 in B. discriminate.
  - pose proof (Z.div_pos v 10 Hv ltac:(lia)) as P. destruct (dense_check (v / 10)) eqn:D; [|discriminate].
    destruct (Z.eq_dec j 1) as [->|J1]; [rewrite Z.pow_1_r; apply dense_check_ok; assumption|].
    replace (10 ^ j) with (10 * 10 ^ (j - 1)) by (rewrite <- Z.pow_succ_r by lia; f_equal; lia).
    rewrite <- Z.div_div by (try (apply Z.pow_pos_nonneg); lia). apply IH; [exact P | exact H | lia].
Qed.
(** 3983 is the last exponent for which the program divides *)
Lemma check_3983 : quotients (Z.to_nat 1200) (2 ^ 3983) = true.
Proof. vm_compute. reflexivity. Qed.
Lemma powers_dense e : 0 <= e <= 3983 -> all_dense (2 ^ e).
Proof.
  intros He j Hj. replace (2 ^ e) with (2 ^ 3983 / 2 ^ (3983 - e)).
  - rewrite Z.div_div, Z.mul_comm, <- Z.div_div by (try apply Z.pow_nonzero; try apply Z.pow_pos_nonneg; lia). apply dense_shift; [lia|].
    apply (quotients_ok (Z.to_nat 1200)); [apply Z.pow_nonneg; lia | exact check_3983 | exact Hj].
  - rewrite <- Z.pow_sub_r by lia. f_equal. lia.
Qed.
Lemma all_dense_next v : all_dense v -> all_dense (v / 10).
Proof.
  intros H j Hj. rewrite Z.div_div by (try (apply Z.pow_pos_nonneg); lia). rewrite <- Z.pow_succ_r by lia. apply H. lia.
Qed.

(** ** The count *)
Lemma count_ok cfg junk N e : 64 * Z.of_nat N < 2 ^ 64 -> (1 <= N)%nat -> forall fuel number v k, represents N number v -> 0 < v < 2 ^ Z.of_nat fuel -> all_dense v ->
  exists m, count_divisions cfg junk N 10 fuel number e k = Ok (k + m) /\ 0 <= m /\ 10 ^ m <= v < 10 ^ (m + 1).
Proof.
  intros HN N1. induction fuel as [|fuel IH]; intros number v k R Hv Hd.
  - change (2 ^ Z.of_nat 0) with 1 in Hv. lia.
  - cbn [count_divisions]. destruct (element_comparisons N number v 10 R ltac:(lia)) as (_ & _ & _ & -> & _). cbn [bind].
    destruct (Z.leb_spec 10 v) as [L|L].
    + destruct (made_from_element N (junk e fuel 0%nat) 10 N1 ltac:(lia)) as (c & -> & Rc). cbn [bind].
      destruct (DivClaims.division cfg N (junk e fuel 1%nat) (junk e fuel 2%nat) number c v 10 HN R Rc ltac:(lia)) as (r & q & -> & _ & Rq).
      { apply dense_safe; [lia | lia | reflexivity|]. pose proof (Hd 1 ltac:(lia)) as D. rewrite Z.pow_1_r in D. exact D. }
      cbn [bind snd]. pose proof (Z.div_mod v 10 ltac:(lia)) as DM. pose proof (Z.mod_pos_bound v 10 ltac:(lia)) as MB.
      rewrite Nat2Z.inj_succ, Z.pow_succ_r in Hv by lia.
      destruct (IH q (v / 10) (k + 1) Rq ltac:(lia) (all_dense_next v Hd)) as (m & -> & M0 & M1).
      exists (m + 1). split; [f_equal; ring|]. split; [lia|]. rewrite !Z.pow_add_r in * by lia. change (10 ^ 1) with 10 in *. lia.
    + exists 0. split; [f_equal; ring|]. split; [lia|]. change (10 ^ 0) with 1. change (10 ^ (0 + 1)) with 10. lia.
Qed.
Lemma count_power cfg junk N e : 64 * Z.of_nat N < 2 ^ 64 -> (1 <= N)%nat -> 0 <= e <= 3983 -> e < 64 * Z.of_nat N ->
  exists m, (number <- power_of_2 cfg N (junk e 0%nat 3%nat) e ;; count_divisions cfg junk N 10 (S (Z.to_nat e)) number e 0) = Ok m /\
    0 <= m /\ 10 ^ m <= 2 ^ e < 10 ^ (m + 1).
Proof.
  intros HN N1 He Hf. destruct (made_power_of_2 cfg N (junk e 0%nat 3%nat) e ltac:(lia)) as (b & -> & R). cbn [bind].
  destruct (count_ok cfg junk N e HN N1 (S (Z.to_nat e)) b (2 ^ e) 0 R) as (m & E & H).
  - rewrite Nat2Z.inj_succ, Z2Nat.id by lia. split; [apply Z.pow_pos_nonneg; lia | apply Z.pow_lt_mono_r; lia].
  - apply powers_dense. exact He.
  - exists m. split; [exact E | exact H].
Qed.
Lemma log10_unique v m n : 0 <= m -> 0 <= n -> 10 ^ m <= v < 10 ^ (m + 1) -> 10 ^ n <= v < 10 ^ (n + 1) -> m = n.
Proof.
  intros Hm Hn A B. destruct (Z.lt_trichotomy m n) as [L|[E|L]]; [exfalso | exact E | exfalso].
  - assert (10 ^ (m + 1) <= 10 ^ n) by (apply Z.pow_le_mono_r; lia). lia.
  - assert (10 ^ (n + 1) <= 10 ^ m) by (apply Z.pow_le_mono_r; lia). lia.
Qed.
