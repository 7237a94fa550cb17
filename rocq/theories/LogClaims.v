(** * What tests/verify_log_computation.cpp does, in every build *)

From Coq Require Import ZArith List Bool Lia.
From Verif Require Import Machine Model BigintModel BigSpec BigFacts BigClaims DivModel CheckModel LogCounts.
Open Scope Z_scope.

Lemma int_loop_keeps {S R} (P : Z -> S -> Prop) (body : Z -> S -> outcome (S + R)) n : forall i s, P i s ->
  (forall j s, i <= j < i + Z.of_nat n -> P j s -> exists s', body j s = Ok (inl s') /\ P (j + 1) s') ->
  exists s', int_loop body i n s = Ok (inl s') /\ P (i + Z.of_nat n) s'.
Proof.
  induction n as [|n IH]; intros i s H0 H.
  - exists s. split; [reflexivity|]. replace (i + Z.of_nat 0) with i by lia. exact H0.
  - cbn [int_loop]. destruct (H i s ltac:(lia) H0) as (s1 & -> & H1). cbn [bind].
    destruct (IH (i + 1) s1 H1) as (s2 & E & H2); [intros j t Hj; apply H; lia|]. exists s2. split; [exact E|].
    replace (i + Z.of_nat (Datatypes.S n)) with (i + 1 + Z.of_nat n) by lia. exact H2.
Qed.
Lemma int_loop_app {S R} (body : Z -> S -> outcome (S + R)) n m : forall i s,
  int_loop body i (n + m) s = (r <- int_loop body i n s ;; match r with inl s => int_loop body (i + Z.of_nat n) m s | inr r => Ok (inr r) end).
Proof.
  induction n as [|n IH]; intros i s; cbn [Nat.add int_loop bind].
  - replace (i + Z.of_nat 0) with i by lia. reflexivity.
  - destruct (body i s) as [[s1|r]| | |]; cbn [bind]; try reflexivity. rewrite IH.
    replace (i + 1 + Z.of_nat n) with (i + Z.of_nat (Datatypes.S n)) by lia. reflexivity.
Qed.

(** ** The loop of a section *)
Section Loop.
Variables (low : Z -> outcome Z) (large : Z -> bool) (exact computed : Z -> outcome Z) (limit : Z).
Definition turn (e : Z) (st : bool * Z) : outcome (bool * Z + Datatypes.unit) :=
  let '(succeeded, maximum_valid_exp) := st in
  lower <- low e ;;
  succeeded <- (if large lower then
                  true_value <- exact e ;;
                  c <- computed e ;;
                  let succeeded := if negb (c =? true_value) then false else succeeded in
                  c <- computed (- e) ;;
                  Ok (if negb (c =? - true_value - 1) then false else succeeded)
                else Ok succeeded) ;;
  Ok (inl (succeeded, if succeeded : bool then e else maximum_valid_exp)).
Lemma log_section_turns : log_section low large exact computed limit =
  (r <- int_loop turn 1 (Z.to_nat limit) (true, 0) ;; Ok (match r with inl st => snd st | inr _ => 0 end)).
Proof. reflexivity. Qed.

Lemma section_quiet : 0 <= limit -> (forall e, 1 <= e <= limit -> exists l, low e = Ok l /\ large l = false) ->
  log_section low large exact computed limit = Ok limit.
Proof.
  intros L0 H. rewrite log_section_turns.
  destruct (int_loop_keeps (fun i s => s = (true, i - 1)) turn (Z.to_nat limit) 1 (true, 0) eq_refl) as (s & -> & ->).
  - intros j s Hj ->. exists (true, j). split; [|f_equal; lia]. destruct (H j ltac:(lia)) as (l & E & F).
    unfold turn. rewrite E. cbn [bind]. rewrite F. reflexivity.
  - cbn [bind snd]. f_equal. lia.
Qed.
Lemma section_undefined u : 1 <= u <= limit -> low u = Undefined ->
  (forall e, 1 <= e < u -> exists l, low e = Ok l /\ (large l = true -> exists t c c', exact e = Ok t /\ computed e = Ok c /\ computed (- e) = Ok c')) ->
  log_section low large exact computed limit = Undefined.
Proof.
  intros Hu Eu H. rewrite log_section_turns.
  replace (Z.to_nat limit) with (Z.to_nat (u - 1) + S (Z.to_nat (limit - u)))%nat by lia. rewrite int_loop_app.
  destruct (int_loop_keeps (fun _ _ => True) turn (Z.to_nat (u - 1)) 1 (true, 0) I) as ([b m] & -> & _).
  - intros j [b m] Hj _. destruct (H j ltac:(lia)) as (l & E & F). unfold turn. rewrite E. cbn [bind].
    destruct (large l); [|eexists; split; [reflexivity | exact I]].
    destruct (F eq_refl) as (t & c & c' & -> & -> & ->). cbn [bind]. eexists; split; [reflexivity | exact I].
  - cbn [bind int_loop]. replace (1 + Z.of_nat (Z.to_nat (u - 1))) with u by lia. unfold turn at 1. rewrite Eu. reflexivity.
Qed.
(** wrong for the first time at [u] *)
Lemma section_stops u : 1 <= u <= limit ->
  (forall e, 1 <= e < u -> exists l, low e = Ok l /\ (large l = true -> exists t, exact e = Ok t /\ computed e = Ok t /\ computed (- e) = Ok (- t - 1))) ->
  (exists l t c c', low u = Ok l /\ large l = true /\ exact u = Ok t /\ computed u = Ok c /\ computed (- u) = Ok c' /\ (c <> t \/ c' <> - t - 1)) ->
  (forall e, u < e <= limit -> exists l, low e = Ok l /\ (large l = true -> exists t c c', exact e = Ok t /\ computed e = Ok c /\ computed (- e) = Ok c')) ->
  log_section low large exact computed limit = Ok (u - 1).
Proof.
  intros Hu H1 (lu & t & c & c' & E1 & E2 & E3 & E4 & E5 & E6) H2. rewrite log_section_turns.
  replace (Z.to_nat limit) with (Z.to_nat (u - 1) + S (Z.to_nat (limit - u)))%nat by lia. rewrite int_loop_app.
  destruct (int_loop_keeps (fun i s => s = (true, i - 1)) turn (Z.to_nat (u - 1)) 1 (true, 0) eq_refl) as (s & -> & ->).
  - intros j s Hj ->. exists (true, j). split; [|f_equal; lia]. destruct (H1 j ltac:(lia)) as (l & E & F).
    unfold turn. rewrite E. cbn [bind]. destruct (large l); [|reflexivity]. destruct (F eq_refl) as (m & -> & -> & ->). cbn [bind]. rewrite !Z.eqb_refl. reflexivity.
  - cbn [bind int_loop]. replace (1 + Z.of_nat (Z.to_nat (u - 1))) with u by lia. unfold turn at 1. rewrite E1. cbn [bind]. rewrite E2, E3. cbn [bind]. rewrite E4. cbn [bind]. rewrite E5. cbn [bind].
    replace (if negb (c' =? - t - 1) then false else if negb (c =? t) then false else true) with false.
    2: { destruct (Z.eqb_spec c t), (Z.eqb_spec c' (- t - 1)); cbn [negb]; try reflexivity. lia. }
    destruct (int_loop_keeps (fun _ s => s = (false, u - 1)) turn (Z.to_nat (limit - u)) (u + 1) (false, u - 1) eq_refl) as (s & -> & ->).
    + intros j s Hj ->. exists (false, u - 1). split; [|reflexivity]. destruct (H2 j ltac:(lia)) as (l & E & F). unfold turn. rewrite E. cbn [bind].
      destruct (large l); [|reflexivity]. destruct (F eq_refl) as (x & y & y' & -> & -> & ->). cbn [bind]. destruct (y =? x), (y' =? - x - 1); reflexivity.
    + reflexivity.
Qed.
End Loop.

(** ** The third section *)

Fixpoint never_close (n : nat) (lower : Z) : bool :=
  match n with
  | O => true
  | S n' =>
      let next := lower + 0x6e40d1a4 in
      let next := if next <? 0x100000000 then next else next - 0x100000000 in
      if next <? 0x100000000 - 0x143e then never_close n' next else false
  end.
Lemma never_close_ok n : forall i, never_close n ((i * 0x6e40d1a4) mod 2 ^ 32) = true ->
  forall j, i < j <= i + Z.of_nat n -> (j * 0x6e40d1a4) mod 2 ^ 32 < 0x100000000 - 0x143e.
Proof.
  induction n as [|n IH]; intros i H j Hj; [lia|]. cbn [never_close] in H.
  assert (E : (if (i * 1849741732) mod 2 ^ 32 + 1849741732 <? 4294967296 then (i * 1849741732) mod 2 ^ 32 + 1849741732
     else (i * 1849741732) mod 2 ^ 32 + 1849741732 - 4294967296) = ((i + 1) * 1849741732) mod 2 ^ 32).
  { change (2 ^ 32) with 4294967296. pose proof (Z.mod_pos_bound (i * 1849741732) 4294967296 ltac:(lia)).
    pose proof (Z.div_mod (i * 1849741732) 4294967296 ltac:(lia)).
    destruct (Z.ltb_spec ((i * 1849741732) mod 4294967296 + 1849741732) 4294967296).
    - apply (Z.mod_unique_pos _ _ (i * 1849741732 / 4294967296)); lia.
    - apply (Z.mod_unique_pos _ _ (i * 1849741732 / 4294967296 + 1)); lia. }
  rewrite E in H. destruct (Z.ltb_spec (((i + 1) * 1849741732) mod 2 ^ 32) (4294967296 - 5182)); [|discriminate].
  destruct (Z.eq_dec j (i + 1)) as [->|]; [assumption | apply (IH (i + 1)); [assumption | lia]].
Qed.
Lemma log5_never_close : never_close (Z.to_nat 65536) ((0 * 0x6e40d1a4) mod 2 ^ 32) = true.
Proof. vm_compute. reflexivity. Qed.

Lemma i64_ok x : - 2 ^ 63 <= x < 2 ^ 63 -> i64 x = Ok x.
Proof. intros H. unfold i64. rewrite (proj2 (Z.leb_le _ _)), (proj2 (Z.ltb_lt _ _)) by lia. reflexivity. Qed.
Lemma i32_ok x : - 2 ^ 31 <= x < 2 ^ 31 -> i32 x = Ok x.
Proof. intros H. unfold i32. rewrite (proj2 (Z.leb_le _ _)), (proj2 (Z.ltb_lt _ _)) by lia. reflexivity. Qed.

Lemma log5_section cfg junk : log5_pow2_section cfg junk = Ok 65536.
Proof.
  unfold log5_pow2_section. apply section_quiet; [lia|]. intros e He. eexists. split.
  - rewrite i64_ok by lia. reflexivity.
  - cbv beta. change 0xffffffff with (Z.ones 32). rewrite Z.land_ones by lia.
    pose proof (never_close_ok _ 0 log5_never_close e ltac:(lia)) as L. apply Z.leb_gt. lia.
Qed.

(** ** The first section *)
Definition divided : list Z := 289 :: 485 :: 970 :: 1455 :: 1651 :: 2136 :: 2621 :: 2817 :: 3302 :: 3787 :: 3983 :: nil.
Definition large10 (e : Z) : bool := 0x100000 <=? Z.land (e * 0x4d104) 0xfffff + 0xd28.
Lemma divided_all : forallb (fun n => let e := Z.of_nat n in Bool.eqb (large10 e) (existsb (Z.eqb e) divided)) (seq 1 4096) = true.
Proof. vm_compute. reflexivity. Qed.
Lemma large10_divided e : 1 <= e <= 4096 -> large10 e = true -> In e divided.
Proof.
  intros He H. pose proof (proj1 (forallb_forall _ _) divided_all (Z.to_nat e)) as A. cbv beta zeta in A.
  rewrite Z2Nat.id in A by lia. specialize (A ltac:(apply in_seq; lia)). apply eqb_prop in A. rewrite H in A.
  symmetry in A. apply existsb_exists in A. destruct A as (x & Hx & E). apply Z.eqb_eq in E. subst x. exact Hx.
Qed.
Definition right_at (e : Z) : bool :=
  let c := Z.shiftr (e * 0x4d104) 20 in
  (10 ^ c <=? 2 ^ e) && (2 ^ e <? 10 ^ (c + 1)) && (0 <=? c) && (Z.shiftr (- e * 0x4d104) 20 =? - c - 1).
Lemma right_before : forallb (fun e => right_at e) (289 :: 485 :: 970 :: 1455 :: nil) = true.
Proof. vm_compute. reflexivity. Qed.

Lemma log10_section cfg junk : log10_pow2_section cfg junk = Ok 1650.
Proof.
  unfold log10_pow2_section.
  assert (HN : 64 * Z.of_nat (array_size_of 4097) < 2 ^ 64) by (vm_compute; reflexivity).
  assert (Hf : 64 * Z.of_nat (array_size_of 4097) = 4160) by (vm_compute; reflexivity).
  assert (Low : forall e, 1 <= e <= 4096 -> (m <- i32 (e * 0x4d104) ;; Ok (Z.land m 0xfffff)) = Ok (Z.land (e * 0x4d104) 0xfffff)) by (intros e He; rewrite i32_ok by lia; reflexivity).
  assert (Count : forall e, 1 <= e <= 4096 -> (0x100000 <=? Z.land (e * 0x4d104) 0xfffff + 0xd28) = true ->
    exists m, (number <- power_of_2 cfg (array_size_of 4097) (junk e 0%nat 3%nat) e ;; count_divisions cfg junk (array_size_of 4097) 10 (S (Z.to_nat e)) number e 0) = Ok m /\
      0 <= m /\ 10 ^ m <= 2 ^ e < 10 ^ (m + 1)).
  { intros e He L. apply count_power; [exact HN | lia | | lia]. pose proof (large10_divided e He L) as I.
    repeat (destruct I as [<-|I]; [lia|]). destruct I. }
  assert (Computed : forall e, - 4096 <= e <= 4096 -> unchecked_log10_pow2 e = Ok (Z.shiftr (e * 0x4d104) 20)) by (intros e He; unfold unchecked_log10_pow2; rewrite i32_ok by lia; reflexivity).
  apply (section_stops _ _ _ _ _ 1651); [lia | | |].
  - intros e He. eexists. split; [apply Low; lia|]. intros L. destruct (Count e ltac:(lia) L) as (m & E & M0 & M1). exists m. split; [exact E|].
    rewrite !Computed by lia. assert (I : In e (289 :: 485 :: 970 :: 1455 :: nil)).
    { pose proof (large10_divided e ltac:(lia) L) as I. cbn [In divided] in I |- *. repeat (destruct I as [<-|I]; [auto; lia|]). destruct I. }
    pose proof (proj1 (forallb_forall _ _) right_before e I) as R. unfold right_at in R. cbv zeta in R. rewrite !andb_true_iff, Z.leb_le, Z.ltb_lt, Z.leb_le, Z.eqb_eq in R.
    destruct R as [[[R1 R2] R3] R4]. rewrite (log10_unique (2 ^ e) m (Z.shiftr (e * 0x4d104) 20)) by (try assumption; split; assumption). rewrite R4. split; reflexivity.
  - destruct (Count 1651 ltac:(lia) eq_refl) as (m & E & M0 & M1). exists (Z.land (1651 * 0x4d104) 0xfffff), m. do 2 eexists.
    split; [apply Low; lia|]. split; [reflexivity|]. split; [exact E|]. split; [apply Computed; lia|]. split; [apply Computed; lia|]. left.
    rewrite (log10_unique (2 ^ 1651) m 497); [discriminate | exact M0 | lia | exact M1 |]. split; [apply Z.leb_le | apply Z.ltb_lt]; vm_compute; reflexivity.
  - intros e He. eexists. split; [apply Low; lia|]. intros L. destruct (Count e ltac:(lia) L) as (m & E & _). exists m. rewrite !Computed by lia. eauto.
Qed.

(** ** The second section: 617 * 0x35269e is more than a std::int32_t can hold *)
Lemma power_of_10 cfg N junk e : 0 <= e -> (0 < N)%nat -> 4 * e < 64 * Z.of_nat N ->
  exists b, (number <- power_of_2 cfg N (junk e 0%nat 3%nat) e ;; up_loop (fun i number => multiply_5 cfg N (junk e i 4%nat) number) 0 (Z.to_nat e) number) = Ok b /\
  represents N b (10 ^ e).
Proof.
  intros E0 HN HE. destruct (made_power_of_2 cfg N (junk e 0%nat 3%nat) e ltac:(lia)) as (b & -> & R). cbn [bind].
  destruct (up_loop_inv (fun k b => represents N b (2 ^ e * 5 ^ Z.of_nat k)) (fun i number => multiply_5 cfg N (junk e i 4%nat) number) 0 (Z.to_nat e) b) as (b' & E & R').
  - replace (2 ^ e * 5 ^ Z.of_nat 0) with (2 ^ e) by (cbn; lia). exact R.
  - intros k s Hk Rk. destruct (times_five cfg N (junk e k 4%nat) s _ Rk) as (s' & -> & R'').
    + apply Z.mul_pos_pos; apply Z.pow_pos_nonneg; lia.
    + split; [assert (0 < 2 ^ e) by (apply Z.pow_pos_nonneg; lia); assert (0 < 5 ^ Z.of_nat k) by (apply Z.pow_pos_nonneg; lia); nia|].
      replace (5 * (2 ^ e * 5 ^ Z.of_nat k)) with (2 ^ e * 5 ^ (Z.of_nat k + 1)) by (rewrite Z.pow_add_r by lia; ring).
      apply Z.le_lt_trans with (2 ^ e * 5 ^ e).
      * apply Z.mul_le_mono_nonneg_l; [apply Z.pow_nonneg; lia | apply Z.pow_le_mono_r; lia].
      * rewrite <- Z.pow_mul_l. change (2 * 5) with 10. apply Z.le_lt_trans with (16 ^ e); [apply Z.pow_le_mono_l; lia|].
        change 16 with (2 ^ 4). rewrite <- Z.pow_mul_r by lia. apply Z.pow_lt_mono_r; lia.
    + exists s'. split; [reflexivity|]. replace (2 ^ e * 5 ^ Z.of_nat (S k)) with (5 * (2 ^ e * 5 ^ Z.of_nat k)); [exact R''|].
      rewrite Nat2Z.inj_succ, Z.pow_succ_r by lia. ring.
  - exists b'. split; [exact E|]. rewrite Nat.add_0_l, Z2Nat.id in R' by lia. rewrite <- Z.pow_mul_l in R'. exact R'.
Qed.

Lemma log2_section cfg junk : log2_pow10_section cfg junk = Undefined.
Proof.
  unfold log2_pow10_section. apply (section_undefined _ _ _ _ _ 617); [lia | reflexivity|].
  intros e He. eexists. split; [rewrite i32_ok by lia; reflexivity|]. intros _.
  destruct (power_of_10 cfg (array_size_of (4 * 4096)) junk e ltac:(lia)) as (b & E & _).
  - unfold array_size_of; vm_compute; lia.
  - change (Z.of_nat (array_size_of (4 * 4096))) with 256. lia.
  - destruct (power_of_2 cfg (array_size_of (4 * 4096)) (junk e 0%nat 3%nat) e) as [p| | |]; cbn [bind] in E |- *; try discriminate.
    cbv zeta. rewrite E. cbn [bind]. unfold unchecked_log2_pow10. rewrite !i32_ok by lia. cbn [bind]. eauto 8.
Qed.

Lemma log_program_undefined cfg junk : verify_log_computation cfg junk = Undefined.
Proof. unfold verify_log_computation. rewrite log10_section, log2_section. reflexivity. Qed.
