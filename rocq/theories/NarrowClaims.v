(** * The only floats lost on the way through a double *)

From Coq Require Import ZArith Reals Lra Lia Bool List.
From Flocq Require Import Core.
From Verif Require Import Machine Model Spec ProgramSpec FormatSpec RoundSpec ExpFacts Inward Link Reading Bridge ReadsBack Shortest Main Results Claims Signs Unique Users Formats Outputs RoundedDigits Reader NarrowTables NarrowRows Narrow NarrowSpec.
Import ListNotations.
Open Scope R_scope.

Lemma read_even_opp f b v : read f nearest_to_even (cond_Ropp b v) = cond_Ropp b (read f nearest_to_even v).
Proof. destruct b; [apply round_NE_opp | reflexivity]. Qed.

(** ** Evaluation *)
(** a number of a format as a decimal *)
Definition as_decimal (f : fmt) (y : Z) : Z * Z :=
  let e := e0_of f y in
  (cond_Zopp (sgn f y) (n_of f y * (if e <? 0 then 5 ^ (- e) else 2 ^ e)), Z.min 0 e)%Z.
Lemma as_decimal_ok f y : finite f y = true -> value f y = decimal (fst (as_decimal f y)) (snd (as_decimal f y)).
Proof.
  intros F. rewrite (value_fields f y F). unfold as_decimal. cbn [fst snd]. rewrite decimal_signed. f_equal. set (e := e0_of f y). clearbody e. rewrite decimal_eq, mult_IZR, Rmult_assoc. f_equal.
  destruct (Z.ltb_spec e 0).
  - rewrite Z.min_r by lia. assert (Q : exists q, e = (- q)%Z /\ (0 < q)%Z) by (exists (- e)%Z; lia). destruct Q as (q & -> & Q). rewrite Z.opp_involutive, !bpow_opp, <- !IZR_Zpower by lia.
    unfold radix10, radix2. cbn [radix_val]. replace (10 ^ q)%Z with (2 ^ q * 5 ^ q)%Z by (rewrite <- Z.pow_mul_l; reflexivity). rewrite mult_IZR. field.
    split; apply IZR_neq, Z.pow_nonzero; lia.
  - rewrite Z.min_l by lia. cbn [bpow]. rewrite Rmult_1_r. rewrite <- IZR_Zpower by lia. reflexivity.
Qed.
Definition double_trip (s e : Z) : option Z :=
  match reader Binary64 s e with
  | Some y => reader Binary32 (fst (as_decimal Binary64 y)) (snd (as_decimal Binary64 y))
  | None => None
  end.
Lemma double_trip_ok s e z : double_trip s e = Some z ->
  pattern Binary32 z /\ finite Binary32 z = true /\ value Binary32 z = read Binary32 nearest_to_even (read Binary64 nearest_to_even (decimal s e)).
Proof.
  unfold double_trip. pose proof (reader_correct Binary64 s e) as C. destruct (reader Binary64 s e) as [y|]; [|discriminate].
  destruct C as (_ & Fy & Vy). intros H. pose proof (reader_correct Binary32 (fst (as_decimal Binary64 y)) (snd (as_decimal Binary64 y))) as C.
  rewrite H in C. rewrite <- (as_decimal_ok _ _ Fy), Vy in C. exact C.
Qed.
Definition policies : list crs_tag := [do_not_care; tie_to_even; tie_to_odd; tie_to_up; tie_to_down].
(** what becomes of [y]: printed, read as a double and narrowed *)
Definition trip (crs : crs_tag) (h : case_handler) (y : Z) : option Z :=
  match grisu_exact debug_build Binary32 true nearest_to_even crs h y with
  | Ok r => double_trip (cond_Zopp (Model.is_negative Binary32 y) (fp_significand r)) (fp_exponent r)
  | _ => None
  end.
Definition every_way (g : crs_tag -> case_handler -> bool) : bool :=
  forallb (fun crs => g crs assert_finite && g crs ignore_special_cases) policies.
Lemma every_way_ok g crs h : every_way g = true -> g crs h = true.
Proof.
  unfold every_way, policies. intros H. cbn [forallb] in H. rewrite !andb_true_iff in H. destruct crs, h; tauto.
Qed.
Definition lost (crs : crs_tag) : list Z := lost_magnitudes crs ++ map (Z.add (2 ^ 31)) (lost_magnitudes crs).
Lemma lost_in crs y : lost_float crs y <-> In y (lost crs).
Proof.
  unfold lost_float, lost. rewrite in_app_iff, in_map_iff. split; (intros [H|H]; [left; exact H | right]).
  - exists (y - 2 ^ 31)%Z. split; [ring | exact H].
  - destruct H as (x & <- & H). replace (2 ^ 31 + x - 2 ^ 31)%Z with x by ring. exact H.
Qed.
Definition trip_ok (y : Z) : bool :=
  every_way (fun crs h => existsb (Z.eqb y) (lost crs) || match trip crs h y with Some z => (z =? y)%Z | None => false end).
Lemma trip_result rs crs h y z : input Binary32 y -> trip crs h y = Some z -> forall cfg,
  exists r, grisu_exact cfg Binary32 rs nearest_to_even crs h y = Ok r /\
    pattern Binary32 z /\ finite Binary32 z = true /\
    value Binary32 z = float_by_way_of_double (decimal (signed Binary32 y r) (fp_exponent r)).
Proof.
  intros Hin H cfg. unfold trip in H. destruct (grisu_exact debug_build Binary32 true nearest_to_even crs h y) as [r| | |] eqn:E; try discriminate H.
  apply (debug_decides debug_build cfg) in E; [|reflexivity].
  exists (if rs then r else drop_sign r). split; [destruct rs; [exact E | rewrite drop_sign_result, E; reflexivity]|].
  replace (signed Binary32 y (if rs then r else drop_sign r)) with (signed Binary32 y r) by (destruct rs; reflexivity).
  replace (fp_exponent (if rs then r else drop_sign r)) with (fp_exponent r) by (destruct rs; reflexivity).
  unfold signed. rewrite (neg_ok Binary32 y Hin). apply double_trip_ok, H.
Qed.
(** the floats next to the listed decimals *)
Definition near_ok (d : Z * Z) : bool := forallb (fun b =>
    match reader Binary32 (cond_Zopp b (fst d)) (snd d) with
    | Some z => trip_ok z
    | None => false
    end) [false; true].
Lemma near_checked : forallb near_ok near_decimals = true.
Proof. vm_compute. reflexivity. Qed.
Lemma lost_checked : every_way (fun crs h =>
  forallb (fun y => match trip crs h y with Some z => negb (z =? y)%Z | None => false end) (lost crs)) = true.
Proof. vm_compute. reflexivity. Qed.

Lemma float_top y : input Binary32 y -> Rabs (value Binary32 y) < bpow radix2 128.
Proof. intros (_ & F & _). unfold value, finite in *. apply Binary.abs_B2R_lt_emax. Qed.
Lemma way_ok cfg rs crs h y : input Binary32 y -> ~ lost_float crs y ->
  exists r, grisu_exact cfg Binary32 rs nearest_to_even crs h y = Ok r /\
    float_by_way_of_double (decimal (signed Binary32 y r) (fp_exponent r)) = value Binary32 y.
Proof.
  intros Hin Hl. destruct (nearest_shortest cfg Binary32 rs nearest_to_even crs h y Hin eq_refl) as (r & E & _ & C).
  destruct (returned cfg Binary32 rs nearest_to_even crs h y Hin eq_refl) as (r' & E2 & [Ps _ _ _] & R). assert (r' = r) by congruence. subst r'. clear E2.
  exists r. split; [exact E|]. unfold signed in *. rewrite (neg_ok Binary32 y Hin) in *. set (neg := Model.is_negative Binary32 y) in *.
  set (s := fp_significand r) in *. set (e := fp_exponent r) in *. unfold float_by_way_of_double. unfold reads_back in R.
  set (X := IZR (n_of Binary32 y) * bpow radix2 (e0_of Binary32 y)) in *. pose proof (magnitude Binary32 y Hin) as V. fold neg X in V.
  rewrite !decimal_signed in *. rewrite V in R. rewrite read_even_opp in R. apply cond_Ropp_inj in R.
  assert (PX : 0 < X).
  { assert (0 <= X) as [P|P]; [apply Rmult_le_pos; [apply IZR_le; pose proof (input_facts Binary32 y Hin); lia | apply bpow_ge_0] | exact P|].
    exfalso. destruct Hin as (_ & _ & N). apply N. rewrite V, <- P. destruct neg; cbn [cond_Ropp]; [apply Ropp_0 | reflexivity]. }
  assert (HC : forall t e', read Binary32 nearest_to_even (decimal t e') = X -> (digits s <= digits t)%Z).
  { intros t e' Rt. specialize (C (cond_Zopp neg t) e'). unfold reads_back in C. rewrite digits_cond in C.
    apply C. rewrite decimal_signed, read_even_opp, Rt. symmetry. exact V. }
  rewrite V, !read_even_opp. apply cond_Ropp_inj.
  assert (Dec : midway Binary32 (read Binary64 nearest_to_even (decimal s e)) \/ ~ midway Binary32 (read Binary64 nearest_to_even (decimal s e))).
  { unfold midway. set (d := read Binary64 nearest_to_even (decimal s e)). destruct (Rlt_le_dec (read Binary32 toward_minus_infinity d) d); [|right; lra].
    destruct (Req_dec (d - read Binary32 toward_minus_infinity d) (read Binary32 toward_plus_infinity d - d)); [left | right]; tauto. }
  destruct Dec as [M|M].
  2: { rewrite <- (narrow_nearest nearest_to_even nearest_to_even _ eq_refl M). exact R. }
  destruct (Z_lt_le_dec s 336000000) as [L|L].
  2: { exfalso. exact (long_apart X s e L PX R HC M). }
  destruct (near_or_exact s e ltac:(lia)) as [Q|(s' & e' & I & Q)]; [|exact M|rewrite Q; exact R|].
  - destruct (Rle_lt_dec (decimal s e) (bpow radix2 128)) as [T|T]; [exact T|]. exfalso.
    pose proof (float_top y Hin) as T2. rewrite V in T2. replace (Rabs (cond_Ropp neg X)) with X in T2 by (destruct neg; cbn [cond_Ropp]; rewrite ?Rabs_Ropp, Rabs_pos_eq; lra).
    assert (bpow radix2 128 <= X); [|lra]. rewrite <- R. apply Rle_trans with (read Binary32 nearest_to_even (bpow radix2 128)); [|apply read_mono; lra].
    rewrite (read_generic Binary32); [lra|]. apply generic_format_FLT_bpow; [reflexivity | cbn; lia].
  - pose proof near_checked as NC. rewrite forallb_forall in NC. specialize (NC _ I). unfold near_ok in NC. rewrite forallb_forall in NC.
    specialize (NC neg ltac:(destruct neg; cbn; tauto)). cbn [fst snd] in NC. pose proof (reader_correct Binary32 (cond_Zopp neg s') e') as RC.
    destruct (reader Binary32 (cond_Zopp neg s') e') as [z|]; [|discriminate NC]. destruct RC as (Pz & Fz & Vz).
    assert (z = y).
    { symmetry. destruct Hin as (Py & Fy & Ny). apply (value_inj Binary32); try assumption. rewrite Vz, decimal_signed, read_even_opp, <- Q, R. exact V. }
    subst z. unfold trip_ok in NC. apply (every_way_ok _ crs h) in NC. cbv beta in NC. apply orb_true_iff in NC. destruct NC as [NC|NC].
    + exfalso. apply Hl, lost_in. apply existsb_exists in NC. destruct NC as (z & Iz & Ez). apply Z.eqb_eq in Ez. subst z. exact Iz.
    + destruct (trip crs h y) as [z|] eqn:T; [|discriminate NC].
      apply Z.eqb_eq in NC. subst z. destruct (trip_result rs crs h y y Hin T cfg) as (r2 & E2 & _ & _ & V2). assert (r2 = r) by congruence. subst r2.
      unfold signed in V2. rewrite (neg_ok Binary32 y Hin) in V2. fold neg s e in V2. unfold float_by_way_of_double in V2. rewrite decimal_signed, !read_even_opp, V in V2.
      apply cond_Ropp_inj in V2. symmetry. exact V2.
Qed.
Lemma lost_input crs y : lost_float crs y -> input Binary32 y.
Proof.
  intros H. apply lost_in in H. destruct crs; cbn [lost lost_magnitudes map app In] in H;
    repeat (destruct H as [<-|H]; [apply input_check; vm_compute; reflexivity|]); destruct H.
Qed.
Lemma way_bad cfg rs crs h y : lost_float crs y ->
  exists r, grisu_exact cfg Binary32 rs nearest_to_even crs h y = Ok r /\
    float_by_way_of_double (decimal (signed Binary32 y r) (fp_exponent r)) <> value Binary32 y.
Proof.
  intros Hl. pose proof (lost_input crs y Hl) as Hin. pose proof lost_checked as LC. apply (every_way_ok _ crs h) in LC. cbv beta in LC.
  rewrite forallb_forall in LC. specialize (LC y (proj1 (lost_in crs y) Hl)). destruct (trip crs h y) as [z|] eqn:T; [|discriminate LC].
  destruct (trip_result rs crs h y z Hin T cfg) as (r & E & Pz & Fz & V). exists r. split; [exact E|]. rewrite <- V. intros Q.
  apply negb_true_iff, Z.eqb_neq in LC. apply LC. destruct Hin as (Py & Fy & Ny). apply (value_inj Binary32); try assumption. rewrite Q. exact Ny.
Qed.
Lemma by_way_of_double cfg rs crs h y : input Binary32 y ->
  exists r, grisu_exact cfg Binary32 rs nearest_to_even crs h y = Ok r /\
    (float_by_way_of_double (decimal (signed Binary32 y r) (fp_exponent r)) = value Binary32 y <-> ~ lost_float crs y).
Proof.
  intros Hin. assert (Dec : lost_float crs y \/ ~ lost_float crs y).
  { destruct (in_dec Z.eq_dec y (lost crs)) as [I|I]; [left | right; intros H; apply I]; apply lost_in; assumption. }
  destruct Dec as [L|L].
  - destruct (way_bad cfg rs crs h y L) as (r & E & N). exists r. split; [exact E | tauto].
  - destruct (way_ok cfg rs crs h y Hin L) as (r & E & N). exists r. split; [exact E | tauto].
Qed.
