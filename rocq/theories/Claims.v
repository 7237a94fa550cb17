(** * The properties of the decimal results, in terms of [grisu_exact] *)

From Coq Require Import ZArith Reals List Lra Lia Bool.
From Flocq Require Import Core.
From Verif Require Import Machine Model Spec ReadsBack Bridge Main Results Inward.
Open Scope R_scope.

Lemma cares_true {crs} : crs <> do_not_care -> cares crs = true.
Proof. destruct crs; [congruence | reflexivity..]. Qed.

(** ** Nearest modes and modes rounding away from zero *)
Section Claims.
Variables (cfg : config) (f : fmt) (rs : bool) (m : rounding_mode) (crs : crs_tag) (h : case_handler) (x : Z).
Hypothesis Hin : input f x.

Lemma nearest_result r : is_nearest m = true -> grisu_exact cfg f rs m crs h x = Ok r ->
  good f m crs x (fp_significand r) (fp_exponent r).
Proof using Hin.
  intros Hm H. destruct (nearest_good cfg f m crs x Hin Hm) as (t & E & Ec & G).
  rewrite (grisu_exact_ok _ _ rs _ _ h _ _ _ Hin Ec) in H. injection H as <-. exact G.
Qed.
Lemma outward_result r : rounds_outward m (negative f x) = true -> grisu_exact cfg f rs m crs h x = Ok r ->
  good f m crs x (fp_significand r) (fp_exponent r) /\
  closest f m x (signed f x r) (fp_exponent r) /\ largest f m x (signed f x r) (fp_exponent r).
Proof using Hin.
  rewrite (neg_ok f x Hin). intros Hm H. destruct (outward_good cfg f m crs x Hin Hm) as (t & E & Ec & G).
  rewrite (grisu_exact_ok _ _ rs _ _ h _ _ _ Hin Ec) in H. injection H as <-. exact G.
Qed.
Lemma either_result r : nearest_or_outward m (negative f x) = true -> grisu_exact cfg f rs m crs h x = Ok r ->
  good f m crs x (fp_significand r) (fp_exponent r).
Proof using Hin.
  unfold nearest_or_outward. rewrite orb_true_iff.
  intros [Hm|Hm] H; [apply nearest_result | apply outward_result]; assumption.
Qed.

Lemma total : nearest_or_outward m (negative f x) = true -> exists r, grisu_exact cfg f rs m crs h x = Ok r.
Proof using Hin.
  unfold nearest_or_outward. rewrite orb_true_iff, (neg_ok f x Hin). intros [Hm|Hm].
  - destruct (nearest_good cfg f m crs x Hin Hm) as (t & E & Ec & _). eexists. apply grisu_exact_ok; eassumption.
  - destruct (outward_good cfg f m crs x Hin Hm) as (t & E & Ec & _). eexists. apply grisu_exact_ok; eassumption.
Qed.

Lemma nearest_any : is_nearest m = true -> nearest_or_outward m (negative f x) = true.
Proof using. unfold nearest_or_outward. intros ->. reflexivity. Qed.
Lemma outward_any : rounds_outward m (negative f x) = true -> nearest_or_outward m (negative f x) = true.
Proof using. unfold nearest_or_outward. intros ->. apply orb_true_r. Qed.

Lemma nearest_round_trip : is_nearest m = true -> exists r, grisu_exact cfg f rs m crs h x = Ok r /\
  reads_back f m x (signed f x r) (fp_exponent r).
Proof using Hin.
  intros Hm. destruct (total (nearest_any Hm)) as [r H]. exists r. split; [exact H|].
  apply (b_short _ _ _ _ _ (g_basic _ _ _ _ _ _ (nearest_result r Hm H))).
Qed.
Lemma nearest_shortest : is_nearest m = true -> exists r, grisu_exact cfg f rs m crs h x = Ok r /\
  reads_back f m x (signed f x r) (fp_exponent r) /\
  forall s e, reads_back f m x s e -> (digits (fp_significand r) <= digits s)%Z.
Proof using Hin.
  intros Hm. destruct (total (nearest_any Hm)) as [r H]. exists r. split; [exact H|].
  destruct (b_short _ _ _ _ _ (g_basic _ _ _ _ _ _ (nearest_result r Hm H))) as [A B]. split; [exact A|].
  intros s e Hs. rewrite <- (digits_signed (negative f x)). apply (B s e Hs).
Qed.
Lemma nearest_closest : is_nearest m = true -> crs <> do_not_care -> exists r, grisu_exact cfg f rs m crs h x = Ok r /\
  closest f m x (signed f x r) (fp_exponent r).
Proof using Hin.
  intros Hm Hc. destruct (total (nearest_any Hm)) as [r H]. exists r. split; [exact H|].
  apply (g_close _ _ _ _ _ _ (nearest_result r Hm H)). exact (cares_true Hc).
Qed.
Lemma nearest_ties : is_nearest m = true -> crs <> do_not_care -> exists r, grisu_exact cfg f rs m crs h x = Ok r /\
  breaks_ties crs f m x (signed f x r) (fp_exponent r).
Proof using Hin.
  intros Hm Hc. destruct (total (nearest_any Hm)) as [r H]. exists r. split; [exact H|].
  apply (g_ties _ _ _ _ _ _ (nearest_result r Hm H)). exact (cares_true Hc).
Qed.
Lemma outward_all : rounds_outward m (negative f x) = true -> exists r, grisu_exact cfg f rs m crs h x = Ok r /\
  shortest f m x (signed f x r) (fp_exponent r) /\ closest f m x (signed f x r) (fp_exponent r).
Proof using Hin.
  intros Hm. destruct (total (outward_any Hm)) as [r H]. exists r. split; [exact H|].
  destruct (outward_result r Hm H) as (G & C & _). split; [|exact C]. apply (b_short _ _ _ _ _ (g_basic _ _ _ _ _ _ G)).
Qed.
Lemma do_not_care_largest : nearest_or_outward m (negative f x) = true -> crs = do_not_care ->
  exists r, grisu_exact cfg f rs m crs h x = Ok r /\
  shortest f m x (signed f x r) (fp_exponent r) /\ largest f m x (signed f x r) (fp_exponent r).
Proof using Hin.
  intros Hm Hc. destruct (total Hm) as [r H]. exists r. split; [exact H|]. pose proof (either_result r Hm H) as G. split.
  - apply (b_short _ _ _ _ _ (g_basic _ _ _ _ _ _ G)).
  - apply (g_large _ _ _ _ _ _ G). rewrite Hc. reflexivity.
Qed.
Lemma ranges : nearest_or_outward m (negative f x) = true -> exists r, grisu_exact cfg f rs m crs h x = Ok r /\
  (0 < fp_significand r)%Z /\ (digits (fp_significand r) <= max_digits f)%Z /\
  (sci_min f <= fp_exponent r + digits (fp_significand r) - 1 <= sci_max f)%Z.
Proof using Hin.
  intros Hm. destruct (total Hm) as [r H]. exists r. split; [exact H|].
  destruct (g_basic _ _ _ _ _ _ (either_result r Hm H)) as [A _ _ B C]. repeat split; (exact A || exact B || apply C).
Qed.
Lemma no_trailing_zero : nearest_or_outward m (negative f x) = true -> exists r, grisu_exact cfg f rs m crs h x = Ok r /\
  (fp_significand r mod 10 <> 0)%Z.
Proof using Hin.
  intros Hm. destruct (total Hm) as [r H]. exists r. split; [exact H|]. apply (g_basic _ _ _ _ _ _ (either_result r Hm H)).
Qed.

(** ** Modes rounding toward zero *)
Hypothesis Hm : rounds_inward m (negative f x) = true.

Lemma inward_compute r : grisu_exact cfg f rs m crs h x = Ok r ->
  compute cfg f (delegate f m x) crs x = Ok (fp_significand r, fp_exponent r).
Proof using.
  unfold grisu_exact. destruct (run_case_handler cfg f h x); cbn [bind]; try discriminate.
  destruct (compute cfg f (delegate f m x) crs x) as [[t E]| | |]; cbn [bind]; try discriminate.
  intros H. injection H as <-. reflexivity.
Qed.
Lemma Hm' : rounds_inward m (is_negative f x) = true.
Proof using Hin Hm. rewrite <- (neg_ok f x Hin). exact Hm. Qed.

Lemma inward_total : halts f x = false -> exists r, grisu_exact cfg f rs m crs h x = Ok r.
Proof using Hin Hm.
  intros Hh. destruct (inward_grid cfg f m crs x Hin Hm' Hh) as (kap & t & Et & _).
  eexists. apply grisu_exact_ok; eassumption.
Qed.
Lemma halts_all_ones : all_ones f x = false -> halts f x = false.
Proof using. unfold halts. intros ->. reflexivity. Qed.
Lemma inward_round_trip :
  (forall r, grisu_exact cfg f rs m crs h x = Ok r -> reads_back f m x (signed f x r) (fp_exponent r)) /\
  (all_ones f x = false -> exists r, grisu_exact cfg f rs m crs h x = Ok r).
Proof using Hin Hm.
  split; [|intros O; apply inward_total, halts_all_ones, O].
  intros r H. apply (inward_reads cfg f m crs x Hin Hm'). apply inward_compute, H.
Qed.
Lemma inward_stops : halts f x = true ->
  (cfg_ndebug cfg = false -> grisu_exact cfg f rs m crs h x = AssertFailed) /\
  (cfg_ndebug cfg = true -> cfg_ctz cfg <> CtzMask -> grisu_exact cfg f rs m crs h x = Undefined).
Proof using Hin Hm.
  intros Hh. destruct (inward_halts cfg f m crs x Hin Hm' Hh) as [A B]. destruct (input_facts f x Hin) as (_ & Fi & _).
  assert (Hc : run_case_handler cfg f h x = Ok tt).
  { destruct h; [|reflexivity]. cbn. unfold cassert. rewrite Fi. destruct (cfg_ndebug cfg); reflexivity. }
  unfold grisu_exact. rewrite Hc. cbn [bind]. split; intros; [rewrite A | rewrite B]; auto.
Qed.
Lemma inward_defined : cfg_ctz cfg <> CtzMask \/ cfg_ndebug cfg = false ->
  ((exists r, grisu_exact cfg f rs m crs h x = Ok r) <-> halts f x = false).
Proof using Hin Hm.
  intros Hc. split; [|apply inward_total]. intros [r H]. destruct (halts f x) eqn:Hh; [|reflexivity]. exfalso.
  destruct (inward_stops Hh) as [A B]. destruct (cfg_ndebug cfg) eqn:N.
  - rewrite B in H; [discriminate | reflexivity |]. destruct Hc; [assumption | discriminate].
  - rewrite A in H; [discriminate | reflexivity].
Qed.
Lemma inward_shortest : halts f x = false -> lengthened f x = false -> exists r, grisu_exact cfg f rs m crs h x = Ok r /\
  shortest f m x (signed f x r) (fp_exponent r).
Proof using Hin Hm.
  intros Hh Hl. destruct (inward_good cfg f m crs x Hin Hm' Hh Hl) as (t & E & Ec & B).
  eexists. split; [apply grisu_exact_ok; eassumption|]. apply (b_short _ _ _ _ _ B).
Qed.
Lemma inward_basic : halts f x = false -> lengthened f x = false -> exists r, grisu_exact cfg f rs m crs h x = Ok r /\
  (0 < fp_significand r)%Z /\ (fp_significand r mod 10 <> 0)%Z /\ (digits (fp_significand r) <= max_digits f)%Z /\
  (sci_min f <= fp_exponent r + digits (fp_significand r) - 1 <= sci_max f)%Z.
Proof using Hin Hm.
  intros Hh Hl. destruct (inward_good cfg f m crs x Hin Hm' Hh Hl) as (t & E & Ec & [A B C D F]).
  eexists. split; [apply grisu_exact_ok; eassumption|]. cbn [fp_significand fp_exponent]. repeat split; (assumption || apply F).
Qed.
Lemma inward_closest : halts f x = false -> lengthened f x = false -> crs <> do_not_care ->
  exists r, grisu_exact cfg f rs m crs h x = Ok r /\
  (closest f m x (signed f x r) (fp_exponent r) \/
   exists u, error f x u (fp_exponent r) < near f * spacing f x).
Proof using Hin Hm.
  intros Hh Hl Hc. destruct (inward_close cfg f m crs x Hin Hm' Hh Hl) as (t & E & Ec & H); [exact (cares_true Hc)|].
  eexists. split; [apply grisu_exact_ok; eassumption|]. cbn [fp_exponent]. destruct H as [H|[u H]]; [left; exact H | right; eexists; exact H].
Qed.
End Claims.

(** ** Concrete inputs *)
Lemma input_check f x : ((0 <=? x) && (x <? 2 ^ width f))%Z && Model.is_finite f x && is_nonzero f x = true -> input f x.
Proof.
  rewrite !andb_true_iff, Z.leb_le, Z.ltb_lt. intros [[P F] N]. assert (F' : finite f x = true) by (rewrite finite_model; exact F).
  split; [exact P|]. split; [exact F'|]. apply nonzero_model; assumption.
Qed.
Definition debug_build : config := mk_config MulInt128 CtzBuiltin true false.
Definition release_build : config := mk_config MulInt128 CtzBuiltin true true.

Lemma input_halting : input Binary32 0x3f7fffff. Proof. apply input_check. reflexivity. Qed.
Lemma input_long : input Binary32 0x54ffffff. Proof. apply input_check. reflexivity. Qed.
Lemma input_long64 : input Binary64 0x461fffffffffffff. Proof. apply input_check. reflexivity. Qed.
Lemma input_near : input Binary64 0x4340000000000001. Proof. apply input_check. reflexivity. Qed.

Lemma halting_witness :
  exists cfg f m crs h x, input f x /\ rounds_inward m (negative f x) = true /\
    forall rs, grisu_exact cfg f rs m crs h x = AssertFailed.
Proof.
  exists debug_build, Binary32, toward_zero, tie_to_even, assert_finite, 0x3f7fffff%Z.
  split; [exact input_halting|]. split; [reflexivity|]. intros rs. vm_compute. reflexivity.
Qed.
Lemma undefined_witness :
  exists cfg f m crs h x, input f x /\ rounds_inward m (negative f x) = true /\
    forall rs, grisu_exact cfg f rs m crs h x = Undefined.
Proof.
  exists release_build, Binary32, toward_zero, tie_to_even, assert_finite, 0x3f7fffff%Z.
  split; [exact input_halting|]. split; [reflexivity|]. intros rs. vm_compute. reflexivity.
Qed.

Lemma reads_check f m x s e : input f x -> (0 <= e + ExpFacts.kexp (Link.e_of f x))%Z ->
  (let p := delegate f m x in
   Core.in_int f (provider_tag p) (provider_call f p x) (Link.e_of f x) (Link.n_of f x) (s * 10 ^ (e + ExpFacts.kexp (Link.e_of f x)))) = true ->
  reads_back f m x (cond_Zopp (negative f x) s) e.
Proof.
  intros Hin Hk H. pose proof (grid_reads f m x Hin _ s Hk H) as G.
  replace (e + ExpFacts.kexp (Link.e_of f x) - ExpFacts.kexp (Link.e_of f x))%Z with e in G by ring. exact G.
Qed.
Ltac reads := match goal with |- reads_back ?f ?m ?x ?s ?e =>
  apply (reads_check f m x s e); [apply input_check; reflexivity | vm_compute; discriminate | vm_compute; reflexivity] end.

Lemma long_witness :
  exists cfg f m crs h x r s e, input f x /\ rounds_inward m (negative f x) = true /\
    grisu_exact cfg f true m crs h x = Ok r /\ reads_back f m x s e /\ (digits s < digits (fp_significand r))%Z.
Proof.
  exists debug_build, Binary64, toward_zero, tie_to_even, assert_finite, 0x461fffffffffffff%Z,
    (mk_fp 63382530011411465 13 (Some false)), 6338253001141147%Z, 14%Z.
  split; [exact input_long64|]. split; [reflexivity|]. split; [vm_compute; reflexivity|].
  split; [reads | vm_compute; reflexivity].
Qed.
Lemma long_witness32 :
  exists cfg m crs h x r s e, input Binary32 x /\ rounds_inward m (negative Binary32 x) = true /\
    grisu_exact cfg Binary32 true m crs h x = Ok r /\ reads_back Binary32 m x s e /\ (digits s < digits (fp_significand r))%Z.
Proof.
  exists debug_build, toward_zero, tie_to_even, assert_finite, 0x54ffffff%Z,
    (mk_fp 87960929 5 (Some false)), 8796093%Z, 6%Z.
  split; [exact input_long|]. split; [reflexivity|]. split; [vm_compute; reflexivity|].
  split; [reads | vm_compute; reflexivity].
Qed.

Lemma far_witness :
  exists cfg f m crs h x r s e, input f x /\ rounds_inward m (negative f x) = true /\ crs <> do_not_care /\
    halts f x = false /\ lengthened f x = false /\
    grisu_exact cfg f true m crs h x = Ok r /\ reads_back f m x s e /\ (digits s <= digits (fp_significand r))%Z /\
    error f x s e < error f x (signed f x r) (fp_exponent r).
Proof.
  exists debug_build, Binary64, toward_zero, tie_to_even, assert_finite, 0x4340000000000001%Z,
    (mk_fp 9007199254740995 0 (Some false)), 9007199254740994%Z, 0%Z.
  split; [exact input_near|]. split; [reflexivity|]. split; [discriminate|]. split; [reflexivity|]. split; [reflexivity|].
  split; [vm_compute; reflexivity|]. split; [reads|]. split; [vm_compute; discriminate|].
  assert (V : value Binary64 0x4340000000000001 = 9007199254740994).
  { rewrite (magnitude _ _ input_near). cbn [is_negative].
    change (is_negative Binary64 0x4340000000000001) with false. cbn [cond_Ropp].
    change (Link.n_of Binary64 0x4340000000000001) with 4503599627370497%Z.
    change (e0_of Binary64 0x4340000000000001) with 1%Z. cbn. lra. }
  unfold error, signed. rewrite V. cbn [fp_significand fp_exponent].
  change (negative Binary64 0x4340000000000001) with false. cbn [cond_Zopp].
  unfold decimal, F2R. cbn [Fnum Fexp bpow]. rewrite !Rmult_1_r.
  replace (9007199254740994 - 9007199254740994)%R with 0%R by ring.
  replace (9007199254740995 - 9007199254740994)%R with 1%R by ring. rewrite Rabs_R0, Rabs_R1. lra.
Qed.
