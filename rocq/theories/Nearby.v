(** * Modes rounding toward zero: how far from the closest a result can be, and where it is missed *)

From Coq Require Import ZArith Reals List Lra Lia Bool.
From Flocq Require Import Core.
From Verif Require Import Machine Model Spec ReadsBack Bridge Shortest Main Results Inward Claims Unique.
Open Scope R_scope.

Lemma digits_mono s t : (0 < s <= t)%Z -> (digits s <= digits t)%Z.
Proof.
  intros H. unfold digits. apply Zdigits_le; lia.
Qed.
Lemma digits_signed b s : digits (cond_Zopp b s) = digits s.
Proof.
  unfold digits. destruct b; cbn [cond_Zopp]; [|reflexivity].
  rewrite <- (Zdigits_abs _ (- s)), Z.abs_opp. apply Zdigits_abs.
Qed.

Section Nearby.
Variables (cfg : config) (f : fmt) (rs : bool) (m : rounding_mode) (crs : crs_tag) (h : case_handler) (x : Z).
Hypothesis Hin : input f x.
Hypothesis Hm : rounds_inward m (negative f x) = true.

Lemma within_four : halts f x = false -> lengthened f x = false -> crs <> do_not_care ->
  exists r s, grisu_exact cfg f rs m crs h x = Ok r /\ (Z.abs (signed f x r - s) <= 4)%Z /\
  digits s = digits (fp_significand r) /\ reads_back f m x s (fp_exponent r) /\ closest f m x s (fp_exponent r).
Proof using Hin Hm.
  intros Hh Hl Hc. destruct (inward_shortest cfg f rs m crs h x Hin Hm Hh Hl) as (r & Hr & _ & Sh).
  destruct (inward_distance cfg f m crs x Hin (Hm' f m x Hin Hm) Hh Hl (cares_true Hc)) as (t & E & u & Et & D & U & R & C).
  pose proof (inward_compute cfg f rs m crs h x r Hr) as Ec. rewrite Et in Ec. injection Ec as -> ->.
  exists r, (cond_Zopp (negative f x) u). split; [exact Hr|]. split.
  { unfold signed. destruct (negative f x); cbn [cond_Zopp]; lia. }
  split; [|split; [exact R | exact C]].
  pose proof (Sh _ _ R) as S1. unfold signed in S1. rewrite !digits_signed in *. pose proof (digits_mono u (fp_significand r)). lia.
Qed.

Lemma value_reads : read f m (value f x) = value f x.
Proof using Hin. rewrite (input_value f x Hin) at 1. exact (I_V f m x Hin). Qed.

Lemma missed r u : all_ones f x = false -> crs <> do_not_care -> grisu_exact cfg f rs m crs h x = Ok r ->
  value f x = decimal (cond_Zopp (negative f x) u) (fp_exponent r) ->
  reads_back f m x (cond_Zopp (negative f x) (u + 1)) (fp_exponent r) ->
  (u < fp_significand r)%Z /\ ~ closest f m x (signed f x r) (fp_exponent r).
Proof using Hin Hm.
  intros O Hc Hr HV Hn. pose proof (inward_compute cfg f rs m crs h x r Hr) as Ec.
  assert (Ru : reads_back f m x (cond_Zopp (negative f x) u) (fp_exponent r)) by (unfold reads_back; rewrite <- HV; apply value_reads).
  assert (L : (u < fp_significand r)%Z).
  { apply (inward_misses cfg f m crs x Hin (Hm' f m x Hin Hm) _ (fp_exponent r) u O (cares_true Hc) Ec).
    - rewrite (input_value f x Hin), decimal_signed in HV. apply cond_Ropp_inj in HV. exact HV.
    - rewrite (neg_ok f x Hin) in Hn. apply (reads_back_iff f m x Hin) in Hn. exact Hn. }
  split; [exact L|]. intros C.
  assert (U : (0 < u)%Z).
  { pose proof Ru as R'. rewrite (neg_ok f x Hin) in R'. apply (reads_back_iff f m x Hin) in R'. apply (Main.I_pos f m x Hin) in R'.
    rewrite decimal_eq in R'. pose proof (bpow_gt_0 radix10 (fp_exponent r)) as P.
    apply lt_IZR. destruct (Rlt_le_dec 0 (IZR u)) as [|Q]; [assumption|exfalso].
    assert (IZR u * bpow radix10 (fp_exponent r) <= 0 * bpow radix10 (fp_exponent r)) by (apply Rmult_le_compat_r; lra). lra. }
  specialize (C _ _ Ru). unfold signed in C. rewrite !digits_signed in C.
  assert (DM : (digits u <= digits (fp_significand r))%Z) by (apply digits_mono; lia). specialize (C DM). unfold error in C. rewrite HV in C. rewrite !decimal_signed in C.
  replace (cond_Ropp (negative f x) (decimal u (fp_exponent r)) - cond_Ropp (negative f x) (decimal u (fp_exponent r))) with 0 in C by ring.
  rewrite Rabs_R0 in C. pose proof (Rabs_pos (cond_Ropp (negative f x) (decimal (fp_significand r) (fp_exponent r)) -
    cond_Ropp (negative f x) (decimal u (fp_exponent r)))) as A.
  assert (Z0 : Rabs (cond_Ropp (negative f x) (decimal (fp_significand r) (fp_exponent r)) -
    cond_Ropp (negative f x) (decimal u (fp_exponent r))) = 0) by lra.
  assert (decimal u (fp_exponent r) < decimal (fp_significand r) (fp_exponent r)).
  { rewrite !decimal_eq. apply Rmult_lt_compat_r; [apply bpow_gt_0 | apply IZR_lt; exact L]. }
  destruct (Req_dec (cond_Ropp (negative f x) (decimal (fp_significand r) (fp_exponent r)) -
    cond_Ropp (negative f x) (decimal u (fp_exponent r))) 0) as [Q|Q]; [|apply Rabs_no_R0 in Q; lra].
  destruct (negative f x); cbn [cond_Ropp] in Q; lra.
Qed.
End Nearby.

Lemma no_result cfg f rs m crs h x : input f x -> (cfg_ctz cfg <> CtzMask \/ cfg_ndebug cfg = false) ->
  ((exists r, grisu_exact cfg f rs m crs h x = Ok r) <->
   rounds_inward m (negative f x) = false \/ halts f x = false).
Proof.
  intros Hin Hc. destruct (rounds_inward m (negative f x)) eqn:Hm.
  - rewrite (inward_defined cfg f rs m crs h x Hin Hm Hc). intuition congruence.
  - split; [left; reflexivity|]. intros _. apply (total cfg f rs m crs h x Hin).
    destruct m, (negative f x); try reflexivity; discriminate.
Qed.

Lemma near_value : value Binary64 0x4340000000000001 = decimal 9007199254740994 0.
Proof.
  rewrite (magnitude _ _ input_near).
  change (is_negative Binary64 0x4340000000000001) with false. cbn [cond_Ropp].
  change (Link.n_of Binary64 0x4340000000000001) with 4503599627370497%Z.
  change (e0_of Binary64 0x4340000000000001) with 1%Z. unfold decimal, F2R. cbn [Fnum Fexp bpow]. cbn. lra.
Qed.
