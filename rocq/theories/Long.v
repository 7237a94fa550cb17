(** * The inputs of [lengthened]: a result is returned, and it is not shortest *)

From Coq Require Import ZArith Reals List Lia Bool.
From Flocq Require Import Core.
From Verif Require Import Machine Tables Model Arith ExpFacts Products IntCheck Core Nearest Directed Ones Link
  Spec Reading Bridge ReadsBack Shortest Main Results Inward Builds.
Import ListNotations.
Open Scope Z_scope.

(** a build with assertions: what it returns, every build returns *)
Definition asserting : config := mk_config MulInt128 CtzBuiltin true false.
Definition every_policy : list crs_tag := [do_not_care; tie_to_even; tie_to_odd; tie_to_up; tie_to_down].
Lemma every_policy_ok crs : In crs every_policy.
Proof. destruct crs; cbn; intuition. Qed.

(** the result [(t, E)] is in range, and the decimal one digit shorter above it reads back too *)
Definition long_one (f : fmt) (e : Z) (r : outcome (Z * Z)) : bool :=
  match r with
  | Ok (t, E) =>
      (0 <? t) && negb (t mod 10 =? 0) && (digits t <=? max_digits f)
      && (sci_min f <=? E + digits t - 1) && (E + digits t - 1 <=? sci_max f)
      && (digits (t / 10 + 1) <? digits t) && (0 <=? E + 1 + kexp e)
      && in_int f left_closed_directed_tag left_closed_right_open e (ones f) ((t / 10 + 1) * 10 ^ (E + 1 + kexp e))
  | _ => false
  end.
Definition long_check (f : fmt) : bool :=
  forallb (fun e => forallb (fun crs =>
    long_one f e (compute_tail asserting f left_closed_directed_tag crs left_closed_right_open e (ones f)))
    every_policy) (lengthens f).
Lemma long_check_ok f : long_check f = true.
Proof. destruct f; vm_cast_no_check (eq_refl true). Qed.

Lemma long_result cfg f m crs x : input f x -> rounds_inward m (is_negative f x) = true -> lengthened f x = true ->
  exists t E, compute cfg f (delegate f m x) crs x = Ok (t, E) /\ 0 < t /\ t mod 10 <> 0 /\ digits t <= max_digits f /\
    sci_min f <= E + digits t - 1 <= sci_max f /\
    exists s e, reads_back f m x (cond_Zopp (negative f x) s) e /\ digits s < digits t.
Proof.
  intros Hin Hm Hl. unfold lengthened in Hl. apply andb_true_iff in Hl. destruct Hl as [O Hl].
  destruct (all_ones_n f m x Hin Hm O) as [En Ee].
  assert (Hmem : In (e_of f x) (lengthens f)).
  { rewrite <- memb_shift with (c := exp_min f - 1), <- lengthens_fields, <- Ee in Hl.
    unfold memb in Hl. apply existsb_exists in Hl. destruct Hl as (z & Hz & E). apply Z.eqb_eq in E. rewrite E. exact Hz. }
  pose proof (long_check_ok f) as C. unfold long_check in C. rewrite forallb_forall in C. specialize (C _ Hmem).
  rewrite forallb_forall in C. specialize (C _ (every_policy_ok crs)).
  destruct (compute_tail asserting f left_closed_directed_tag crs left_closed_right_open (e_of f x) (ones f)) as [[t E]| | |] eqn:Et; try discriminate C.
  cbn [long_one] in C. rewrite !andb_true_iff, !Z.leb_le, !Z.ltb_lt, negb_true_iff, Z.eqb_neq in C.
  destruct C as [[[[[[[A B] D] F1] F2] G] H] I].
  exists t, E.
  split; [apply (compute_below asserting cfg eq_refl); rewrite (compute_left asserting f m crs x Hin Hm), En; exact Et|]. repeat split; try assumption.
  exists (t / 10 + 1), (E + 1). split; [|exact G].
  replace (E + 1) with (E + 1 + kexp (e_of f x) - kexp (e_of f x)) by ring.
  apply grid_reads; [exact Hin | exact H|].
  rewrite (tagL f m x Hm), (itvLo f m x Hm), En. exact I.
Qed.
