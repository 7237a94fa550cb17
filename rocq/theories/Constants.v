(** * The constants of common_info can be computed at compile time

    [Model.v] uses plain values for them.  Here: wherever the header calls one of the logarithm functions
    for a constant (grisu_exact.h:397-456), the call with all assertions and overflow checks
    switched on gives that value; all [static_assert]s hold; and the caches have the length that
    [min_k] and [max_k] ask for. *)

From Coq Require Import ZArith List Bool.
From Verif Require Import Machine Tables Model.
Import ListNotations.
Open Scope Z_scope.

(** grisu_exact.h:397-400, 412, 414-415 *)
Definition log10_arguments (f : fmt) : list Z :=
  [ - (q_mp f - 3 + alpha f); - (extended_precision f + gamma f); 32;
    max_exponent f + 1 - alpha f; min_exponent f + 1 - alpha f ].
(** grisu_exact.h:424-435, 438-441, 446-456 *)
Definition log5_arguments (f : fmt) : list Z :=
  [ - (q_mp f - 3 + alpha f); - (q_mp f - 2 + alpha f); - (q_mp f - 1 + alpha f); - (q_mp f + alpha f);
    precision f + 2; precision f + 1 ].
(** grisu_exact.h:409, 438-441, 452-453 *)
Definition log2_arguments (f : fmt) : list Z :=
  [ initial_kappa f - min_kappa f - 1; - c_floor_log5_pow2 (precision f + 2) - 1;
    - c_floor_log5_pow2 (precision f + 1) - 1 ].

Definition gives (o : outcome Z) (v : Z) : bool := match o with Ok x => x =? v | _ => false end.
Lemma gives_ok o v : gives o v = true -> o = Ok v.
Proof. destruct o; cbn; try discriminate. intros E. apply Z.eqb_eq in E. now subst. Qed.

Theorem compile_time_logarithms : forall cfg f,
  Forall (fun e => floor_log10_pow2 cfg e = Ok (c_floor_log10_pow2 e)) (log10_arguments f) /\
  Forall (fun e => floor_log5_pow2 cfg e = Ok (c_floor_log5_pow2 e)) (log5_arguments f) /\
  Forall (fun e => floor_log2_pow10 cfg e = Ok (c_floor_log2_pow10 e)) (log2_arguments f).
Proof.
  intros [mul ctz x64 nd] f.
  assert (C : forallb (fun e => gives (floor_log10_pow2 (mk_config mul ctz x64 nd) e) (c_floor_log10_pow2 e)) (log10_arguments f) = true /\
    forallb (fun e => gives (floor_log5_pow2 (mk_config mul ctz x64 nd) e) (c_floor_log5_pow2 e)) (log5_arguments f) = true /\
    forallb (fun e => gives (floor_log2_pow10 (mk_config mul ctz x64 nd) e) (c_floor_log2_pow10 e)) (log2_arguments f) = true)
    by (destruct nd, f; vm_compute; repeat split).
  destruct C as (A & B & C). repeat apply conj; apply Forall_forall; intros e He; apply gives_ok;
    [apply (proj1 (forallb_forall _ _) A e He) | apply (proj1 (forallb_forall _ _) B e He) | apply (proj1 (forallb_forall _ _) C e He)].
Qed.

Theorem static_asserts_hold : forall f, static_asserts f = true.
Proof. destruct f; vm_compute; reflexivity. Qed.

(** grisu_exact.h:1929, where [initial_kappa] is not 2 *)
Theorem kappa_assert : forall f, initial_kappa f <> 2 -> initial_kappa f = 3.
Proof. destruct f; intros H; [contradiction H; reflexivity | reflexivity]. Qed.
Theorem static_asserts_all : forall f, static_asserts f = true /\ (initial_kappa f <> 2 -> initial_kappa f = 3).
Proof. intros f. split; [apply static_asserts_hold | apply kappa_assert]. Qed.

Theorem cache_lengths : Z.of_nat (length cache_float) = max_k Binary32 - min_k Binary32 + 1 /\
  Z.of_nat (length cache_double) = max_k Binary64 - min_k Binary64 + 1.
Proof. vm_compute. split; reflexivity. Qed.
