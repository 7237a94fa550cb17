(** * Theorems: what the compiler evaluates *)

From Coq Require Import ZArith List Bool Lia.
From Verif Require Import Machine Tables Model Constants.
Import ListNotations.
Open Scope Z_scope.

(** ** C82: the header compiles for float and double *)
(** every logarithm called for a constant is a constant expression: no assertion fails and nothing overflows, in any build *)
Theorem C82_logarithms : forall cfg f,
  Forall (fun e => floor_log10_pow2 cfg e = Ok (c_floor_log10_pow2 e)) (log10_arguments f) /\
  Forall (fun e => floor_log5_pow2 cfg e = Ok (c_floor_log5_pow2 e)) (log5_arguments f) /\
  Forall (fun e => floor_log2_pow10 cfg e = Ok (c_floor_log2_pow10 e)) (log2_arguments f).
Proof. exact compile_time_logarithms. Qed.
Print Assumptions C82_logarithms.
(** the static assertions on these constants hold; the one at grisu_exact.h:1929 is compiled only where [initial_kappa] is not 2 *)
Theorem C82_static_asserts : forall f, static_asserts f = true /\ (initial_kappa f <> 2 -> initial_kappa f = 3).
Proof. exact static_asserts_all. Qed.
Print Assumptions C82_static_asserts.
(** each table has one entry for every k from [min_k] to [max_k] *)
Theorem C82_lengths : Z.of_nat (length cache_float) = max_k Binary32 - min_k Binary32 + 1 /\
  Z.of_nat (length cache_double) = max_k Binary64 - min_k Binary64 + 1.
Proof. exact cache_lengths. Qed.
Print Assumptions C82_lengths.
(** the constants the assertions speak of, and the numbers of entries *)
Example C82_example :
  map (fun f => (alpha f, gamma f, min_kappa f, max_kappa f, initial_kappa f, min_k f, max_k f)) [Binary32; Binary64] =
    [(-5, -2, 0, 9, 2, -30, 46); (-5, -2, 1, 18, 3, -290, 325)].
Proof. vm_compute. reflexivity. Qed.
Example C82_arguments : log10_arguments Binary32 <> [] /\ log5_arguments Binary64 <> [] /\ log2_arguments Binary64 <> [].
Proof. repeat split; discriminate. Qed.
