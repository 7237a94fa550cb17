(** * Model of minmax_euclid in tests/verify_cache_length.cpp

    bigint values are those of [BigintModel]; an assertion whose condition is itself computed by a bigint
    operator is evaluated only when NDEBUG is not defined.  [junk turn site] are the contents of the
    uninitialised arrays of the temporaries made in one turn of the loop. *)

From Coq Require Import ZArith List Bool Lia.
From Verif Require Import Machine Model BigintModel DivModel.
Open Scope Z_scope.

(** verify_cache_length.cpp:24-30 *)
Record euclid_return := mk_euclid_return { e_min : big; e_max : big; e_argmin : Z; e_argmax : Z }.

(** division of two uint64_t *)
Definition udiv (x y : Z) : outcome Z := if y =? 0 then Undefined else Ok (x / y).

Section Euclid.
Variables (cfg : config) (array_size : nat) (junk : nat -> nat -> nat -> Z).
Variable N : Z.

(** verify_cache_length.cpp:49-53 and 75-79: the remainder 0 is replaced by the divisor [n] *)
Definition no_zero_remainder (n rem quotient : big) : outcome (big * big) :=
  z <- big_eq_element array_size rem 0 ;;
  if z : bool then
    (if cfg_ndebug cfg then Ok tt else g <- big_gt_element array_size quotient 0 ;; cassert cfg g) ;;;
    quotient <- decrement cfg array_size quotient ;;
    Ok (n, quotient)
  else Ok (rem, quotient).

(** verify_cache_length.cpp:65 and 89: the product of a uint64_t and a bigint; the first factor is converted *)
Definition element_times (j0 j1 j2 : nat -> Z) (k : Z) (x : big) : outcome big :=
  k <- big_of array_size j0 k ;; big_mul cfg array_size j1 j2 k x.

(** verify_cache_length.cpp:45-125; [fuel] bounds the number of turns and numbers them, [max] is ret.max,
    which is [b] until the last turn *)
Fixpoint minmax_loop (fuel : nat) (max ai bi : big) (si ui : Z) : outcome euclid_return :=
  match fuel with
  | O => Diverged
  | S fuel' =>
      let j := junk fuel' in
      (* 47-55 *)
      r <- long_division cfg array_size (j 0%nat) (j 1%nat) bi ai ;;
      let '(new_b, qi) := r in
      r <- no_zero_remainder ai new_b qi ;;
      let '(new_b, qi) := r in
      s <- big_of array_size (j 2%nat) si ;;
      new_u <- big_mul cfg array_size (j 3%nat) (j 4%nat) qi s ;;
      new_u <- add_element cfg array_size new_u ui ;;
      (* 57-69 *)
      g <- big_gt_element array_size new_u N ;;
      if g : bool then
        k <- udiv (wrap 64 (N - ui)) si ;;
        max <- sub_assign cfg array_size max bi ;;
        x <- element_times (j 5%nat) (j 6%nat) (j 7%nat) k ai ;;
        max <- add_assign cfg array_size (fun _ => elements x) max (element_pos x) ;;
        Ok (mk_euclid_return ai max si (wrap 64 (ui + wrap 64 (k * si))))
      else
      cassert cfg (element_pos new_u =? 0)%nat ;;;
      (* 73-81 *)
      r <- long_division cfg array_size (j 8%nat) (j 9%nat) ai new_b ;;
      let '(new_a, pi) := r in
      r <- no_zero_remainder new_b new_a pi ;;
      let '(new_a, pi) := r in
      new_s <- big_mul cfg array_size (j 10%nat) (j 11%nat) pi new_u ;;
      new_s <- add_element cfg array_size new_s si ;;
      (* 83-95 *)
      g <- big_gt_element array_size new_s N ;;
      u0 <- sel array_size (elements new_u) 0 ;;
      if g : bool then
        k <- udiv (wrap 64 (N - si)) u0 ;;
        x <- element_times (j 12%nat) (j 13%nat) (j 14%nat) k new_b ;;
        min <- sub_assign cfg array_size ai x ;;
        max <- sub_assign cfg array_size max new_b ;;
        Ok (mk_euclid_return min max (wrap 64 (si + wrap 64 (k * u0))) u0)
      else
      cassert cfg (element_pos new_s =? 0)%nat ;;;
      s0 <- sel array_size (elements new_s) 0 ;;
      (* 98-119 *)
      e <- big_eq array_size new_b bi ;;
      e <- (if e : bool then big_eq array_size new_a ai else Ok false) ;;
      if e : bool then
        cassert cfg (ui =? u0) ;;;
        cassert cfg (si =? s0) ;;;
        max <- sub_assign cfg array_size max new_b ;;
        sum_idx <- add_assign cfg array_size (fun _ => elements new_u) new_s (element_pos new_u) ;;
        g <- big_gt_element array_size sum_idx N ;;
        if g : bool then Ok (mk_euclid_return new_a max s0 u0)
        else
          cassert cfg (element_pos sum_idx =? 0)%nat ;;;
          min <- big_of array_size (j 15%nat) 0 ;;
          sum0 <- sel array_size (elements sum_idx) 0 ;;
          Ok (mk_euclid_return min max sum0 u0)
      else
      (* 121-124 *)
      minmax_loop fuel' max new_a new_b s0 u0
  end.

(** verify_cache_length.cpp:31-128; at most 67 turns are needed ([Euclid.v]), so the fuel never runs out *)
Definition minmax_euclid (a b : big) : outcome euclid_return := minmax_loop 128 b a b 1 0.
End Euclid.
