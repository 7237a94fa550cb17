(** * Model of tests/random_float.h

    The random engine together with std::uniform_int_distribution is a function [draw]: [draw i a b] is the number
    obtained by the i-th call, for a distribution on [a, b].  std::stof and std::stod are a function [sto] from the number
    spelled by the string, s * 10^e, to the bits returned, or [None] when std::out_of_range is thrown.  generate_correctly_seeded_mt19937_64
    (73-78) only passes a seed sequence to std::mt19937_64. *)

From Coq Require Import ZArith List Bool.
From Verif Require Import Machine Model BigintModel.
Import ListNotations.
Open Scope Z_scope.

(** ** repeating_seed_seq *)

(** std::copy_n from the start of [stored] to [first + offset, ...) of a range of [count] elements *)
Definition copy_stored (stored : list Z) (count offset n : nat) (out : nat -> Z) : outcome (nat -> Z) :=
  up_loop (fun i out => v <- read_array stored (Z.of_nat i) ;; upd count out (offset + i) v) 0 n out.
(** random_float.h:47-58: generate on a range of [count] elements *)
Definition generate (stored : list Z) (count : nat) (out : nat -> Z) : outcome (nat -> Z) :=
  let size := length stored in
  match size with
  | O => Undefined  (* division by zero *)
  | _ =>
      let q := (count / size)%nat in
      out <- up_loop (fun i out => copy_stored stored count (i * size) size out) 0 q out ;;
      copy_stored stored count (q * size) (count - q * size) out
  end.

Section Random.
Variables (draw : nat -> Z -> Z -> Z) (sto : Z -> Z -> option Z).

(** ** uniformly_randomly_generate_finite_float, random_float.h:80-106 *)
Definition finite_float (f : fmt) : Z :=
  let w := extended_precision f in
  let sign_bit := draw 0 0 1 in
  let exponent_bits' := draw 1 0 (Z.shiftl 1 (exponent_bits f) - 2) in
  let significand_bits := draw 2 0 (Z.shiftl 1 (precision f) - 1) in
  Z.lor (Z.lor (wrap w (Z.shiftl sign_bit (w - 1))) (wrap w (Z.shiftl exponent_bits' (precision f)))) significand_bits.

(** ** uniformly_randomly_generate_general_float, random_float.h:108-122 *)
Definition general_float (f : fmt) : Z := draw 0 0 (2 ^ extended_precision f - 1).

(** ** randomly_generate_float_with_given_digits, random_float.h:127-198 *)

(** signed_int_t arithmetic *)
Definition signed_int (f : fmt) (x : Z) : outcome Z := match f with Binary32 => i32 x | Binary64 => i64 x end.
(** std::numeric_limits<Float>::min_exponent10 and max_exponent10 *)
Definition min_exponent10 (f : fmt) : Z := match f with Binary32 => -37 | Binary64 => -307 end.
(** as at random_float.h:169 *)
Definition max_exponent10 (f : fmt) : Z := match f with Binary32 => 38 | Binary64 => 308 end.

(** random_float.h:150-157: from and to *)
Definition bounds (f : fmt) (digits : Z) : outcome (Z * Z) :=
  if 1 <? digits then
    from <- up_loop (fun _ from => signed_int f (from * 10)) 1 (Z.to_nat (digits - 2)) 1 ;;
    t <- signed_int f (from * 10) ;; to <- signed_int f (t - 1) ;;
    Ok (from, to)
  else Ok (0, 9).
(** random_float.h:160-194: one turn, from the i-th draw on; [None] is [continue] *)
Definition attempt (cfg : config) (f : fmt) (digits sign from to : Z) (i : nat) : outcome (option Z) :=
  let significand := draw i from to in
  significand <- (if 1 <? digits then s <- signed_int f (significand * 10) ;; signed_int f (s + draw (S i) 1 9) else Ok significand) ;;
  let exp := draw (S (S i)) (min_exponent10 f - (digits - 1)) (max_exponent10 f - (digits - 1)) in
  s <- signed_int f (sign * significand) ;;
  match sto s exp with
  | None => Ok None
  | Some result =>
      roundtrip <- grisu_exact cfg f false nearest_to_even do_not_care assert_finite result ;;
      t <- signed_int f (from * 10) ;;
      Ok (if negb (from =? 0) && (fp_significand roundtrip <=? wrap (extended_precision f) t) then None else Some result)
  end.
(** random_float.h:159-197: the loop *)
Fixpoint attempts (cfg : config) (f : fmt) (digits sign from to : Z) (turns i : nat) : outcome Z :=
  match turns with
  | O => Diverged
  | S turns' =>
      r <- attempt cfg f digits sign from to i ;;
      match r with Some result => Ok result | None => attempts cfg f digits sign from to turns' (i + 3) end
  end.
(** random_float.h:135-145, 159-197: the number drawn for the last digit is not used when digits = 1; [turns] bounds the turns of the loop *)
Definition float_with_given_digits (cfg : config) (f : fmt) (turns : nat) (digits : Z) : outcome Z :=
  cassert cfg (1 <=? digits) ;;;
  cassert cfg (digits <=? match f with Binary32 => 9 | Binary64 => 17 end) ;;;
  let sign := if draw 0 0 1 =? 0 then 1 else -1 in
  b <- bounds f digits ;;
  attempts cfg f digits sign (fst b) (snd b) turns 1.
End Random.
