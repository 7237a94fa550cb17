(** * Model of tests/generate_cache.cpp: the program that writes the cache tables

    A [std::bitset<precision>] is the integer of its bits.  Only the values written to the files are
    modelled, in the order in which they are written; the text around them is not. *)

From Coq Require Import ZArith List Bool Lia.
From Verif Require Import Machine Tables Model BigintModel.
Import ListNotations.
Open Scope Z_scope.

(** bs[idx] = b and bs.reset(idx): idx must be below the size *)
(** as at generate_cache.cpp:91, 111 *)
Definition set_bit (P u idx : Z) (b : bool) : outcome Z :=
  if (0 <=? idx) && (idx <? P) then Ok (if b then Z.setbit u idx else Z.clearbit u idx) else Undefined.
(** bs <<= n *)
(** as at generate_cache.cpp:166, 170 *)
Definition bitset_shl (P u n : Z) : Z := if n <? P then wrap P (Z.shiftl u n) else 0.

Section Upper.
(** [over] is the value of [element_type(1) << 64]: [None] for the C++ standard (undefined), [Some v] for a
    machine on which the shift does nothing worse than yield some value *)
Variables (over : option Z) (P : Z) (N : nat).

(** generate_cache.cpp:78-84 and 97-103: [n] bits of [x] from [mask] downwards, to positions from [idx] downwards *)
Fixpoint copy_down (x : Z) (n : nat) (idx mask u : Z) : outcome (Z * Z) :=
  match n with
  | O => Ok (u, mask)
  | S n' => u <- set_bit P u idx (negb (Z.land x mask =? 0)) ;; copy_down x n' (idx - 1) (Z.shiftr mask 1) u
  end.
(** generate_cache.cpp:90-91 and 110-111: reset the positions below [n] (from above: the order does not matter) *)
Fixpoint reset_below (n : nat) (u : Z) : outcome Z :=
  match n with
  | O => Ok u
  | S n' => u <- set_bit P u (Z.of_nat n') false ;; reset_below n' u
  end.
(** generate_cache.cpp:118-122 *)
Fixpoint copy_up (x : Z) (n : nat) (idx mask u : Z) : outcome Z :=
  match n with
  | O => Ok u
  | S n' => u <- set_bit P u idx (negb (Z.land x mask =? 0)) ;; copy_up x n' (idx + 1) (wrap 64 (Z.shiftl mask 1)) u
  end.

(** generate_cache.cpp:88-107: the elements that are copied as a whole.  [inl]: the function has returned;
    [inr]: the bits so far, the number of bits that remain, and the current element *)
Fixpoint copy_elements (a : nat -> Z) (fuel : nat) (remaining : Z) (element_idx : nat) (u : Z) : outcome (Z + Z * Z * nat) :=
  if 64 <=? remaining then
    match fuel with
    | O => Diverged
    | S fuel' =>
        match element_idx with
        | O => u <- reset_below (Z.to_nat remaining) u ;; Ok (inl u)
        | S e =>
            mask <- shl 64 1 (element_number_of_bits - 1) ;;
            x <- sel N a e ;;
            r <- copy_down x 63 (remaining - 1) mask u ;;
            let '(u, mask) := r in
            let remaining := remaining - element_number_of_bits in
            u <- set_bit P u remaining (negb (Z.land x mask =? 0)) ;;
            copy_elements a fuel' remaining e u
        end
    end
  else Ok (inr (u, remaining, element_idx)).

(** generate_cache.cpp:67-126 *)
Definition get_upper_bits (b : big) : outcome Z :=
  if P <=? bit_pos b then
    x <- sel N (elements b) (element_pos b) ;; v <- shr 64 x (bit_pos b - P) ;; Ok (wrap P v)
  else
    mask <- shl 64 1 (bit_pos b - 1) ;;
    x <- sel N (elements b) (element_pos b) ;;
    r <- copy_down x (Z.to_nat (bit_pos b)) (P - 1) mask 0 ;;
    let '(u, _) := r in
    r <- copy_elements (elements b) (S (S (element_pos b))) (P - bit_pos b) (element_pos b) u ;;
    match r with
    | inl u => Ok u
    | inr (u, remaining, O) => reset_below (Z.to_nat remaining) u
    | inr (u, remaining, S e) =>
        mask <- (if remaining =? 0 then match over with Some v => Ok v | None => Undefined end
                 else shl 64 1 (element_number_of_bits - remaining)) ;;
        if remaining =? 0 then Ok u else
        x <- sel N (elements b) e ;;
        copy_up x (Z.to_nat remaining) 0 mask u
    end.
End Upper.

(** generate_cache.cpp:159-172: the digits of 1/5^k; [fuel] bounds the number of iterations *)
Fixpoint negative_digits (cfg : config) (P : Z) (N fuel : nat) (p5 dividend : big) (digits acc : Z) : outcome Z :=
  match fuel with
  | O => Diverged
  | S fuel' =>
      dividend <- sub_assign cfg N dividend p5 ;;
      r <- multiply_2_until cfg N (fun _ => elements p5) dividend (element_pos p5) (bit_pos p5) ;;
      let '(dividend, new_exp) := r in
      let acc := wrap 64 (acc + new_exp) in
      if P <=? acc then Ok (bitset_shl P digits (wrap 64 (P - 1 - wrap 64 (acc - new_exp))))
      else
        digits <- set_bit P (bitset_shl P digits new_exp) 0 true ;;
        negative_digits cfg P N fuel' p5 dividend digits acc
  end.

(** generate_cache.cpp:60-184.  [junk k] supplies the uninitialised elements of the bigints made in the
    iteration for k.  The result is the array, as a function of k. *)
Section Generate.
Variables (over : option Z) (cfg : config) (junk : nat -> nat -> Z) (P min_k max_k : Z) (N : nat).

(** generate_cache.cpp:128-132, cache(k) = v: the array has max_k - min_k + 1 entries *)
Definition cache_put (c : Z -> Z) (k v : Z) : outcome (Z -> Z) :=
  if (min_k <=? k) && (k <=? max_k) then Ok (fun j => if j =? k then v else c j) else Undefined.

(** generate_cache.cpp:140-144 and 179-180 *)
Definition positive_step (k : nat) (st : big * (Z -> Z)) : outcome (big * (Z -> Z)) :=
  let '(p5, c) := st in
  p5 <- multiply_5 cfg N (junk k) p5 ;;
  u <- get_upper_bits over P N p5 ;;
  c <- cache_put c (Z.of_nat k) u ;;
  Ok (p5, c).
(** generate_cache.cpp:140-174 *)
Definition both_step (k : nat) (st : big * (Z -> Z)) : outcome (big * (Z -> Z)) :=
  st <- positive_step k st ;;
  let '(p5, c) := st in
  dividend <- big_of N (junk k) 1 ;;
  r <- multiply_2_until cfg N (fun _ => elements p5) dividend (element_pos p5) (bit_pos p5) ;;
  let '(dividend, _) := r in
  v <- negative_digits cfg P N (Z.to_nat P + 1) p5 dividend 1 0 ;;
  c <- cache_put c (- Z.of_nat k) v ;;
  Ok (p5, c).
(** generate_cache.cpp:128-184 *)
Definition generate_cache_bitset : outcome (Z -> Z) :=
  p5 <- big_of N (junk 0%nat) 1 ;;
  u <- get_upper_bits over P N p5 ;;
  c <- cache_put (fun _ => 0) 0 u ;;
  st <- up_loop both_step 1 (Z.to_nat (- min_k)) (p5, c) ;;
  st <- up_loop positive_step (S (Z.to_nat (- min_k))) (Z.to_nat (max_k + min_k)) st ;;
  Ok (snd st).
End Generate.

(** generate_cache.cpp:25-58: bitset_to_uint *)
Definition to_entry (f : fmt) (v : Z) : cache_entry :=
  match f with
  | Binary32 => Cache64 v
  | Binary64 => Cache128 (mk_uint128 (Z.shiftr v 64) (wrap 64 v))
  end.
(** generate_cache.cpp:243-246 and 259-262: detect_overflow_and_increment *)
Definition increment_entry (e : cache_entry) : cache_entry * bool :=
  match e with
  | Cache64 v => let v := wrap 64 (v + 1) in (Cache64 v, v =? 0)
  | Cache128 v => let low := wrap 64 (u128_low v + 1) in (Cache128 (mk_uint128 (u128_high v) low), low =? 0)
  end.
(** generate_cache.cpp:206-231: the entries written, and whether an overflow was reported.  The last entry
    is cache_bitset.back(). *)
Definition write_file (f : fmt) (c : Z -> Z) : list cache_entry * bool :=
  let negative := map (fun i => increment_entry (to_entry f (c (min_k f + Z.of_nat i)))) (seq 0 (Z.to_nat (- min_k f))) in
  let positive := map (fun i => to_entry f (c (Z.of_nat i))) (seq 0 (Z.to_nat (max_k f))) in
  (map fst negative ++ positive ++ [to_entry f (c (max_k f))], existsb snd negative).

(** generate_cache.cpp:64-65: the capacity of the bigints, computed from the constants of the format *)
Definition generator_array_size (f : fmt) : nat :=
  array_size_of (c_floor_log2_pow10 (max_k f) - max_k f + 1).
(** generate_cache.cpp:192-271, for one format *)
Definition generate_cache (over : option Z) (cfg : config) (junk : nat -> nat -> Z) (f : fmt) : outcome (list cache_entry * bool) :=
  c <- generate_cache_bitset over cfg junk (cache_precision f) (min_k f) (max_k f) (generator_array_size f) ;;
  Ok (write_file f c).
