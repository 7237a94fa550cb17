(** * Model of tests/bigint.h, long_division

    As in [BigintModel]: arrays are functions with checked accesses, uninitialised storage is [junk], and
    the argument of long_division is an object other than [*this]. *)

From Coq Require Import ZArith List Bool Lia.
From Verif Require Import Machine Model BigintModel.
Open Scope Z_scope.

Section Division.
Variables (cfg : config) (N : nat).

(** bigint.h:604-609: comparison_idx moves down while the element is zero *)
Fixpoint skip_zeros (a : nat -> Z) (idx : nat) : outcome nat :=
  v <- sel N a idx ;;
  if v =? 0 then match idx with O => Ok O | S idx' => skip_zeros a idx' end else Ok idx.

(** bigint.h:589-612: [*this] is [b], subtracted from above base_idx up to comparison_idx *)
Definition perform_subtraction (b : big) (x : nat -> Z) (base_idx comparison_idx : nat) : outcome big :=
  v <- sel N (elements b) base_idx ;; w <- sel N x base_idx ;;
  a <- upd N (elements b) base_idx (wrap 64 (v - w)) ;;
  st <- up_loop (fun idx (st : (nat -> Z) * Z) => let '(a, carry) := st in
          w <- sel N x idx ;;
          let with_carry := wrap 64 (w + carry) in
          let first_carry := if with_carry <? carry then 1 else 0 in
          v <- sel N a idx ;;
          a <- upd N a idx (wrap 64 (v - with_carry)) ;;
          Ok (a, Z.lor first_carry (if v <? with_carry then 1 else 0)))
        (S base_idx) (comparison_idx - base_idx) (a, if v <? w then 1 else 0) ;;
  let '(a, carry) := st in
  cassert cfg (carry =? 0) ;;;
  let operation_idx := S (Nat.max base_idx comparison_idx) in
  a <- fill_zero N a operation_idx (S (element_pos b) - operation_idx) ;;
  pos <- skip_zeros a comparison_idx ;;
  v <- sel N a pos ;;
  Ok (mk_big a pos (log2p1 v)).

(** the result of comparing from the top (bigint.h:623-641 and 710-755): which side is larger, and at
    which element; [n1] is the number of elements still to compare and [stop] the number left out *)
Inductive larger := N_larger | This_larger (idx : nat) | No_difference.
(** the loops at bigint.h:623-641 and 710-755 *)
Fixpoint compare_down (stop : nat) (a n : nat -> Z) (n1 : nat) : outcome larger :=
  if (n1 <=? stop)%nat then Ok No_difference else
  match n1 with
  | O => Ok No_difference
  | S idx =>
      w <- sel N n idx ;; v <- sel N a idx ;;
      if v <? w then Ok N_larger else if w <? v then Ok (This_larger idx) else compare_down stop a n idx
  end.

(** the local variables shared by the lambdas of long_division: [*this], n_shifted (its elements and
    leading_one_pos), the quotient, base_idx, base_trailing_zeros, total_shft_amount *)
(** declared at bigint.h:577-590 and 652-705 *)
Record division := mk_division {
  d_this : big;
  d_shifted : nat -> Z; d_element_pos : nat; d_bit_pos : Z;
  d_quotient : big;
  d_base_idx : nat; d_zeros : Z; d_total : Z
}.

(** bigint.h:662-667: n_shifted = n << zeros, for 0 < zeros < 64 *)
Definition shift_from (s n : nat -> Z) (pos : nat) (zeros : Z) : outcome (nat -> Z) :=
  s <- down_loop (fun idx s =>
         v <- sel N n idx ;; v <- shl 64 v zeros ;;
         low <- sel N n (idx - 1) ;; low <- shr 64 low (element_number_of_bits - zeros) ;;
         upd N s idx (Z.lor v low)) pos s ;;
  v <- sel N n 0 ;; v <- shl 64 v zeros ;; upd N s 0 v.

(** bigint.h:689-701: the elements of n copied to base_idx and shifted there *)
Definition shift_from_base (s n : nat -> Z) (npos pos base_idx : nat) (zeros : Z) : outcome (nat -> Z) :=
  s <- fill_zero N s 0 base_idx ;;
  s <- up_loop (fun idx s => v <- sel N n idx ;; upd N s (base_idx + idx) v) 0 (S npos) s ;;
  if negb (zeros =? 0) then
    s <- down_loop (fun k s => let idx := (base_idx + k)%nat in
           v <- sel N s idx ;; v <- shl 64 v zeros ;; s <- upd N s idx v ;;
           low <- sel N s (idx - 1) ;; low <- shr 64 low (element_number_of_bits - zeros) ;;
           v <- sel N s idx ;; upd N s idx (Z.lor v low)) (pos - base_idx) s ;;
    v <- sel N s base_idx ;; v <- shl 64 v zeros ;; upd N s base_idx v
  else Ok s.

(** bigint.h:740-748: n_shifted one bit to the right *)
Definition shift_right_one (s : nat -> Z) (base_idx pos : nat) : outcome (nat -> Z) :=
  s <- up_loop (fun idx s =>
         v <- sel N s idx ;; v <- shr 64 v 1 ;; s <- upd N s idx v ;;
         high <- sel N s (S idx) ;; high <- shl 64 high (element_number_of_bits - 1) ;;
         v <- sel N s idx ;; upd N s idx (Z.lor v high)) base_idx (pos - base_idx) s ;;
  v <- sel N s pos ;; v <- shr 64 v 1 ;; upd N s pos v.

(** bigint.h:714-751: n_shifted is larger; [None] is "cannot shift further" *)
Definition shift_back (before_iteration : bool) (d : division) : outcome (option division) :=
  let b := d_this d in
  if (d_zeros d =? 0) && (d_base_idx d =? 0)%nat && negb before_iteration then Ok None else
  st <- (if d_zeros d =? 0 then
           match d_base_idx d with
           | O => Undefined  (* elements[base_idx - 1] with base_idx = 0 *)
           | S base' =>
               v <- sel N (d_shifted d) (d_base_idx d) ;; v <- shl 64 v (element_number_of_bits - 1) ;;
               s <- upd N (d_shifted d) base' v ;;
               Ok (s, base', element_number_of_bits - 1)
           end
         else Ok (d_shifted d, d_base_idx d, d_zeros d - 1)) ;;
  let '(s, base_idx, zeros) := st in
  let '(npos, nbits) := if bit_pos b =? 1 then ((d_element_pos d - 1)%nat, element_number_of_bits)
                        else (d_element_pos d, d_bit_pos d - 1) in
  s <- shift_right_one s base_idx (element_pos b) ;;
  Ok (Some (mk_division b s npos nbits (d_quotient d) base_idx zeros (wrap 64 (d_total d - 1)))).

(** bigint.h:757-777: the quotient bit, and the subtraction unless both are equal *)
Definition subtract_here (before_iteration : bool) (d : division) (comparison_idx : option nat) : outcome (bool * division) :=
  let b := d_this d in
  let q := d_quotient d in
  let '(qpos, qbits) := if before_iteration then (d_base_idx d, d_zeros d + 1) else (element_pos q, bit_pos q) in
  v <- sel N (elements q) (d_base_idx d) ;; one <- shl 64 1 (d_zeros d) ;;
  qe <- upd N (elements q) (d_base_idx d) (Z.lor v one) ;;
  let q := mk_big qe qpos qbits in
  match comparison_idx with
  | None =>
      a <- fill_zero N (elements b) 0 (S (element_pos b)) ;;
      Ok (false, mk_division (mk_big a 0 0) (d_shifted d) (d_element_pos d) (d_bit_pos d) q (d_base_idx d) (d_zeros d) (d_total d))
  | Some idx =>
      b <- perform_subtraction b (d_shifted d) (d_base_idx d) idx ;;
      Ok (true, mk_division b (d_shifted d) (d_element_pos d) (d_bit_pos d) q (d_base_idx d) (d_zeros d) (d_total d))
  end.

(** bigint.h:708-778 *)
Definition compare_and_subtract (before_iteration : bool) (d : division) : outcome (bool * division) :=
  c <- compare_down 0 (elements (d_this d)) (d_shifted d) (S (element_pos (d_this d))) ;;
  match c with
  | N_larger =>
      r <- shift_back before_iteration d ;;
      match r with
      | None => Ok (false, d)
      | Some d => subtract_here before_iteration d (Some (element_pos (d_this d)))
      end
  | This_larger idx => subtract_here before_iteration d (Some idx)
  | No_difference => subtract_here before_iteration d None
  end.

(** bigint.h:784-825: n_shifted moved right until its leading bit is that of [*this]; [None] is [break] *)
Definition realign (d : division) : outcome (option division) :=
  let b := d_this d in
  let offset := wrap 64 (Z.of_nat (d_element_pos d) - Z.of_nat (element_pos b)) in
  let '(element_shft_amount, bit_shft_amount) :=
    if bit_pos b <? d_bit_pos d then (offset, d_bit_pos d - bit_pos b)
    else if d_bit_pos d <? bit_pos b then (wrap 64 (offset - 1), element_number_of_bits + d_bit_pos d - bit_pos b)
    else (offset, 0) in
  let necessary := wrap 64 (element_shft_amount * element_number_of_bits + bit_shft_amount) in
  if d_total d <? necessary then Ok None else
  let total := d_total d - necessary in
  let base_idx := Z.to_nat (total / element_number_of_bits) in
  let zeros := total mod element_number_of_bits in
  s <- (if negb (element_shft_amount =? 0) then
          up_loop (fun idx s => v <- sel N s (idx + Z.to_nat element_shft_amount) ;; upd N s idx v)
            base_idx (S (element_pos b) - base_idx) (d_shifted d)
        else Ok (d_shifted d)) ;;
  s <- (if negb (bit_shft_amount =? 0) then
          s <- up_loop (fun idx s =>
                 v <- sel N s idx ;; v <- shr 64 v bit_shft_amount ;; s <- upd N s idx v ;;
                 high <- sel N s (S idx) ;; high <- shl 64 high (element_number_of_bits - bit_shft_amount) ;;
                 v <- sel N s idx ;; upd N s idx (Z.lor v high))
               base_idx (d_element_pos d - base_idx) s ;;
          v <- sel N s (d_element_pos d) ;; v <- shr 64 v bit_shft_amount ;; upd N s (d_element_pos d) v
        else Ok s) ;;
  Ok (Some (mk_division b s (element_pos b) (bit_pos b) (d_quotient d) base_idx zeros total)).

(** bigint.h:783-826: do { ... } while; [fuel] bounds the number of turns *)
Fixpoint division_loop (fuel : nat) (d : division) : outcome division :=
  match fuel with
  | O => Diverged
  | S fuel' =>
      r <- realign d ;;
      match r with
      | None => Ok d
      | Some d =>
          st <- compare_and_subtract false d ;;
          let '(continue, d) := st in
          if continue : bool then division_loop fuel' d else Ok d
      end
  end.

(** bigint.h:780-828; [turns] bounds the turns of the loop *)
Definition divide_aligned (turns : nat) (d : division) : outcome (big * big) :=
  st <- compare_and_subtract true d ;;
  let '(continue, d) := st in
  if continue : bool then d <- division_loop turns d ;; Ok (d_this d, d_quotient d)
  else Ok (d_this d, d_quotient d).

(** bigint.h:578-829: the remainder left in [*this], and the quotient; [Diverged] if the loop has not ended after [turns] turns *)
Definition long_division_within (turns : nat) (junk_shifted junk_quotient : nat -> Z) (b n : big) : outcome (big * big) :=
  q <- big_of N junk_quotient 0 ;;
  if (element_pos b <? element_pos n)%nat then Ok (b, q)
  else if (element_pos b =? element_pos n)%nat then
    if bit_pos b <? bit_pos n then Ok (b, q)
    else if bit_pos b =? bit_pos n then
      (* bigint.h:621-654 *)
      c <- compare_down 1 (elements b) (elements n) (S (element_pos b)) ;;
      match c with
      | N_larger => Ok (b, q)
      | This_larger idx =>
          b <- perform_subtraction b (elements n) 0 idx ;;
          qe <- upd N (elements q) 0 1 ;;
          Ok (b, mk_big qe (element_pos q) 1)
      | No_difference =>
          w <- sel N (elements n) 0 ;; v <- sel N (elements b) 0 ;;
          if v <? w then Ok (b, q) else
          a <- upd N (elements b) 0 (wrap 64 (v - w)) ;;
          a <- fill_zero N a 1 (element_pos b) ;;
          v <- sel N a 0 ;;
          qe <- upd N (elements q) 0 1 ;;
          Ok (mk_big a 0 (log2p1 v), mk_big qe (element_pos q) 1)
      end
    else
      let zeros := bit_pos b - bit_pos n in
      s <- shift_from junk_shifted (elements n) (element_pos b) zeros ;;
      divide_aligned turns (mk_division b s (element_pos b) (bit_pos b) q 0 zeros zeros)
  else
    (* bigint.h:671-702 *)
    let offset := (element_pos b - element_pos n)%nat in
    st <- (if bit_pos n <? bit_pos b then Ok (junk_shifted, offset, bit_pos b - bit_pos n)
           else if bit_pos b <? bit_pos n then
             s <- upd N junk_shifted (element_pos b) 0 ;;
             Ok (s, (offset - 1)%nat, element_number_of_bits + bit_pos b - bit_pos n)
           else Ok (junk_shifted, offset, 0)) ;;
    let '(s, base_idx, zeros) := st in
    s <- shift_from_base s (elements n) (element_pos n) (element_pos b) base_idx zeros ;;
    divide_aligned turns (mk_division b s (element_pos b) (bit_pos b) q base_idx zeros (wrap 64 (Z.of_nat base_idx * element_number_of_bits + zeros))).

(** Every turn of a division that works moves [*this] at least one bit down, so [64 * N + 1] turns are enough for it. *)
Definition long_division := long_division_within (S (64 * N)).
End Division.
