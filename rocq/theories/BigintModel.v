(** * Model of tests/bigint.h: the fixed-capacity integers of the test programs

    Indices and lengths ([std::size_t]) are [nat] or [Z] where they take part in arithmetic that cannot wrap;
    elements are integers in [0, 2^64).  An array is a function from indices to elements, and every access
    is checked against [N], the template parameter [array_size].  Uninitialised storage is a parameter
    [junk], which theorems quantify over. *)

From Coq Require Import ZArith List Bool Lia.
From Verif Require Import Machine Model.
Open Scope Z_scope.

(** [for (idx = i; idx < i + n; ++idx)] and [for (idx = n; idx > 0; --idx)] *)
Fixpoint up_loop {A : Type} (body : nat -> A -> outcome A) (i n : nat) (s : A) : outcome A :=
  match n with
  | O => Ok s
  | S n' => s' <- body i s ;; up_loop body (S i) n' s'
  end.
(** the loops counting down, as at bigint.h:133-137 *)
Fixpoint down_loop {A : Type} (body : nat -> A -> outcome A) (n : nat) (s : A) : outcome A :=
  match n with
  | O => Ok s
  | S n' => s' <- body n s ;; down_loop body n' s'
  end.

(** [elements[i]] and [elements[i] = v] on an array of [N] elements *)
(** the reads of elements (declared at bigint.h:75), as at bigint.h:365 *)
Definition sel (N : nat) (a : nat -> Z) (i : nat) : outcome Z := if (i <? N)%nat then Ok (a i) else Undefined.
(** the array after an assignment to one element, as at bigint.h:367 *)
Definition put (a : nat -> Z) (i : nat) (v : Z) : nat -> Z := fun j => if (j =? i)%nat then v else a j.
(** the assignments to an element, as at bigint.h:367 *)
Definition upd (N : nat) (a : nat -> Z) (i : nat) (v : Z) : outcome (nat -> Z) :=
  if (i <? N)%nat then Ok (put a i v) else Undefined.

(** std::fill_n(std::begin(elements) + i, n, 0) *)
(** as at bigint.h:121 *)
Definition fill_zero (N : nat) (a : nat -> Z) (i n : nat) : outcome (nat -> Z) :=
  up_loop (fun j a => upd N a j 0) i n a.

(** bigint.h:31-51, with the intermediate values of [x] and [ret] *)
Definition log2p1_inspect (shft : Z) (s : Z * Z) : Z * Z :=
  let '(x, ret) := s in
  if negb (Z.shiftr x shft =? 0) then (Z.shiftr x shft, ret + shft) else (x, ret).
(** bigint.h:31-51: the calls of inspect *)
Definition log2p1 (x : Z) : Z :=
  let '(x, ret) := log2p1_inspect 1 (log2p1_inspect 2 (log2p1_inspect 4
                     (log2p1_inspect 8 (log2p1_inspect 16 (log2p1_inspect 32 (x, 0)))))) in
  ret + x.

(** bigint.h:53-62, 71-76: [bigint_impl<array_size>] with [leading_one_pos.element_pos] and
    [leading_one_pos.bit_pos] *)
Record big := mk_big { elements : nat -> Z; element_pos : nat; bit_pos : Z }.

(** bigint.h:54-56 *)
Definition element_number_of_bits : Z := 64.

(** bigint.h:67-69: array_size for a number of bits *)
Definition array_size_of (max_bits : Z) : nat := Z.to_nat ((max_bits + element_number_of_bits - 1) / element_number_of_bits).

(** bigint.h:80-85 *)
Definition big_of (N : nat) (junk : nat -> Z) (x : Z) : outcome big :=
  a <- upd N junk 0 x ;;
  a <- fill_zero N a 1 (N - 1) ;;
  Ok (mk_big a 0 (log2p1 x)).

(** bigint.h:87-100 *)
Definition power_of_2 (cfg : config) (N : nat) (junk : nat -> Z) (exp : Z) : outcome big :=
  cassert cfg (exp <? Z.of_nat N * element_number_of_bits) ;;;
  a <- fill_zero N junk 0 N ;;
  let pos := Z.to_nat (exp / element_number_of_bits) in
  let bits := exp mod element_number_of_bits + 1 in
  v <- shl 64 1 (bits - 1) ;;
  a <- upd N a pos v ;;
  Ok (mk_big a pos bits).

(** bigint.h:105-187.  The second operand is read through [src], applied to the current elements, so that
    both a separate object ([fun _ => n]) and the object itself ([fun a => a]) are covered. *)
Section Multiply2.
Variables (cfg : config) (N : nat) (src : (nat -> Z) -> nat -> Z).

(** bigint.h:117-122: move_backward of [0, pos] to the positions ending at [npos], then zeros below *)
Definition shift_elements (a : nat -> Z) (pos offset : nat) : outcome (nat -> Z) :=
  a <- down_loop (fun j1 a => v <- sel N a (j1 - 1) ;; upd N a (j1 - 1 + offset) v) (S pos) a ;;
  fill_zero N a 0 offset.

(** bigint.h:132-140 *)
Definition shift_left_bits (a : nat -> Z) (pos : nat) (shft : Z) : outcome (nat -> Z) :=
  let remaining_bits := element_number_of_bits - shft in
  a <- down_loop (fun idx a =>
         low <- sel N a (idx - 1) ;; transfer <- shr 64 low remaining_bits ;;
         v <- sel N a idx ;; v <- shl 64 v shft ;;
         upd N a idx (Z.lor v transfer)) pos a ;;
  v <- sel N a 0 ;; v <- shl 64 v shft ;; upd N a 0 v.

(** bigint.h:142-152 *)
Definition shift_right_bits (a : nat -> Z) (pos : nat) (shft : Z) : outcome (nat -> Z) :=
  let remaining_bits := element_number_of_bits - shft in
  v <- sel N a 0 ;; v <- shr 64 v shft ;; a <- upd N a 0 v ;;
  up_loop (fun idx a =>
    v <- sel N a idx ;; transfer <- shl 64 v remaining_bits ;;
    low <- sel N a (idx - 1) ;; a <- upd N a (idx - 1) (Z.lor low transfer) ;;
    v <- sel N a idx ;; v <- shr 64 v shft ;; upd N a idx v) 1 pos a.

(** bigint.h:155-164, [n1] = idx + 1 counts down to 0 *)
Fixpoint geq_from (a : nat -> Z) (n1 : nat) : outcome bool :=
  match n1 with
  | O => Ok true
  | S idx =>
      v <- sel N a idx ;; w <- sel N (src a) idx ;;
      if w <? v then Ok true else if v <? w then Ok false else geq_from a idx
  end.

(** bigint.h:166-184: the additional shift by one bit *)
Definition shift_one_bit (a : nat -> Z) (pos : nat) : outcome (nat -> Z) :=
  a <- down_loop (fun idx a =>
         v <- sel N a idx ;; v <- shl 64 v 1 ;; a <- upd N a idx v ;;
         low <- sel N a (idx - 1) ;; low <- shr 64 low 63 ;;
         v <- sel N a idx ;; upd N a idx (Z.lor v low)) pos a ;;
  v <- sel N a 0 ;; v <- shl 64 v 1 ;; upd N a 0 v.

(** [npos], [nbits] are n.leading_one_pos.  (For the object itself they are read before they change: the
    shifts below are then by nothing.) *)
(** bigint.h:105-187 *)
Definition multiply_2_until (b : big) (npos : nat) (nbits : Z) : outcome (big * Z) :=
  cassert cfg (negb (bit_pos b =? 0)) ;;;
  cassert cfg (element_pos b <=? npos)%nat ;;;
  let offset := wrap 64 (Z.of_nat npos - Z.of_nat (element_pos b)) in
  a <- (if 0 <? offset then shift_elements (elements b) (element_pos b) (Z.to_nat offset) else Ok (elements b)) ;;
  let count := if 0 <? offset then wrap 64 (offset * element_number_of_bits) else 0 in
  let pos := if 0 <? offset then Z.to_nat (wrap 64 (Z.of_nat (element_pos b) + offset)) else element_pos b in
  let bit_pos_offset := nbits - bit_pos b in
  let count := wrap 64 (count + bit_pos_offset) in
  a <- (if 0 <? bit_pos_offset then shift_left_bits a pos bit_pos_offset
        else if bit_pos_offset <? 0 then shift_right_bits a pos (- bit_pos_offset)
        else Ok a) ;;
  geq <- geq_from a (S pos) ;;
  if geq : bool then Ok (mk_big a pos nbits, count)
  else
    let count := wrap 64 (count + 1) in
    let '(pos', bits') := if nbits =? element_number_of_bits then (S pos, 1) else (pos, nbits + 1) in
    (if nbits =? element_number_of_bits then cassert cfg (negb (Z.of_nat pos' =? Z.of_nat N)) else Ok tt) ;;;
    a <- shift_one_bit a pos' ;;
    Ok (mk_big a pos' bits', count).
End Multiply2.

(** bigint.h:190-247; [junk] is the initial content of times_4 *)
Definition multiply_5 (cfg : config) (N : nat) (junk : nat -> Z) (b : big) : outcome big :=
  cassert cfg (negb (bit_pos b =? 0)) ;;;
  let over := element_number_of_bits <? bit_pos b + 2 in
  (if over then cassert cfg (negb (Z.of_nat (S (element_pos b)) =? Z.of_nat N)) else Ok tt) ;;;
  let tpos := if over then S (element_pos b) else element_pos b in
  let tbits := if over then bit_pos b + 2 - element_number_of_bits else bit_pos b + 2 in
  t <- down_loop (fun idx t =>
         v <- sel N (elements b) idx ;; v <- shl 64 v 2 ;; t <- upd N t idx v ;;
         low <- sel N (elements b) (idx - 1) ;; low <- shr 64 low (element_number_of_bits - 2) ;;
         v <- sel N t idx ;; upd N t idx (Z.lor v low)) tpos junk ;;
  v <- sel N (elements b) 0 ;; v <- shl 64 v 2 ;; t <- upd N t 0 v ;;
  (* add *)
  v <- sel N (elements b) 0 ;; w <- sel N t 0 ;;
  let s := wrap 64 (v + w) in
  a <- upd N (elements b) 0 s ;;
  r <- up_loop (fun idx (st : (nat -> Z) * Z) => let '(a, carry) := st in
         v <- sel N a idx ;;
         let with_carry := wrap 64 (v + carry) in
         let first_carry := if with_carry <? v then 1 else 0 in
         w <- sel N t idx ;;
         let s := wrap 64 (with_carry + w) in
         a <- upd N a idx s ;;
         Ok (a, Z.lor first_carry (if s <? w then 1 else 0))) 1 tpos (a, if s <? w then 1 else 0) ;;
  let '(a, carry) := r in
  res <- (if negb (carry =? 0) then
            a <- upd N a (S tpos) 1 ;; Ok (mk_big a (S tpos) 1)
          else
            threshold <- shr 64 (2 ^ 64 - 1) (element_number_of_bits - tbits) ;;
            v <- sel N a tpos ;;
            Ok (mk_big a tpos (if threshold <? v then tbits + 1 else tbits))) ;;
  cassert cfg (negb (Z.of_nat (element_pos res) =? Z.of_nat N)) ;;;
  cassert cfg (bit_pos res <=? element_number_of_bits) ;;;
  Ok res.

(** ** Comparisons *)

(** bigint.h:251-265 *)
Fixpoint compare_loop (N : nat) (a n : nat -> Z) (idx : nat) : outcome Z :=
  match idx with
  | O => Ok 0
  | S idx' =>
      v <- sel N a idx ;; w <- sel N n idx ;;
      if v <? w then Ok 1 else if w <? v then Ok (-1) else compare_loop N a n idx'
  end.
(** bigint.h:251-265: the comparison of the lengths first *)
Definition compare_common (N : nat) (b n : big) : outcome Z :=
  if (element_pos b <? element_pos n)%nat then Ok 1
  else if (element_pos n <? element_pos b)%nat then Ok (-1)
  else compare_loop N (elements b) (elements n) (element_pos b).

(** bigint.h:268-329: the six comparisons with another number; [last] compares elements[0], [up] is the
    answer when [*this] is found smaller and [down] the one when it is found larger *)
Definition compare_op (N : nat) (up down : bool) (last : Z -> Z -> bool) (b n : big) : outcome bool :=
  c <- compare_common N b n ;;
  if 0 <? c then Ok up else if c <? 0 then Ok down
  else v <- sel N (elements b) 0 ;; w <- sel N (elements n) 0 ;; Ok (last v w).
(** bigint.h:268-278 *)
Definition big_lt (N : nat) : big -> big -> outcome bool := compare_op N true false Z.ltb.
(** bigint.h:280-290 *)
Definition big_le (N : nat) : big -> big -> outcome bool := compare_op N true false Z.leb.
(** bigint.h:292-302 *)
Definition big_gt (N : nat) : big -> big -> outcome bool := compare_op N false true Z.gtb.
(** bigint.h:304-314 *)
Definition big_ge (N : nat) : big -> big -> outcome bool := compare_op N false true Z.geb.
(** bigint.h:316-321 *)
Definition big_eq (N : nat) : big -> big -> outcome bool := compare_op N false false Z.eqb.
(** bigint.h:323-329 *)
Definition big_ne (N : nat) : big -> big -> outcome bool := compare_op N true true (fun v w => negb (v =? w)).

(** bigint.h:331-360: the six comparisons with an element *)
Definition compare_element (N : nat) (many : bool) (last : Z -> Z -> bool) (b : big) (n : Z) : outcome bool :=
  if negb (Z.of_nat (element_pos b) =? 0) then Ok many
  else v <- sel N (elements b) 0 ;; Ok (last v n).
(** bigint.h:331-335 *)
Definition big_lt_element (N : nat) : big -> Z -> outcome bool := compare_element N false Z.ltb.
(** bigint.h:336-340 *)
Definition big_le_element (N : nat) : big -> Z -> outcome bool := compare_element N false Z.leb.
(** bigint.h:341-345 *)
Definition big_gt_element (N : nat) : big -> Z -> outcome bool := compare_element N true Z.gtb.
(** bigint.h:346-350 *)
Definition big_ge_element (N : nat) : big -> Z -> outcome bool := compare_element N true Z.geb.
(** bigint.h:351-355 *)
Definition big_eq_element (N : nat) : big -> Z -> outcome bool := compare_element N false Z.eqb.
(** bigint.h:356-360 *)
Definition big_ne_element (N : nat) : big -> Z -> outcome bool := compare_element N true (fun v w => negb (v =? w)).

(** ** Addition and subtraction *)

(** bigint.h:363-416; [src] as in [multiply_2_until], covering a += a *)
Section Add.
Variables (cfg : config) (N : nat) (src : (nat -> Z) -> nat -> Z).
(** bigint.h:371-380 *)
Definition add_common (i n : nat) (st : (nat -> Z) * Z) : outcome ((nat -> Z) * Z) :=
  up_loop (fun idx (st : (nat -> Z) * Z) => let '(a, carry) := st in
    v <- sel N a idx ;;
    let with_carry := wrap 64 (v + carry) in
    let first_carry := if with_carry <? v then 1 else 0 in
    w <- sel N (src a) idx ;;
    let s := wrap 64 (with_carry + w) in
    a <- upd N a idx s ;;
    Ok (a, Z.lor first_carry (if s <? w then 1 else 0))) i n st.
(** bigint.h:381-392 *)
Definition set_leading_one_pos (max_idx : nat) (st : (nat -> Z) * Z) : outcome big :=
  let '(a, carry) := st in
  if negb (carry =? 0) then
    cassert cfg (S max_idx <? N)%nat ;;;
    a <- upd N a (S max_idx) 1 ;; Ok (mk_big a (S max_idx) 1)
  else v <- sel N a max_idx ;; Ok (mk_big a max_idx (log2p1 v)).
(** bigint.h:363-416 *)
Definition add_assign (b : big) (npos : nat) : outcome big :=
  w <- sel N (src (elements b)) 0 ;; v <- sel N (elements b) 0 ;;
  let s := wrap 64 (v + w) in
  a <- upd N (elements b) 0 s ;;
  let carry := if s <? w then 1 else 0 in
  if (element_pos b <? npos)%nat then
    st <- add_common 1 (element_pos b) (a, carry) ;;
    st <- up_loop (fun idx (st : (nat -> Z) * Z) => let '(a, carry) := st in
            w <- sel N (src a) idx ;;
            let s := wrap 64 (w + carry) in
            a <- upd N a idx s ;; Ok (a, if s <? carry then 1 else 0)) (S (element_pos b)) (npos - element_pos b) st ;;
    set_leading_one_pos npos st
  else
    st <- add_common 1 npos (a, carry) ;;
    st <- up_loop (fun idx (st : (nat -> Z) * Z) => let '(a, carry) := st in
            v <- sel N a idx ;;
            let s := wrap 64 (v + carry) in
            a <- upd N a idx s ;; Ok (a, if s <? carry then 1 else 0)) (S npos) (element_pos b - npos) st ;;
    set_leading_one_pos (element_pos b) st.
End Add.

(** bigint.h:418-435: bit_pos changes only when there is a final carry *)
Definition add_element (cfg : config) (N : nat) (b : big) (n : Z) : outcome big :=
  v <- sel N (elements b) 0 ;;
  let s := wrap 64 (v + n) in
  a <- upd N (elements b) 0 s ;;
  st <- up_loop (fun idx (st : (nat -> Z) * Z) => let '(a, carry) := st in
          v <- sel N a idx ;;
          let s := wrap 64 (v + carry) in
          a <- upd N a idx s ;; Ok (a, if s <? carry then 1 else 0)) 1 (element_pos b) (a, if s <? n then 1 else 0) ;;
  let '(a, carry) := st in
  if negb (carry =? 0) then
    cassert cfg (S (element_pos b) <? N)%nat ;;;
    a <- upd N a (S (element_pos b)) 1 ;; Ok (mk_big a (S (element_pos b)) 1)
  else Ok (mk_big a (element_pos b) (bit_pos b)).

(** bigint.h:454-458: the borrow runs over zero elements; [fuel] bounds the number of elements inspected *)
Fixpoint borrow (cfg : config) (N : nat) (fuel : nat) (a : nat -> Z) (idx : nat) : outcome (nat -> Z) :=
  match fuel with
  | O => Diverged
  | S fuel' =>
      v <- sel N a idx ;;
      if v =? 0 then
        a <- upd N a idx (2 ^ 64 - 1) ;;
        cassert cfg (S idx <? N)%nat ;;;
        borrow cfg N fuel' a (S idx)
      else upd N a idx (wrap 64 (v - 1))
  end.
(** bigint.h:462-465: the highest nonzero element at or below [idx] *)
Fixpoint find_top (N : nat) (a : nat -> Z) (idx : nat) : outcome nat :=
  match idx with
  | O => Ok O
  | S idx' => v <- sel N a idx ;; if negb (v =? 0) then Ok idx else find_top N a idx'
  end.
(** bigint.h:439-471 *)
Definition sub_assign (cfg : config) (N : nat) (b n : big) : outcome big :=
  v <- sel N (elements b) 0 ;; w <- sel N (elements n) 0 ;;
  a <- upd N (elements b) 0 (wrap 64 (v - w)) ;;
  st <- up_loop (fun idx (st : (nat -> Z) * Z) => let '(a, carry) := st in
          w <- sel N (elements n) idx ;;
          let with_carry := wrap 64 (w + carry) in
          let first_carry := if with_carry <? carry then 1 else 0 in
          v <- sel N a idx ;;
          a <- upd N a idx (wrap 64 (v - with_carry)) ;;
          Ok (a, Z.lor first_carry (if v <? with_carry then 1 else 0)))
        1 (element_pos n) (a, if v <? w then 1 else 0) ;;
  let '(a, carry) := st in
  a <- (if negb (carry =? 0) then borrow cfg N (S N) a (S (element_pos n)) else Ok a) ;;
  pos <- find_top N a (element_pos b) ;;
  v <- sel N a pos ;;
  Ok (mk_big a pos (log2p1 v)).

(** bigint.h:474-498 *)
Fixpoint dec_borrow (cfg : config) (N : nat) (pos fuel : nat) (a : nat -> Z) (idx : nat) : outcome ((nat -> Z) * nat) :=
  match fuel with
  | O => Diverged
  | S fuel' =>
      v <- sel N a idx ;;
      if v =? 0 then
        a <- upd N a idx (2 ^ 64 - 1) ;;
        cassert cfg (S idx <=? pos)%nat ;;;
        dec_borrow cfg N pos fuel' a (S idx)
      else a <- upd N a idx (wrap 64 (v - 1)) ;; Ok (a, idx)
  end.
(** bigint.h:474-498: the new leading-one position *)
Definition decrement (cfg : config) (N : nat) (b : big) : outcome big :=
  st <- dec_borrow cfg N (element_pos b) (S N) (elements b) 0 ;;
  let '(a, idx) := st in
  v <- sel N a idx ;;
  if v =? 0 then
    if (idx =? 0)%nat then Ok (mk_big a (element_pos b) 0)
    else Ok (mk_big a (element_pos b - 1) element_number_of_bits)
  else Ok (mk_big a (element_pos b) (log2p1 v)).

(** ** Multiplication *)

(** bigint.h:501-517 *)
Definition mul_assign_element (cfg : config) (N : nat) (b : big) (n : Z) : outcome big :=
  st <- up_loop (fun idx (st : (nat -> Z) * Z) => let '(a, carry) := st in
          v <- sel N a idx ;;
          let mul := umul128 cfg v n in
          let s := wrap 64 (u128_low mul + carry) in
          a <- upd N a idx s ;;
          Ok (a, wrap 64 (u128_high mul + (if s <? u128_low mul then 1 else 0))))
        0 (S (element_pos b)) (elements b, 0) ;;
  let '(a, carry) := st in
  if negb (carry =? 0) then
    cassert cfg (element_pos b <? N - 1)%nat ;;;
    a <- upd N a (S (element_pos b)) carry ;;
    Ok (mk_big a (S (element_pos b)) (log2p1 carry))
  else v <- sel N a (element_pos b) ;; Ok (mk_big a (element_pos b) (log2p1 v)).

(** bigint.h:525-540: one row of the product, written into [result] *)
Definition calculate_single (cfg : config) (N : nat) (x : big) (n : Z) (result : nat -> Z) : outcome ((nat -> Z) * nat) :=
  st <- up_loop (fun idx (st : (nat -> Z) * Z) => let '(r, mul_carry) := st in
          v <- sel N (elements x) idx ;;
          let mul := umul128 cfg v n in
          let s := wrap 64 (u128_low mul + mul_carry) in
          r <- upd N r idx s ;;
          Ok (r, wrap 64 (u128_high mul + (if s <? u128_low mul then 1 else 0))))
        0 (S (element_pos x)) (result, 0) ;;
  let '(r, mul_carry) := st in
  if negb (mul_carry =? 0) then
    r <- upd N r (S (element_pos x)) mul_carry ;; Ok (r, S (element_pos x))
  else Ok (r, element_pos x).
(** bigint.h:520-573; [junk_temp] and [junk_result] are the uninitialised arrays *)
Definition big_mul (cfg : config) (N : nat) (junk_temp junk_result : nat -> Z) (x y : big) : outcome big :=
  cassert cfg (element_pos x + element_pos y <? N)%nat ;;;
  y0 <- sel N (elements y) 0 ;;
  st <- calculate_single cfg N x y0 junk_result ;;
  let '(result, single) := st in
  result <- fill_zero N result (S single) (N - S single) ;;
  st <- up_loop (fun i (st : (nat -> Z) * (nat -> Z) * nat) => let '(result, temp, _) := st in
          yi <- sel N (elements y) i ;;
          ts <- calculate_single cfg N x yi temp ;;
          let '(temp, single) := ts in
          v <- sel N result i ;; t <- sel N temp 0 ;;
          let s := wrap 64 (v + t) in
          result <- upd N result i s ;;
          rc <- up_loop (fun j (rc : (nat -> Z) * Z) => let '(result, add_carry) := rc in
                  t <- sel N temp j ;;
                  let with_carry := wrap 64 (t + add_carry) in
                  let first_carry := if with_carry <? t then 1 else 0 in
                  v <- sel N result (i + j) ;;
                  let s := wrap 64 (v + with_carry) in
                  result <- upd N result (i + j) s ;;
                  Ok (result, Z.lor first_carry (if s <? with_carry then 1 else 0)))
                1 single (result, if s <? t then 1 else 0) ;;
          let '(result, add_carry) := rc in
          cassert cfg (add_carry =? 0) ;;;
          Ok (result, temp, single)) 1 (element_pos y) (result, junk_temp, single) ;;
  let '(result, _, single) := st in
  let pos := (element_pos y + single)%nat in
  v <- sel N result pos ;;
  Ok (mk_big result pos (log2p1 v)).
