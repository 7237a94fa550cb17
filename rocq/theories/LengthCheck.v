(** * The rows of verify_cache_length computed from the certificates *)

From Coq Require Import ZArith List Bool Lia.
From Verif Require Import Machine Model LengthModel LengthNum LengthCerts BigintModel.
Import ListNotations.
Open Scope Z_scope.

(** log2 (b / d) *)
Definition log2_quotient (b lb d : Z) : Z := let n := lb - Z.log2 d in if Z.shiftl d n <=? b then n else n - 1.
Definition word (v : Z) : bool := (0 <=? v) && (v <? 2 ^ 64).

(** ** Negative k; [b] is 5^-k, [lb] is log2 b, [size] the bits of a bigint *)
Definition negative_row (f : fmt) (size e k b : Z) (c : cert * cert * Z) : option Z :=
  let '(c1, c2, t3) := c in
  let p := precision f in
  let q := extended_precision f in
  let x := q_mp_m2 f + e + k in
  let lb := Z.log2 b in
  let l := c_floor_log2_pow10 k in
  if negb ((-616 <=? k) && (k <=? 616) && (l + 1 + lb =? k) && (1 <=? x) && (x + p + 2 <? size) && (x + 2 - lb <? 64) && (x + p + 1 - lb <? 64)) then None else
  match extremes (2 ^ x) b (range f) (fun s u t w => (Z.shiftl s x - t * b, w * b - Z.shiftl u x)) c1,
        extremes (2 ^ (x + 2)) b (range f / 2) (fun s u t w => (Z.shiftl s (x + 2) - t * b, w * b - Z.shiftl u (x + 2))) c2 with
  | Some (_, d1), Some (_, d2) =>
      let r := Z.shiftl (range f - 1) (x - 1) - t3 * b in
      let d3 := b - r in
      if negb ((0 <? d1) && (lb - Z.log2 d1 <? 64) && (0 <? d2) && (lb - Z.log2 d2 <? 64) && (0 <=? r) && (0 <? d3) && (lb - Z.log2 d3 <? 64)) then None else
      let r1 := q + e + l + 1 + (log2_quotient b lb d1 + 1) in
      let r2 := q + e + l + 1 + (log2_quotient b lb d2 + 1) in
      let r3 := q + e + l + (log2_quotient b lb d3 + 1) in
      if word r1 && word r2 && word r3 then Some (Z.max (Z.max r1 r2) r3) else None
  | _, _ => None
  end.

Fixpoint negative_rows (f : fmt) (size e prev_k b most : Z) (cs : list (cert * cert * Z)) : option (list (Z * Z) * Z) :=
  match cs with
  | [] => if e <=? max_exponent f then None else Some ([], most)
  | c :: cs' =>
      if negb ((e <=? max_exponent f) && (-1650 <=? e + 1 - alpha f) && (e + 1 - alpha f <=? 1650)) then None else
      let k := - c_floor_log10_pow2 (e + 1 - alpha f) in
      match (if k =? prev_k then Some b else if (k =? prev_k - 1) && (Z.log2 b + 3 <? size) then Some (5 * b) else None) with
      | None => None
      | Some b' =>
          match negative_row f size e k b' c with
          | None => None
          | Some bits =>
              match negative_rows f size (e + 1) k b' (Z.max most bits) cs' with
              | None => None
              | Some r => Some ((e, bits) :: fst r, snd r)
              end
          end
      end
  end.

(** ** Positive k; [a] is 5^k *)
Definition saving (m n : Z) : Z := if 0 <? m then Z.max 0 (Z.log2 m - n) else 0.
(** the least residue modulo 2^x of the multiples of [a] *)
Definition least_part (a size x N : Z) (c : cert) : option Z :=
  if 0 <? x then
    if (x <? size) && (Z.log2 a - x <? 64) then
      match extremes a (2 ^ x) N (fun s u t w => (s * a - Z.shiftl t x, Z.shiftl w x - u * a)) c with
      | Some (m, _) => Some m
      | None => None
      end
    else None
  else Some 0.
(** [d] is what 5^k loses: are the multiples up to N unchanged above the bit x? *)
Definition unchanged (d x N m : Z) : bool := if 0 <? x then N * d <=? m else d =? 0.
(** required_bits, and whether they are enough *)
Definition positive_row (f : fmt) (size e k a : Z) (c : cert * cert) : option (Z * bool) :=
  let p := precision f in
  let l := c_floor_log2_pow10 k in
  let base := l - k + 1 in
  let x := - e - k - q_mp_m2 f in
  let la := Z.log2 a in
  if negb ((-616 <=? k) && (k <=? 616) && (base =? la + 1) && word base && (la + p + 3 <? size) && (x + 1 <? size) && (la + p + 3 - (x + 1) <? 64)) then None else
  match least_part a size x (range f) (fst c), least_part a size (x - 2) (range f / 2) (snd c) with
  | Some m1, Some m2 =>
      let m3 := if 0 <? x + 1 then Z.land (Z.shiftl a (p + 2) - a) (Z.ones (x + 1)) else 0 in
      let r1 := base - saving m1 (p + 2) in
      let r2 := base - saving m2 (p + 1) in
      let r3 := base - saving m3 (p + 2) in
      let r2 := if saving m2 (p + 1) =? 0 then r1 else Z.max r1 r2 in
      let r3 := if saving m3 (p + 2) =? 0 then r2 else Z.max r2 r3 in
      if (0 <=? r1) && (0 <=? base - saving m2 (p + 1)) && (0 <=? base - saving m3 (p + 2)) then
        let d := Z.land a (Z.ones (base - r3)) in
        Some (r3, unchanged d x (range f) m1 && unchanged d (x - 2) (range f / 2) m2 && unchanged d (x + 1) (range f - 1) m3)
      else None
  | _, _ => None
  end.
(** [except] is an exponent for which the bits need not be enough *)
Fixpoint positive_rows (f : fmt) (except size e prev_k a most : Z) (cs : list (cert * cert)) : option (list (Z * Z) * Z) :=
  match cs with
  | [] => if min_exponent f <=? e then None else Some ([], most)
  | c :: cs' =>
      if negb ((min_exponent f <=? e) && (-1650 <=? e + 1 - alpha f) && (e + 1 - alpha f <=? 1650)) then None else
      let k := - c_floor_log10_pow2 (e + 1 - alpha f) in
      match (if k =? prev_k then Some a else if (k =? prev_k + 1) && (Z.log2 a + 3 <? size) then Some (5 * a) else None) with
      | None => None
      | Some a' =>
          match positive_row f size e k a' c with
          | None => None
          | Some (bits, ok) =>
              if negb (ok || (e =? except)) then None else
              match positive_rows f except size (e - 1) k a' (Z.max most bits) cs' with
              | None => None
              | Some r => Some ((e, bits) :: fst r, snd r)
              end
          end
      end
  end.
Definition negative_size (f : fmt) : Z := 64 * Z.of_nat (array_size_of (negative_k_max_bits f)).
Definition positive_size (f : fmt) : Z := 64 * Z.of_nat (array_size_of (positive_k_max_bits f)).
