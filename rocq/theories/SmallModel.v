(** * The compact tables of Ryu: benchmark/ryu/d2s.h

    No file of the repository includes d2s.h, and with RYU_OPTIMIZE_SIZE d2s.c and f2s_intrinsics.h include a file
    "ryu/d2s_small_table.h" that is not there.  The two functions of d2s.h are those that d2s.c:129-132, 164-167 and
    f2s_intrinsics.h:104-110, 119-122 call then.  The result of a function is (result[0], result[1]). *)

From Coq Require Import ZArith List Bool.
From Verif Require Import Machine Model RyuModel SmallTables.
Open Scope Z_scope.

(** d2s.h:40 *)
Definition SMALL_POW5_INV_BITCOUNT : Z := 122.
(** d2s.h:41 *)
Definition SMALL_POW5_BITCOUNT : Z := 121.
(** d2s.h:45 *)
Definition POW5_TABLE_SIZE : Z := 26.

(** d2s.h:114-116 and 151-152, 152-165: the product [m] * [mul] shifted by [delta], plus [add] to the sum with a
    128-bit type and to the low word without *)
Definition shifted_product (rc : ryu_config) (m mul0 mul1 delta add : Z) : outcome (Z * Z) :=
  match cfg_mul (ry_config rc) with
  | MulInt128 =>
      let b0 := wrap 128 (m * mul0) in
      let b2 := wrap 128 (m * mul1) in
      l <- shr 128 b0 delta ;;
      h <- shl 128 b2 (wrap 32 (64 - delta)) ;;
      let shiftedSum := wrap 128 (wrap 128 (l + h) + add) in
      Ok (wrap 64 shiftedSum, wrap 64 (Z.shiftr shiftedSum 64))
  | _ =>
      let '(high1, low1) := ryu_umul128 rc m mul1 in
      let '(high0, low0) := ryu_umul128 rc m mul0 in
      let sum := wrap 64 (high0 + low1) in
      let high1 := if sum <? high0 then wrap 64 (high1 + 1) else high1 in
      r0 <- shiftright128 rc low0 sum delta ;;
      r1 <- shiftright128 rc sum high1 delta ;;
      Ok (wrap 64 (r0 + add), r1)
  end.

(** d2s.h:102-120 with a 128-bit type, 146-171 without *)
Definition double_computePow5 (rc : ryu_config) (i : Z) : outcome (Z * Z) :=
  let base := i / POW5_TABLE_SIZE in
  let base2 := wrap 32 (base * POW5_TABLE_SIZE) in
  let offset := wrap 32 (i - base2) in
  mul <- read_array DOUBLE_POW5_SPLIT2 base ;;
  if offset =? 0 then Ok mul
  else
    m <- read_array DOUBLE_POW5_TABLE offset ;;
    p <- pow5bits (ry_config rc) (to_int i) ;;
    p2 <- pow5bits (ry_config rc) (to_int base2) ;;
    d <- i32 (p - p2) ;;
    let delta := wrap 32 d in
    o <- read_array POW5_OFFSETS base ;;
    a <- shr 32 o offset ;;
    shifted_product rc m (fst mul) (snd mul) delta (Z.land a 1).

(** d2s.h:123-142 with a 128-bit type, 174-198 without; 1 and the correction are added one after the other *)
Definition double_computeInvPow5 (rc : ryu_config) (i : Z) : outcome (Z * Z) :=
  let base := wrap 32 (wrap 32 (i + POW5_TABLE_SIZE) - 1) / POW5_TABLE_SIZE in
  let base2 := wrap 32 (base * POW5_TABLE_SIZE) in
  let offset := wrap 32 (base2 - i) in
  mul <- read_array DOUBLE_POW5_INV_SPLIT2 base ;;
  if offset =? 0 then Ok mul
  else
    m <- read_array DOUBLE_POW5_TABLE offset ;;
    p <- pow5bits (ry_config rc) (to_int i) ;;
    p2 <- pow5bits (ry_config rc) (to_int base2) ;;
    d <- i32 (p2 - p) ;;
    let delta := wrap 32 d in
    o <- read_array POW5_INV_OFFSETS (i / 16) ;;
    a <- shr 32 o (wrap 32 (Z.shiftl (i mod 16) 1)) ;;
    shifted_product rc m (wrap 64 (fst mul - 1)) (snd mul) delta (1 + Z.land a 3).
