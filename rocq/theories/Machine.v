(** * Machine-level vocabulary of the model

    Outcomes of running C++ code, build configurations and fixed-width unsigned arithmetic.
    Nothing here is specific to Grisu-Exact; the code-specific definitions are in [Model.v] and
    [CharsModel.v]. *)

From Coq Require Import ZArith List Bool.
Import ListNotations.
Open Scope Z_scope.

(** Result of executing a piece of C++.
    - [Ok a]: it terminates normally with value [a].
    - [AssertFailed]: an [assert] of the source was evaluated to false (only in builds without NDEBUG).
    - [Undefined]: undefined behaviour (shift count out of range, array index out of range,
      [__builtin_ctz(0)], signed overflow, a read of an uninitialised byte).
    - [Diverged]: a loop of the source did not stop within the fuel given to its model. *)
Inductive outcome (A : Type) : Type :=
| Ok (a : A)
| AssertFailed
| Undefined
| Diverged.
Arguments Ok {A} a.
Arguments AssertFailed {A}.
Arguments Undefined {A}.
Arguments Diverged {A}.

(** the sequence of two evaluations; nothing in the source corresponds to it *)
Definition bind {A B : Type} (x : outcome A) (k : A -> outcome B) : outcome B :=
  match x with
  | Ok a => k a
  | AssertFailed => AssertFailed
  | Undefined => Undefined
  | Diverged => Diverged
  end.

Notation "x <- e ;; k" := (bind e (fun x => k))
  (at level 100, e at next level, right associativity).
Notation "e ;;; k" := (bind e (fun _ => k))
  (at level 100, right associativity).

(** Which branch of the [#if] cascades of grisu_exact.h is compiled in.
    grisu_exact.h:56-84, 95-118, 121-142, 146-161 select on the same condition (the [__int128] branch,
    the MSVC x64 branch, the portable branch); grisu_exact.h:199-232 selects between
    [__builtin_ctz*], [_BitScanForward*] and a mask; grisu_exact.h:165 selects on x86-64.
    The three selections are kept independent here, which covers more than the real compilers. *)
Inductive mul_branch := MulInt128 | MulMsvc | MulPortable.
(** grisu_exact.h:199-232 *)
Inductive ctz_branch := CtzBuiltin | CtzBitScan | CtzMask.

Record config := mk_config {
  cfg_mul : mul_branch;
  cfg_ctz : ctz_branch;
  cfg_x64 : bool;      (* defined(__x86_64__) || defined(_M_X64) *)
  cfg_ndebug : bool    (* NDEBUG defined: assert() does nothing *)
}.

(** <cassert> assert(b) *)
(** as at grisu_exact.h:296 and wherever the source has assert *)
Definition cassert (cfg : config) (b : bool) : outcome unit :=
  if cfg_ndebug cfg then Ok tt else if b then Ok tt else AssertFailed.

(** Value of an unsigned [w]-bit variable holding the mathematical integer [x] modulo 2^w. *)
Definition wrap (w x : Z) : Z := x mod 2 ^ w.

(** Conversion of any integer to the 32-bit signed [int] (modular, as on every supported compiler). *)
Definition to_int (x : Z) : Z := (x + 2 ^ 31) mod 2 ^ 32 - 2 ^ 31.

(** Result of signed 32-bit / 64-bit arithmetic: overflow is undefined. *)
Definition i32 (x : Z) : outcome Z :=
  if (- 2 ^ 31 <=? x) && (x <? 2 ^ 31) then Ok x else Undefined.
(** as at grisu_exact.h:342 *)
Definition i64 (x : Z) : outcome Z :=
  if (- 2 ^ 63 <=? x) && (x <? 2 ^ 63) then Ok x else Undefined.

(** [x >> n] and [x << n] on an unsigned [w]-bit operand; a count outside [0, w) is undefined. *)
Definition shr (w x n : Z) : outcome Z :=
  if (0 <=? n) && (n <? w) then Ok (Z.shiftr x n) else Undefined.
(** as at grisu_exact.h:374 *)
Definition shl (w x n : Z) : outcome Z :=
  if (0 <=? n) && (n <? w) then Ok (wrap w (Z.shiftl x n)) else Undefined.

(** Number of trailing zero bits of a nonzero integer: the documented result of [__builtin_ctz],
    [__builtin_ctzll] and of [_BitScanForward]. *)
(** as called at grisu_exact.h:199-232 *)
Fixpoint pos_ctz (p : positive) : Z :=
  match p with
  | xO q => 1 + pos_ctz q
  | _ => 0
  end.
(** as called at grisu_exact.h:199-232 *)
Definition ctz (x : Z) : Z :=
  match x with
  | Zpos p => pos_ctz p
  | Zneg p => pos_ctz p
  | Z0 => 0
  end.

(** Array read [t[i]]; out of range is undefined. *)
(** as at grisu_exact.h:284, 1177 and wherever a table is read *)
Definition read_array {A : Type} (t : list A) (i : Z) : outcome A :=
  if i <? 0 then Undefined
  else match nth_error t (Z.to_nat i) with
       | Some a => Ok a
       | None => Undefined
       end.
