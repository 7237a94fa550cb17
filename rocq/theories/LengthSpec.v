(** * How many bits of a power of ten are enough

    The integer parts of n 2^x 10^k that are computed from the power of ten rounded to [bits] bits are the
    true ones: for the significands n of p + 2 bits with x = e + (q - p - 2), for the ones of p + 1 bits with
    x + 2, and for n = 2^(p+2) - 1 with x - 1.  The factor 2^k of 10^k goes with 2^x, so that only a power of 5
    is rounded. *)

From Coq Require Import ZArith Reals List.
From Flocq Require Import Core.
From Verif Require Import Model.
Open Scope Z_scope.

(** explicit bits of the significand, and width *)
Definition fraction_bits (f : fmt) : Z := match f with Binary32 => 23 | Binary64 => 52 end.
Definition width (f : fmt) : Z := match f with Binary32 => 32 | Binary64 => 64 end.

(** the least and the greatest normal number lie between 2^(width - 1) and 2^width times 2 to these powers *)
Definition lowest_exponent (f : fmt) : Z := match f with Binary32 => -157 | Binary64 => -1085 end.
Definition highest_exponent (f : fmt) : Z := match f with Binary32 => 96 | Binary64 => 960 end.

(** the k chosen for the exponent e: the integer part of log10 (2^(e + 6)), negated *)
Definition chosen_k (e : Z) : Z := - Zfloor (ln (bpow radix2 (e + 6)) / ln 10).

(** ** k < 0: 1 / 5^-k is rounded up *)
Definition reciprocal (b s : Z) : Z := (2 ^ s + b - 1) / b.
Definition same_quotients (N x b s c : Z) : Prop := forall n, 0 <= n <= N -> n * 2 ^ x * c / 2 ^ s = n * 2 ^ x / b.
Definition enough_down (f : fmt) (e k bits : Z) : Prop :=
  let p := fraction_bits f in
  let x := width f - p - 2 + e + k in
  let s := bits + Z.log2 (5 ^ (- k)) in
  let c := reciprocal (5 ^ (- k)) s in
  same_quotients (2 ^ (p + 2)) x (5 ^ (- k)) s c /\ same_quotients (2 ^ (p + 1)) (x + 2) (5 ^ (- k)) s c /\
  (2 ^ (p + 2) - 1) * 2 ^ (x - 1) * c / 2 ^ s = (2 ^ (p + 2) - 1) * 2 ^ (x - 1) / 5 ^ (- k).

(** ** k >= 0: the lower bits of 5^k are cleared *)
Definition kept (bits a : Z) : Z := let lost := Z.log2 a + 1 - bits in Z.shiftl (Z.shiftr a lost) lost.
Definition same_parts (N x a c : Z) : Prop := forall n, 0 <= n <= N -> Z.shiftr (n * c) x = Z.shiftr (n * a) x.
Definition enough_up (f : fmt) (e k bits : Z) : Prop :=
  let p := fraction_bits f in
  let x := - (width f - p - 2 + e + k) in
  let c := if bits <=? Z.log2 (5 ^ k) then kept bits (5 ^ k) else 5 ^ k in
  same_parts (2 ^ (p + 2)) x (5 ^ k) c /\ same_parts (2 ^ (p + 1)) (x - 2) (5 ^ k) c /\
  Z.shiftr ((2 ^ (p + 2) - 1) * c) (x + 1) = Z.shiftr ((2 ^ (p + 2) - 1) * 5 ^ k) (x + 1).

Definition enough (f : fmt) (e bits : Z) : Prop :=
  let k := chosen_k e in if k <? 0 then enough_down f e k bits else enough_up f e k bits.
