(** * Theorems: the compact tables of Ryu *)

From Coq Require Import ZArith List Bool Lia.
From Verif Require Import Machine Model RyuModel SmallModel SmallFacts.
Import ListNotations.
Open Scope Z_scope.

(** ** C70: for every exponent that a double or a float can need, double_computePow5 yields the first 121 bits of 5^i, and
    double_computeInvPow5 one more than the first 122 or 123 bits of 1/5^i, in every build, without undefined behaviour.
    The finite domain 0..325 and 0..291 is that of the full tables of d2s_full_table.h. *)
Theorem C70_pow5 : forall rc i, 0 <= i <= 325 -> let v := 5 ^ i * 2 ^ 121 / 2 ^ (Z.log2 (5 ^ i) + 1) in
  double_computePow5 rc i = Ok (v mod 2 ^ 64, v / 2 ^ 64).
Proof. exact small_pow. Qed.
Print Assumptions C70_pow5.
Theorem C70_inv_pow5 : forall rc i, 0 <= i <= 291 -> let v := 2 ^ (Z.log2 (5 ^ i) + 122) / 5 ^ i + 1 in
  double_computeInvPow5 rc i = Ok (v mod 2 ^ 64, v / 2 ^ 64).
Proof. exact small_inv. Qed.
Print Assumptions C70_inv_pow5.
(** 121 and 122 are the numbers of bits the header announces to the code that uses the tables *)
Theorem C70_announced : forall rc i,
  (0 <= i <= 325 -> let v := 5 ^ i * 2 ^ SMALL_POW5_BITCOUNT / 2 ^ (Z.log2 (5 ^ i) + 1) in double_computePow5 rc i = Ok (v mod 2 ^ 64, v / 2 ^ 64)) /\
  (0 <= i <= 291 -> let v := 2 ^ (Z.log2 (5 ^ i) + SMALL_POW5_INV_BITCOUNT) / 5 ^ i + 1 in double_computeInvPow5 rc i = Ok (v mod 2 ^ 64, v / 2 ^ 64)).
Proof. exact small_announced. Qed.
Print Assumptions C70_announced.

(** the bounds are sharp: the next entry is one less than it should be *)
Definition small_build : ryu_config := mk_ryu (mk_config MulPortable CtzMask false false) false false.
Example C70_example :
  double_computePow5 small_build 27 = Ok (8358680908399640576, 116415321826934814) /\
  (let v := 5 ^ 326 * 2 ^ 121 / 2 ^ (Z.log2 (5 ^ 326) + 1) in double_computePow5 small_build 326 = Ok (v mod 2 ^ 64 - 1, v / 2 ^ 64)) /\
  (let v := 2 ^ (Z.log2 (5 ^ 292) + 122) / 5 ^ 292 + 1 in double_computeInvPow5 small_build 292 = Ok (v mod 2 ^ 64 - 1, v / 2 ^ 64)).
Proof. vm_compute. repeat split; reflexivity. Qed.
