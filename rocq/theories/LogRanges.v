(** * The ranges reported by tests/verify_log_computation.cpp are those in which the functions are right *)

From Coq Require Import ZArith Reals Bool Lia Lra.
From Flocq Require Import Core.
From Verif Require Import Machine Model CheckModel Claims Logs.
Open Scope R_scope.

Lemma unchecked_log10 e : (-1650 <= e <= 1650)%Z -> unchecked_log10_pow2 e = Ok (Zfloor (ln (bpow radix2 e) / ln 10)).
Proof. intros He. rewrite <- (log10_pow2 release_build e He). reflexivity. Qed.
Lemma unchecked_log5 e : (-65536 <= e <= 65536)%Z -> unchecked_log5_pow2 e = Ok (Zfloor (ln (bpow radix2 e) / ln 5)).
Proof. intros He. rewrite <- (log5_pow2 release_build e He). reflexivity. Qed.

Lemma unchecked_log10_1651 : unchecked_log10_pow2 1651 <> Ok (Zfloor (ln (bpow radix2 1651) / ln 10)).
Proof.
  assert (L : (497 <= Zfloor (ln (bpow radix2 1651) / ln 10))%Z).
  { apply Zfloor_lub. assert (P : 0 < ln 10) by (rewrite <- ln_1; apply ln_increasing; lra).
    apply Rmult_le_reg_r with (ln 10); [exact P|]. unfold Rdiv. rewrite Rmult_assoc, Rinv_l, Rmult_1_r by lra.
    change 10 with (IZR r10) at 1. rewrite <- (ln_bpow r10 497). rewrite <- !IZR_Zpower by discriminate.
    assert (A : (r10 ^ 497 <= radix2 ^ 1651)%Z) by (apply Z.leb_le; vm_compute; reflexivity).
    assert (B : (0 < r10 ^ 497)%Z) by (apply Z.ltb_lt; vm_compute; reflexivity).
    apply IZR_le in A. apply IZR_lt in B. destruct A as [A|A]; [left; apply ln_increasing; assumption | rewrite A; right; reflexivity]. }
  change (unchecked_log10_pow2 1651) with (@Ok Z 496%Z). intros E. apply (f_equal (fun o => match o with Ok x => x | _ => 0%Z end)) in E. rewrite <- E in L. apply L. reflexivity.
Qed.
