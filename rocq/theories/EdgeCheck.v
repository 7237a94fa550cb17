(** * Powers of two: the interval is asymmetric and everything is determined by the exponent *)

From Coq Require Import ZArith List Bool Lia.
From Verif Require Import Machine Tables Model Arith ExpFacts Products IntCheck Core.
Import ListNotations.
Open Scope Z_scope.

Definition scaled (f : fmt) (m e : Z) : Z :=
  Z.shiftr (m * unit f * phi f (kexp e)) (2 * extended_precision f + mbexp e).

Lemma scaled_ok f m e : exp_min f <= e <= exp_max f -> 0 <= m <= 2 ^ (precision f + 4) ->
  scaled f m e = m * ulp f e / den e.
Proof.
  intros He Hm. destruct (e_basic f e He) as [_ Hmb]. unfold scaled.
  rewrite shiftr_div by (pose proof (qpos f); lia).
  rewrite mul_floor_exact by assumption. unfold ulp, num, den. f_equal. ring.
Qed.

Definition step_cap (f : fmt) : Z := match f with Binary32 => 5 | Binary64 => 6 end.
Definition lonely_e (f : fmt) : Z := match f with Binary32 => 59 | Binary64 => -203 end.

Definition check_edge_kappa (f : fmt) (e z dl ep D : Z) : bool :=
  let h := D / 2 in let r := z mod D in
  if h + r <=? ep then
    let small := ep - h - r <? step_cap f * D in
    (small || (z mod (10 * D) <? dl)) &&
    (small || (dl >=? 10 * D) || negb (z mod (10 * D) =? 0)
     || (e <? integer_check_exponent_lower_bound_for_q_mp_m2 f) || (max_exponent_for_k_geq_0 f <? e)) &&
    (if D + r =? dl
     then (if e =? lonely_e f
           then (z - dl) * den e <? (4 * 2 ^ precision f - 1) * ulp f e
           else (4 * 2 ^ precision f - 1) * ulp f e <? (z - dl) * den e)
          || ((ep - h - r =? 0) && (scaled f (4 * 2 ^ precision f) e =? z - ep)
              && negb (divb (den e) (4 * 2 ^ precision f * ulp f e)))
     else true)
  else true.
Definition check_edge (f : fmt) (e : Z) : bool :=
  let ph := phi f (kexp e) in
  let sh := 2 * extended_precision f + mbexp e in
  let z := Z.shiftr ((4 * 2 ^ precision f + 2) * unit f * ph) sh in
  let dl := Z.shiftr (3 * unit f * ph) sh in
  let ep := Z.shiftr (2 * unit f * ph) sh in
  check_edge_kappa f e z dl ep 10 && check_edge_kappa f e z dl ep 100.


Lemma check_edge_float : forallb (check_edge Binary32) (erange Binary32) = true.
Proof. vm_cast_no_check (eq_refl true). Qed.
Lemma check_edge_double : forallb (check_edge Binary64) (erange Binary64) = true.
Proof. vm_cast_no_check (eq_refl true). Qed.
Lemma edge_ok f e : exp_min f <= e <= exp_max f -> check_edge f e = true.
Proof.
  intros He. destruct f; [apply (sweep Binary32 _ _ check_edge_float He)
                         | apply (sweep Binary64 _ _ check_edge_double He)].
Qed.
