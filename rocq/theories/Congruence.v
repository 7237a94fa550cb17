(** * [compute] looks at the interval only through its three accessors *)

From Coq Require Import ZArith List Bool Lia.
From Verif Require Import Machine Tables Model.
Open Scope Z_scope.

Lemma bind_ext {A B} (x : outcome A) (k1 k2 : A -> outcome B) : (forall a, k1 a = k2 a) -> bind x k1 = bind x k2.
Proof. intros H. destruct x; cbn [bind]; auto. Qed.

Section Congruence.
Variables (cfg : config) (f : fmt) (tag : mode_tag) (crs : crs_tag) (i j : interval_type).
Variables (fc ex fr mk mb : Z) (ca : cache_entry) (z : Z).
Hypothesis Hl : include_left_endpoint i = include_left_endpoint j.
Hypothesis Hr : include_right_endpoint i = include_right_endpoint j.
Hypothesis Hs : is_symmetric i = is_symmetric j.
Local Notation c1 := (mk_ctx tag crs i fc ex fr mk mb ca z).
Local Notation c2 := (mk_ctx tag crs j fc ex fr mk mb ca z).

Lemma zf_eq : ctx_zf_smaller cfg f c1 = ctx_zf_smaller cfg f c2.
Proof using Hl. unfold ctx_zf_smaller, is_zf_smaller_than_deltaf. cbn. rewrite Hl. reflexivity. Qed.

Lemma left_search_eq tg : forall fuel a steps st,
  left_closed_search fuel cfg f (mk_ctx tg crs i fc ex fr mk mb ca z) a steps st
  = left_closed_search fuel cfg f (mk_ctx tg crs j fc ex fr mk mb ca z) a steps st.
Proof using.
  induction fuel as [|fuel IH]; intros a steps st; [reflexivity|]. cbn [left_closed_search].
  destruct (steps =? 0); [reflexivity|]. destruct (_ <? _); [apply IH|].
  destruct (_ =? _); [reflexivity|]. apply IH.
Qed.
Lemma rounding_search_eq st : correct_rounding_search_label cfg f c1 st = correct_rounding_search_label cfg f c2 st.
Proof using.
  unfold correct_rounding_search_label. cbn [cx_crs cx_tag]. destruct (cares crs); [|reflexivity].
  destruct tag; [reflexivity | | reflexivity]. apply left_search_eq.
Qed.
Lemma loop_eq : forall fuel st, boundary_adjustment_loop fuel f c1 st = boundary_adjustment_loop fuel f c2 st.
Proof using Hs.
  induction fuel as [|fuel IH]; intros st; [reflexivity|]. cbn [boundary_adjustment_loop].
  destruct (_ <? _); [reflexivity|]. destruct (_ =? _).
  - cbn [cx_tag cx_interval cx_exponent]. rewrite Hs. reflexivity.
  - apply IH.
Qed.
Lemma adjustment_eq st : boundary_adjustment_label cfg f c1 st = boundary_adjustment_label cfg f c2 st.
Proof using Hs Hr.
  unfold boundary_adjustment_label. cbn [cx_interval cx_tag cx_fr cx_exponent cx_minus_k cx_crs]. rewrite Hr.
  destruct (_ && _); [|apply rounding_search_eq].
  apply bind_ext. intros []; [|apply rounding_search_eq].
  rewrite loop_eq. apply bind_ext. intros st'. destruct (_ && _); [reflexivity | apply rounding_search_eq].
Qed.
Lemma increasing_eq l b st : increasing_search cfg f l b c1 st = increasing_search cfg f l b c2 st.
Proof using Hl. unfold increasing_search. rewrite zf_eq. reflexivity. Qed.
Lemma increasing_label_eq st : increasing_search_label cfg f c1 st = increasing_search_label cfg f c2 st.
Proof using Hl Hr Hs.
  unfold increasing_search_label. pose proof increasing_eq as IE. pose proof adjustment_eq as AE.
  assert (BE : forall (x y : outcome compute_state) (k1 k2 : compute_state -> outcome (Z * Z)),
     x = y -> (forall a, k1 a = k2 a) -> bind x k1 = bind y k2).
  { intros x y k1 k2 -> H. apply bind_ext. exact H. }
  destruct f; (apply BE; [|exact AE]); repeat (rewrite IE; first [reflexivity | apply bind_ext; intros ?]); apply IE.
Qed.
Lemma decreasing_eq st : decreasing_search cfg f c1 st = decreasing_search cfg f c2 st.
Proof using Hl Hr Hs.
  unfold decreasing_search. rewrite zf_eq. cbn [cx_zi cx_crs cx_tag].
  pose proof adjustment_eq as AE. pose proof rounding_search_eq as RE.
  destruct (min_kappa f =? 0), f.
  all: cbv zeta beta; destruct (_ <? _); [apply AE|].
  all: destruct (cares crs && _).
  all: destruct (_ =? _); [destruct (st_zf_vs_deltaf st); [apply bind_ext; intros []|..]|].
  all: first [apply AE | apply RE | reflexivity].
Qed.
End Congruence.

Lemma compute_congr cfg f p q crs x : provider_tag p = provider_tag q ->
  include_left_endpoint (provider_call f p x) = include_left_endpoint (provider_call f q x) ->
  include_right_endpoint (provider_call f p x) = include_right_endpoint (provider_call f q x) ->
  is_symmetric (provider_call f p x) = is_symmetric (provider_call f q x) ->
  compute cfg f p crs x = compute cfg f q crs x.
Proof.
  intros Ht Hl Hr Hs. unfold compute. rewrite <- Ht. destruct (decompose f x) as [fc ex].
  do 3 (apply bind_ext; intros ?). apply bind_ext. intros _. do 3 (apply bind_ext; intros ?).
  destruct (_ <? _); [apply increasing_label_eq; assumption|]. destruct (_ =? _); [|apply decreasing_eq; assumption].
  rewrite (zf_eq _ _ _ _ _ (provider_call f q x)) by exact Hl. apply bind_ext.
  intros []; [apply increasing_label_eq | apply decreasing_eq]; assumption.
Qed.

(** same fields, same answer *)
Lemma compute_fields cfg f p crs x x' : decompose f x = decompose f x' ->
  include_left_endpoint (provider_call f p x) = include_left_endpoint (provider_call f p x') ->
  include_right_endpoint (provider_call f p x) = include_right_endpoint (provider_call f p x') ->
  is_symmetric (provider_call f p x) = is_symmetric (provider_call f p x') ->
  compute cfg f p crs x = compute cfg f p crs x'.
Proof.
  intros Hd Hl Hr Hs. unfold compute. rewrite <- Hd. destruct (decompose f x) as [fc ex].
  do 3 (apply bind_ext; intros ?). apply bind_ext. intros _. do 3 (apply bind_ext; intros ?).
  destruct (_ <? _); [apply increasing_label_eq; assumption|]. destruct (_ =? _); [|apply decreasing_eq; assumption].
  rewrite (zf_eq _ _ _ _ _ (provider_call f p x')) by exact Hl. apply bind_ext.
  intros []; [apply increasing_label_eq | apply decreasing_eq]; assumption.
Qed.
