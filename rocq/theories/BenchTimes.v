(** * The samples and the times in the files of the benchmark *)

From Coq Require Import ZArith Reals List Bool Lia Ascii String Permutation.
From Verif Require Import Machine Model Spec TextSpec FileSpec ProgramSpec RandomSpec RandomFirst CharsModel RyuModel TestModel RandomModel RandomClaims FileModel FileClaims
  BenchModel BenchSpec BenchClaims BenchTimesSpec.
Import ListNotations.
Open Scope list_scope.
Open Scope Z_scope.

Fixpoint measured_from (clock : nat -> Z) (i : nat) (ss : list (list Z)) : list (list (Z * Z)) :=
  match ss with [] => [] | xs :: ss => timed clock i xs :: measured_from clock (i + List.length xs) ss end.
Fixpoint numbered_list {A} (d : Z) (ss : list (list A)) : list (Z * A) :=
  match ss with [] => [] | xs :: ss => map (pair d) xs ++ numbered_list (d + 1) ss end.
Lemma ok_pair A B (a c : A) (b d : B) : Ok (a, b) = Ok (c, d) -> a = c /\ b = d.
Proof. intros H. injection H as -> ->. split; reflexivity. Qed.
Lemma timed_fst A clock i (xs : list A) : map fst (timed clock i xs) = xs.
Proof.
  unfold timed. revert i. induction xs as [|x xs IH]; intros i; [reflexivity|]. cbn. f_equal. apply IH.
Qed.
Lemma timed_app A clock i (xs ys : list A) : timed clock i (xs ++ ys) = timed clock i xs ++ timed clock (i + List.length xs) ys.
Proof.
  unfold timed. revert i. induction xs as [|x xs IH]; intros i; cbn; [rewrite Nat.add_0_r; reflexivity|]. f_equal. rewrite IH. do 2 f_equal.
  rewrite Nat.add_succ_r. reflexivity.
Qed.
Lemma timed_map A B (g : A -> B) clock i (xs : list A) : timed clock i (map g xs) = map (fun p => (g (fst p), snd p)) (timed clock i xs).
Proof. unfold timed. rewrite map_length. revert i. induction xs as [|x xs IH]; intros i; [reflexivity|]. cbn. f_equal. apply IH. Qed.
Lemma numbered_measured clock ss : forall d i,
  timed clock i (numbered_list d ss) = map (fun p => (fst p, fst (snd p), snd (snd p))) (numbered_list d (measured_from clock i ss)).
Proof.
  induction ss as [|xs ss IH]; intros d i; [reflexivity|]. cbn [numbered_list measured_from].
  rewrite timed_app, map_app, map_map, IH, map_length, timed_map. reflexivity.
Qed.

Section Run.
Variables (rc : ryu_config) (cfg : config) (f : fmt).
Variables (draws : nat -> nat -> Z -> Z -> Z) (sto : Z -> Z -> option Z) (turns : nat).
Variables (clock : nat -> Z) (time_text : Z -> list Z).
Hypothesis Hdraws : forall i, within_bounds (draws i).
Hypothesis Hsto : correct_reader f sto.
Hypothesis Htime : forall t, ~ In 10 (time_text t) /\ ~ In 44 (time_text t).

(** ** Samples *)
Lemma digit_samples_which d n : forall i xs, digit_samples cfg f draws sto turns d n i = Ok xs ->
  List.length xs = n /\ forall j, (j < n)%nat -> exists x, nth_error xs j = Some x /\ float_with_given_digits (draws (i + j)%nat) sto cfg f turns d = Ok x.
Proof.
  induction n as [|n IH]; intros i xs; cbn [digit_samples]; [intros E; injection E as <-; split; [reflexivity | lia]|].
  destruct (float_with_given_digits (draws i) sto cfg f turns d) as [x| | |] eqn:Ex; cbn [bind]; try discriminate.
  destruct (digit_samples cfg f draws sto turns d n (S i)) as [ys| | |] eqn:Ey; cbn [bind]; try discriminate.
  intros E. injection E as <-. destruct (IH (S i) ys Ey) as [L N]. split; [cbn; lia|].
  intros [|j] Hj; [exists x; split; [reflexivity | rewrite Nat.add_0_r; exact Ex]|]. cbn [nth_error]. rewrite Nat.add_succ_r. apply N. lia.
Qed.
Lemma all_digit_samples_which n count : forall d i ss, all_digit_samples cfg f draws sto turns d count n i = Ok ss ->
  Forall (fun xs => List.length xs = n) ss /\ List.length ss = count /\
  forall j, (j < n * count)%nat -> exists x, nth_error (numbered_list d ss) j = Some (d + Z.of_nat (j / n), x) /\
    float_with_given_digits (draws (i + j)%nat) sto cfg f turns (d + Z.of_nat (j / n)) = Ok x.
Proof.
  induction count as [|count IH]; intros d i ss; cbn [all_digit_samples]; [intros E; injection E as <-; split; [constructor | split; [reflexivity | lia]]|].
  destruct (digit_samples cfg f draws sto turns d n i) as [xs| | |] eqn:Ex; cbn [bind]; try discriminate.
  destruct (all_digit_samples cfg f draws sto turns (d + 1) count n (n + i)) as [ys| | |] eqn:Ey; cbn [bind]; try discriminate.
  intros E. injection E as <-. destruct (digit_samples_which d n i xs Ex) as [Lx Nx]. destruct (IH _ _ _ Ey) as (F & L & N).
  split; [constructor; assumption|]. split; [cbn; lia|]. intros j Hj. cbn [numbered_list].
  destruct (Nat.lt_ge_cases j n) as [J|J].
  - rewrite Nat.div_small, Z.add_0_r by exact J. destruct (Nx j J) as (x & Hx & Hf). exists x. split; [|exact Hf].
    rewrite nth_error_app1 by (rewrite map_length; lia). rewrite nth_error_map, Hx. reflexivity.
  - destruct n as [|n]; [lia|]. destruct (N (j - S n)%nat ltac:(lia)) as (x & Hx & Hf). exists x.
    assert (Q : Z.of_nat (j / S n) = Z.of_nat ((j - S n) / S n) + 1).
    { replace j with ((j - S n) + 1 * S n)%nat at 1 by lia. rewrite Nat.div_add by discriminate. lia. }
    rewrite nth_error_app2 by (rewrite map_length; lia). rewrite map_length, Lx.
    replace (d + Z.of_nat (j / S n)) with (d + 1 + Z.of_nat ((j - S n) / S n)) by lia. split; [exact Hx|].
    replace (i + j)%nat with (S n + i + (j - S n))%nat by lia. exact Hf.
Qed.

(** ** Measurements *)
Lemma measure_times n c xs : forall i b m i' b', measure rc cfg f clock n c xs i b = Ok (m, i', b') -> m = timed clock i xs /\ i' = (i + List.length xs)%nat.
Proof.
  induction xs as [|x xs IH]; intros i b m i' b'; cbn [measure]; [intros E; injection E as <- <- _; split; [reflexivity | cbn; lia]|].
  destruct (repeated rc cfg f n c x b) as [b1| | |]; cbn [bind]; try discriminate.
  destruct (measure rc cfg f clock n c xs (S i) b1) as [[[m' i''] b2]| | |] eqn:E'; cbn [bind]; try discriminate.
  intros E. injection E as <- <- _. destruct (IH _ _ _ _ _ E') as [-> ->]. split; [reflexivity | cbn; lia].
Qed.
Lemma measure_all_times n c ss : forall i b m i' b', measure_all rc cfg f clock n c ss i b = Ok (m, i', b') ->
  m = measured_from clock i ss /\ i' = (i + List.length (List.concat ss))%nat.
Proof.
  induction ss as [|xs ss IH]; intros i b m i' b'; cbn [measure_all]; [intros E; injection E as <- <- _; split; [reflexivity | cbn; lia]|].
  destruct (measure rc cfg f clock n c xs i b) as [[[m1 i1] b1]| | |] eqn:E1; cbn [bind]; try discriminate.
  destruct (measure_all rc cfg f clock n c ss i1 b1) as [[[m2 i2] b2]| | |] eqn:E2; cbn [bind]; try discriminate.
  intros E. injection E as <- <- _. destruct (measure_times _ _ _ _ _ _ _ _ E1) as [-> ->]. destruct (IH _ _ _ _ _ E2) as [-> ->].
  split; [reflexivity|]. cbn [List.concat]. rewrite app_length. lia.
Qed.
Lemma run_all_times n ss order : forall i b out, run_all rc cfg f clock n order ss i b = Ok out ->
  forall c, In c order -> results_of c out = measured_from clock (i + place c order * List.length (List.concat ss)) ss.
Proof.
  induction order as [|d order IH]; intros i b out; cbn [run_all]; [intros _ c []|].
  destruct (measure_all rc cfg f clock n d ss i b) as [[[m i1] b1]| | |] eqn:E1; cbn [bind]; try discriminate.
  destruct (run_all rc cfg f clock n order ss i1 b1) as [out'| | |] eqn:E2; cbn [bind]; try discriminate.
  intros E. injection E as <-. destruct (measure_all_times _ _ _ _ _ _ _ _ E1) as [-> ->]. intros c Hc. cbn [place].
  destruct (contestant_eq c d) as [->|N].
  - rewrite Nat.mul_0_l, Nat.add_0_r. destruct d; reflexivity.
  - destruct Hc as [->|Hc]; [contradiction|]. pose proof (IH _ _ _ E2 c Hc) as R.
    replace (results_of c ((d, measured_from clock i ss) :: out')) with (results_of c out') by (destruct c, d; reflexivity || contradiction).
    rewrite R. f_equal. lia.
Qed.

(** ** Rows *)
Lemma called_name c : name_of c = called c.
Proof. destruct c; reflexivity. Qed.
Lemma uniform_row_entry c x t b : pattern f x -> max_text f + 1 <= capacity b ->
  exists T b', uniform_row cfg f time_text c x t b = Ok (T, b') /\ capacity b' = capacity b /\ has_lines (uniform_entry f time_text) T [(c, (x, t))].
Proof.
  intros Hx Hb. destruct (shown cfg f x b Hx Hb) as (v & b' & P & D & C & E & V). unfold uniform_row. rewrite E. cbn [bind fst]. rewrite V. cbn [bind].
  eexists _, b'. split; [reflexivity|]. split; [exact C|]. fold (bits_text f x).
  pose proof (bits_printing f x (proj1 Hx)) as B. destruct (Htime t) as [T10 T44].
  match goal with |- has_lines _ ?T _ => replace T with ((([34] ++ text (name_of c) ++ [34]) ++ 44 :: v ++ 44 :: bits_text f x ++ 44 :: time_text t) ++ [10]) end.
  2:{ rewrite <- !app_assoc. cbn [List.app]. do 2 f_equal. rewrite <- !app_assoc. cbn [List.app]. unfold bits_text. rewrite <- !app_assoc. reflexivity. }
  apply lines_one.
  - apply Forall_app. split; [apply name_without; left; reflexivity|]. constructor; [discriminate|]. apply Forall_app. split; [apply printing_without; [lia | exact P]|].
    constructor; [discriminate|]. apply Forall_app. split; [apply printing_without; [lia | exact B]|]. constructor; [discriminate|]. apply without_in, T10.
  - exists v, (bits_text f x). split; [|split; [exact D | eapply bits_read; eassumption]].
    rewrite cells_first by (apply name_without; right; reflexivity). rewrite !cells_first by (apply printing_without; [lia | assumption]).
    unfold cells. rewrite pieces_none by (apply without_in, T44). rewrite called_name. reflexivity.
Qed.
Lemma digits_row_entry d c x t b : 1 <= d <= max_digits f -> pattern f x -> max_text f + 1 <= capacity b ->
  exists T b', digits_row cfg f time_text d c x t b = Ok (T, b') /\ capacity b' = capacity b /\ has_lines (digits_entry f time_text) T [(c, (d, x, t))].
Proof.
  intros Hd Hx Hb. destruct (shown cfg f x b Hx Hb) as (v & b' & P & D & C & E & V). unfold digits_row. rewrite E. cbn [bind fst]. rewrite V. cbn [bind].
  eexists _, b'. split; [reflexivity|]. split; [exact C|]. destruct (Htime t) as [T10 T44].
  match goal with |- has_lines _ ?T _ => replace T with ((([34] ++ text (name_of c) ++ [34]) ++ 44 :: dec_text d ++ 44 :: v ++ 44 :: time_text t) ++ [10]) end.
  2:{ rewrite <- !app_assoc. cbn [List.app]. do 2 f_equal. rewrite <- !app_assoc. cbn [List.app]. rewrite <- !app_assoc. reflexivity. }
  apply lines_one.
  - apply Forall_app. split; [apply name_without; left; reflexivity|]. constructor; [discriminate|]. apply Forall_app. split; [apply dec_without, line_not|].
    constructor; [discriminate|]. apply Forall_app. split; [apply printing_without; [lia | exact P]|]. constructor; [discriminate|]. apply without_in, T10.
  - exists (dec_text d), v. split; [|split; [apply read_dec; assert (max_digits f < 10 ^ 64) by (destruct f; reflexivity); lia | exact D]].
    rewrite cells_first by (apply name_without; right; reflexivity). rewrite cells_first by (apply dec_without, comma_not). rewrite cells_first by (apply printing_without; [lia | assumption]).
    unfold cells. rewrite pieces_none by (apply without_in, T44). rewrite called_name. reflexivity.
Qed.
Lemma rows_entries A (P : list Z -> A -> Prop) row (name : Z * Z -> A) results :
  (forall x t b, In x (map fst results) -> max_text f + 1 <= capacity b -> exists T b', row x t b = Ok (T, b') /\ capacity b' = capacity b /\ has_lines P T [name (x, t)]) ->
  forall b, max_text f + 1 <= capacity b ->
  exists T b', rows row results b = Ok (T, b') /\ capacity b' = capacity b /\ has_lines P T (map name results).
Proof.
  induction results as [|[x t] results IH]; intros H b Hb; cbn [rows]; [exists [], b; repeat split; apply lines_nil|].
  destruct (H x t b (or_introl eq_refl) Hb) as (T & b1 & E & C & L). rewrite E. cbn [bind snd].
  destruct (IH (fun x t b Hx => H x t b (or_intror Hx)) b1 ltac:(lia)) as (T' & b2 & E' & C' & L'). rewrite E'. cbn [bind fst snd].
  exists (T ++ T'), b2. split; [reflexivity|]. split; [lia|]. exact (lines_app _ _ _ _ _ _ L L').
Qed.
Lemma uniform_rows_entries order out xs ss start : Forall (pattern f) xs -> (forall c, In c order -> results_of c out = measured_from clock (start c) (xs :: ss)) ->
  forall b, max_text f + 1 <= capacity b ->
  exists T b', uniform_rows cfg f time_text order out b = Ok (T, b') /\ capacity b' = capacity b /\
    has_lines (uniform_entry f time_text) T (flat_map (fun c => map (pair c) (timed clock (start c) xs)) order).
Proof.
  intros Hxs. induction order as [|c order IH]; intros H b Hb; cbn [uniform_rows]; [exists [], b; repeat split; apply lines_nil|].
  rewrite (H c (or_introl eq_refl)). cbn [measured_from hd].
  destruct (rows_entries _ (uniform_entry f time_text) (uniform_row cfg f time_text c) (pair c) (timed clock (start c) xs)) with (b := b) as (T & b1 & E & C & L); [|exact Hb|].
  { intros x t b' Hx. rewrite timed_fst in Hx. rewrite Forall_forall in Hxs. apply uniform_row_entry. exact (Hxs x Hx). }
  rewrite E. cbn [bind snd]. destruct (IH (fun d Hd => H d (or_intror Hd)) b1 ltac:(lia)) as (T' & b2 & E' & C' & L'). rewrite E'. cbn [bind fst snd].
  exists (T ++ T'), b2. split; [reflexivity|]. split; [lia|]. exact (lines_app _ _ _ _ _ _ L L').
Qed.
Lemma digits_rows_entries c ss : Forall (Forall (pattern f)) ss -> forall d i, 1 <= d -> d + Z.of_nat (List.length ss) <= max_digits f + 1 ->
  forall b, max_text f + 1 <= capacity b ->
  exists T b', digits_rows cfg f time_text d c (measured_from clock i ss) b = Ok (T, b') /\ capacity b' = capacity b /\
    has_lines (digits_entry f time_text) T (map (fun p => (c, (fst p, fst (snd p), snd (snd p)))) (numbered_list d (measured_from clock i ss))).
Proof.
  intros H. induction H as [|xs ss Hx Hss IH]; intros d i Hd Hl b Hb; cbn [measured_from digits_rows]; [exists [], b; repeat split; apply lines_nil|].
  cbn [List.length] in Hl.
  destruct (rows_entries _ (digits_entry f time_text) (digits_row cfg f time_text d c) (fun p => (c, (d, fst p, snd p))) (timed clock i xs)) with (b := b) as (T & b1 & E & C & L); [|exact Hb|].
  { intros x t b' Hi. rewrite timed_fst in Hi. rewrite Forall_forall in Hx. apply digits_row_entry; [lia | exact (Hx x Hi)]. }
  rewrite E. cbn [bind snd]. destruct (IH (d + 1) (i + List.length xs)%nat ltac:(lia) ltac:(lia) b1 ltac:(lia)) as (T' & b2 & E' & C' & L').
  rewrite E'. cbn [bind fst snd]. exists (T ++ T'), b2. split; [reflexivity|]. split; [lia|]. cbn [numbered_list]. rewrite map_app, map_map. exact (lines_app _ _ _ _ _ _ L L').
Qed.
Lemma all_digits_rows_entries order out xs ss start : Forall (Forall (pattern f)) ss -> List.length ss = max_digits10 f ->
  (forall c, In c order -> results_of c out = measured_from clock (start c) (xs :: ss)) ->
  forall b, max_text f + 1 <= capacity b ->
  exists T b', all_digits_rows cfg f time_text order out b = Ok (T, b') /\ capacity b' = capacity b /\
    has_lines (digits_entry f time_text) T (flat_map (fun c => map (pair c) (timed clock (start c + List.length xs) (numbered_list 1 ss))) order).
Proof.
  intros Hss Hl. induction order as [|c order IH]; intros H b Hb; cbn [all_digits_rows]; [exists [], b; repeat split; apply lines_nil|].
  rewrite (H c (or_introl eq_refl)). cbn [measured_from tl].
  destruct (digits_rows_entries c ss Hss 1 (start c + List.length xs)%nat) with (b := b) as (T & b1 & E & C & L); [lia | rewrite Hl; destruct f; cbn; lia | exact Hb|].
  rewrite E. cbn [bind snd]. destruct (IH (fun d Hd => H d (or_intror Hd)) b1 ltac:(lia)) as (T' & b2 & E' & C' & L'). rewrite E'. cbn [bind fst snd].
  exists (T ++ T'), b2. split; [reflexivity|]. split; [lia|]. cbn [flat_map]. apply lines_app; [|exact L'].
  rewrite numbered_measured, map_map. exact L.
Qed.

Lemma concat_length A n (ss : list (list A)) : Forall (fun xs => List.length xs = n) ss -> List.length (List.concat ss) = (n * List.length ss)%nat.
Proof. intros H. induction H as [|xs ss Hx _ IH]; cbn [List.concat List.length]; [lia|]. rewrite app_length, IH. lia. Qed.
Lemma numbered_length A n (ss : list (list A)) : Forall (fun xs => List.length xs = n) ss -> forall d, List.length (numbered_list d ss) = (n * List.length ss)%nat.
Proof.
  intros H. induction H as [|xs ss Hx _ IH]; intros d; cbn [numbered_list List.length]; [lia|]. rewrite app_length, map_length, IH. lia.
Qed.
Lemma benchmark_entries order1 order2 general n iterations junk1 junk2 u d : Permutation order1 order2 -> (1 <= iterations)%nat ->
  benchmark_test rc cfg f draws sto turns clock time_text order1 order2 general n iterations junk1 junk2 = Ok (u, d) ->
  let xs := map (fun i => draws i 0%nat 0 (2 ^ width f - 1)) (seq 0 general) in
  let total := (general + n * Z.to_nat (max_digits f))%nat in
  exists ds, List.length ds = (n * Z.to_nat (max_digits f))%nat /\
    (forall j, (j < n * Z.to_nat (max_digits f))%nat -> exists x, nth_error ds j = Some (1 + Z.of_nat (j / n), x) /\
       first_drawn f (1 + Z.of_nat (j / n)) sto (draws (general + j)%nat) turns x) /\
    Forall2 (uniform_entry f time_text) (skipn 2 (lines u)) (flat_map (fun c => map (pair c) (timed clock (place c order1 * total) xs)) order2) /\
    Forall2 (digits_entry f time_text) (skipn 2 (lines d)) (flat_map (fun c => map (pair c) (timed clock (place c order1 * total + general) ds)) order2).
Proof.
  intros HP Hi E0 xs total. assert (MD : Z.to_nat (max_digits f) = max_digits10 f) by (destruct f; reflexivity).
  unfold benchmark_test in E0. destruct (prepare_ok cfg f draws sto turns Hdraws Hsto general n) as [E|(xs' & ss & E & Lx & Fx & Ls & S)]; rewrite E in E0; cbn [bind] in E0; [discriminate|].
  unfold prepare_samples in E. destruct (all_digit_samples cfg f draws sto turns 1 (max_digits10 f) n general) as [ss'| | |] eqn:Es; cbn [bind] in E; try discriminate.
  injection E as Ex <-. assert (X : xs' = xs).
  { rewrite <- Ex. unfold xs. apply map_ext. intros i. unfold general_float. replace (extended_precision f) with (width f) by (destruct f; reflexivity). reflexivity. }
  clear Ex. subst xs'. destruct (all_digit_samples_which n _ _ _ _ Es) as (FL & _ & N). pose proof (sampled_patterns f n 1 ss' S) as FP.
  unfold run in E0. rewrite (proj2 (Z.leb_le 1 (Z.of_nat iterations))) in E0 by lia.
  replace (cassert cfg true) with (Ok tt) in E0 by (unfold cassert; destruct (cfg_ndebug cfg); reflexivity). cbn [bind] in E0.
  destruct (run_all rc cfg f clock iterations order1 (xs :: ss') 0 (mk_buffer 40 junk1)) as [out| | |] eqn:Er; cbn [bind] in E0; try discriminate.
  pose proof (run_all_times _ _ _ _ _ _ Er) as R.
  replace (List.length (List.concat (xs :: ss'))) with total in R
    by (cbn [List.concat]; rewrite app_length, (concat_length _ n), Ls, Lx by exact FL; unfold total; lia).
  assert (R2 : forall c, In c order2 -> results_of c out = measured_from clock (place c order1 * total) (xs :: ss')).
  { intros c Hc. rewrite R; [reflexivity|]. apply (Permutation_in c (Permutation_sym HP)). exact Hc. }
  destruct (uniform_rows_entries order2 out xs ss' (fun c => place c order1 * total)%nat Fx R2 (mk_buffer 64 junk2)) as (U & b1 & E2 & C1 & LU); [destruct f; cbn; lia|].
  rewrite E2 in E0. cbn [bind snd] in E0.
  destruct (all_digits_rows_entries order2 out xs ss' (fun c => place c order1 * total)%nat FP Ls R2 b1) as (D & b2 & E3 & _ & LD); [rewrite C1; destruct f; cbn; lia|].
  rewrite E3 in E0. cbn [bind fst] in E0. apply ok_pair in E0. destruct E0 as [<- <-]. rewrite Lx in LD. exists (numbered_list 1 ss'). split; [|split; [|split]].
  - rewrite MD, <- Ls. apply numbered_length. exact FL.
  - intros j Hj. rewrite MD in Hj. destruct (N j Hj) as (x & Hx & Hf). exists x. split; [exact Hx|].
    assert (Q : (j / n < max_digits10 f)%nat) by (apply Nat.div_lt_upper_bound; lia).
    destruct (first_found (draws (general + j)%nat) sto cfg f turns (1 + Z.of_nat (j / n))) as [F _]; [lia | apply Hdraws | exact Hsto|].
    apply F. exact Hf.
  - edestruct file_lines with (h := "number_of_samples,"%string) (n := (Z.of_nat general)) (title := "name,sample,bit_representation,time"%string) (3 := LU) as (L & EL & HL);
      [repeat (constructor; [discriminate|]); constructor..|].
    rewrite EL. exact HL.
  - edestruct file_lines with (h := "number_of_samples_per_digits,"%string) (n := (Z.of_nat n)) (title := "name,digits,sample,time"%string) (3 := LD) as (L & EL & HL);
      [repeat (constructor; [discriminate|]); constructor..|].
    rewrite EL. exact HL.
Qed.
End Run.

Lemma rows_listed rc cfg f draws sto turns clock time_text order1 order2 general n iterations junk1 junk2 u d :
  (forall i, within_bounds (draws i)) -> correct_reader f sto -> (forall t, ~ In 10 (time_text t) /\ ~ In 44 (time_text t)) ->
  Permutation order1 order2 -> (1 <= iterations)%nat ->
  benchmark_test rc cfg f draws sto turns clock time_text order1 order2 general n iterations junk1 junk2 = Ok (u, d) ->
  let xs := map (fun i => draws i 0%nat 0 (2 ^ width f - 1)) (seq 0 general) in
  let total := (general + n * Z.to_nat (max_digits f))%nat in
  exists ds, List.length ds = (n * Z.to_nat (max_digits f))%nat /\
    (forall j, (j < n * Z.to_nat (max_digits f))%nat -> exists x, nth_error ds j = Some (1 + Z.of_nat (j / n), x) /\
       first_drawn f (1 + Z.of_nat (j / n)) sto (draws (general + j)%nat) turns x) /\
    Forall2 (uniform_entry f time_text) (skipn 2 (lines u)) (flat_map (fun c => map (pair c) (timed clock (place c order1 * total) xs)) order2) /\
    Forall2 (digits_entry f time_text) (skipn 2 (lines d)) (flat_map (fun c => map (pair c) (timed clock (place c order1 * total + general) ds)) order2).
Proof. intros H1 H2 H3. apply benchmark_entries; assumption. Qed.
