(** * What the test programs print *)

From Coq Require Import ZArith List Bool Lia Ascii String Permutation.
From Verif Require Import Machine Model CharsModel RyuModel TestModel RandomModel BigintModel GenModel LengthModel CheckModel FileModel BenchModel LiveModel ScreenModel.
From Verif Require Import Spec TextSpec FileSpec ProgramSpec LiveSpec ScreenSpec.
From Verif Require Import RyuClaims CheckClaims LogClaims GenTables LengthTables LengthClaims FileClaims BenchClaims LiveFacts.
Import ListNotations.
Open Scope list_scope.
Open Scope Z_scope.

(** ** Two loops side by side *)
Definition alike {S S' R R'} (RS : S -> S' -> Prop) (RR : R -> R' -> Prop) (a : outcome (S + R)) (b : outcome (S' + R')) : Prop :=
  match a, b with
  | Ok (inl s), Ok (inl s') => RS s s'
  | Ok (inr r), Ok (inr r') => RR r r'
  | AssertFailed, AssertFailed | Undefined, Undefined | Diverged, Diverged => True
  | _, _ => False
  end.
Lemma loops_alike {S S' R R'} (RS : S -> S' -> Prop) (RR : R -> R' -> Prop) body body' :
  (forall i s s', RS s s' -> alike RS RR (body i s) (body' i s')) ->
  forall n i s s', RS s s' -> alike RS RR (int_loop body i n s) (int_loop body' i n s').
Proof.
  intros B. induction n as [|n IH]; intros i s s' H; cbn [int_loop]; [exact H|].
  pose proof (B i s s' H) as A. destruct (body i s) as [[a|a]| | |], (body' i s') as [[b|b]| | |]; cbn [alike bind] in *; try contradiction; try exact I.
  - apply IH, A.
  - exact A.
Qed.

(** ** The three checks *)
Lemma delta_part_ok cfg f : delta_part cfg f = Ok (true, []).
Proof.
  unfold delta_part. rewrite int_loop_quiet; [reflexivity|]. intros k Hk.
  destruct (deltas_agree cfg f k) as (d & ->).
  { rewrite Z2Nat.id in Hk by (destruct f; vm_compute; discriminate). lia. }
  cbn [bind fst snd]. rewrite Z.eqb_refl. reflexivity.
Qed.
Lemma examined cfg f i e k beta kappa divisor c : examine cfg f i = Ok (Some (e, k, beta, kappa, divisor, c)) ->
  e = i + exponent_bias f - extended_precision f + 1.
Proof.
  unfold examine. cbv zeta. intros H.
  repeat match type of H with
  | bind ?x _ = _ => destruct x; cbn [bind] in H; try discriminate
  | (if ?x then _ else _) = _ => destruct x; try discriminate
  end. injection H. congruence.
Qed.
(** the bits of the number with that exponent *)
Definition bits_of (f : fmt) (e : Z) : Z := wrap (extended_precision f) (Z.shiftl (e - exponent_bias f + extended_precision f - 1) (precision f)).
Lemma bits_examined cfg f i e k beta kappa divisor c : examine cfg f i = Ok (Some (e, k, beta, kappa, divisor, c)) ->
  wrap (extended_precision f) (Z.shiftl i (precision f)) = bits_of f e.
Proof. intros H. apply examined in H. unfold bits_of. do 2 f_equal. lia. Qed.

Section Numbers.
Variable number_text : fmt -> Z -> list Z.

Definition bound_texts f (l : list (Z * Z)) : list Z := List.concat (map (fun r => bound_line number_text f (fst r) (snd r) (bits_of f (snd r))) (rev l)).
Lemma bound_part_ok cfg f l : verify_bound cfg f = Ok (true, l) -> bound_part number_text cfg f = Ok (true, bound_texts f l).
Proof.
  unfold verify_bound, bound_part.
  match goal with |- bind ?x _ = _ -> bind ?y _ = _ => assert (A : alike (fun s s' => fst s = fst s' /\ snd s' = bound_texts f (snd s)) (fun r r' => fst r = false) x y) end.
  { apply loops_alike; [|split; reflexivity]. intros i s s' [E1 E2].
    destruct (examine cfg f i) as [[[[[[[e k] beta] kappa] divisor] c]|]| | |] eqn:E; cbn [bind alike]; try exact I; [|reflexivity].
    destruct (n_prime cfg f beta divisor c) as [np| | |]; cbn [bind alike]; try exact I.
    destruct (_ && _); [|split; assumption]. cbn [fst snd]. rewrite E1, (bits_examined _ _ _ _ _ _ _ _ _ E). split; [reflexivity|].
    unfold bound_texts. cbn [rev]. rewrite map_app, concat_app, E2. cbn [map List.concat fst snd]. rewrite app_nil_r. reflexivity. }
  revert A. destruct (int_loop _ _ _ _) as [[[a1 a2]|[a1 a2]]| | |]; try discriminate;
    destruct (int_loop _ _ _ _) as [[[b1 b2]|[b1 b2]]| | |]; cbn [alike bind fst snd]; try contradiction.
  - intros [<- ->] H. injection H as -> ->. reflexivity.
  - intros -> H. discriminate.
Qed.
Definition removal_texts f (l : list (Z * comparison_of_fractions)) : list Z :=
  List.concat (map (fun r => coincidence_line number_text f (fst r) (bits_of f (fst r)) (snd r)) (rev l)).
Lemma removal_part_ok cfg f l : verify_removal cfg f = Ok (true, l) -> removal_part number_text cfg f = Ok (true, removal_texts f l).
Proof.
  unfold verify_removal, removal_part. cbv zeta.
  match goal with |- bind ?x _ = _ -> bind ?y _ = _ => assert (A : alike (fun s s' => fst s = fst s' /\ snd s' = removal_texts f (snd s)) (fun r r' => fst r = false) x y) end.
  { apply loops_alike; [|split; reflexivity]. intros i s s' [E1 E2].
    destruct (examine cfg f i) as [[[[[[[e k] beta] kappa] divisor] c]|]| | |] eqn:E; cbn [bind alike]; try exact I; [|reflexivity].
    destruct (coincidence cfg f e k beta divisor c) as [co| | |]; cbn [bind alike]; try exact I.
    destruct co as [co|]; [|split; assumption]. cbn [fst snd]. rewrite E1, (bits_examined _ _ _ _ _ _ _ _ _ E). split; [reflexivity|].
    unfold removal_texts. cbn [rev]. rewrite map_app, concat_app, E2. cbn [map List.concat fst snd]. rewrite app_nil_r. reflexivity. }
  revert A. destruct (int_loop _ _ _ _) as [[[a1 a2]|[a1 a2]]| | |]; try discriminate;
    destruct (int_loop _ _ _ _) as [[[b1 b2]|[b1 b2]]| | |]; cbn [alike bind fst snd]; try contradiction.
  - intros [<- ->] H. injection H as -> ->. reflexivity.
  - intros -> H. discriminate.
Qed.
End Numbers.

Lemma text_bytes s : text s = bytes s.
Proof. reflexivity. Qed.

Lemma deltas_report w : exists t, screen_of w verify_deltas = Ok t /\ reports w verify_deltas t.
Proof.
  eexists. cbn [screen_of reports]. unfold delta_screen, two_parts. rewrite !delta_part_ok. cbn [bind fst snd].
  split; [reflexivity|]. vm_compute. reflexivity.
Qed.
Lemma bound_line_found nt e x h hex : dec_text e = bytes h -> bits_hex Binary64 x = bytes hex -> bound_line nt Binary64 5 e x = found_bound (nt Binary64) h x hex.
Proof. intros E X. unfold bound_line, found_bound. rewrite E, X. reflexivity. Qed.
Lemma coincidence_line_found nt f e x c h hex r : dec_text e = bytes h -> bits_hex f x = bytes hex ->
  r = match c with fraction_smaller => "<"%string | fraction_equal => "=="%string | fraction_larger => ">"%string end ->
  coincidence_line nt f e x c = found_coincidence (nt f) h x hex r.
Proof. intros E X ->. unfold coincidence_line, found_coincidence. rewrite E, X. destruct c; reflexivity. Qed.
Lemma title_line s t : line s ++ t = text_lines [s] ++ t.
Proof. unfold text_lines. cbn [map List.concat]. rewrite app_nil_r. reflexivity. Qed.
Lemma bounds_report w : exists t, screen_of w verify_bounds = Ok t /\ reports w verify_bounds t.
Proof.
  eexists. cbn [screen_of reports]. unfold bound_screen, two_parts. rewrite !(bound_part_ok _ _ _ _ (bound_verified _ _)). cbn [bind fst snd].
  split; [reflexivity|]. cbv zeta. generalize (w_number_text w). clear w. intros nt.
  unfold bound_texts. cbn [rev app map List.concat fst snd].
  rewrite (bound_line_found nt (-798) (bits_of Binary64 (-798)) "-798" "1200000000000000") by reflexivity.
  rewrite (bound_line_found nt (-592) (bits_of Binary64 (-592)) "-592" "1ee0000000000000") by reflexivity.
  rewrite (bound_line_found nt (-406) (bits_of Binary64 (-406)) "-406" "2a80000000000000") by reflexivity.
  rewrite (bound_line_found nt 152 (bits_of Binary64 152) "152" "4d60000000000000") by reflexivity.
  change (bits_of Binary64 (-798)) with 0x1200000000000000. change (bits_of Binary64 (-592)) with 0x1ee0000000000000.
  change (bits_of Binary64 (-406)) with 0x2a80000000000000. change (bits_of Binary64 152) with 0x4d60000000000000.
  rewrite <- !app_assoc, app_nil_l. reflexivity.
Qed.
Lemma removals_report w : exists t, screen_of w verify_removals = Ok t /\ reports w verify_removals t.
Proof.
  eexists. cbn [screen_of reports]. unfold removal_screen, two_parts. rewrite !(removal_part_ok _ _ _ _ (removal_verified _ _)). cbn [bind fst snd].
  split; [reflexivity|]. generalize (w_number_text w). clear w. intros nt.
  unfold removal_texts. cbn [rev app map List.concat fst snd].
  rewrite (coincidence_line_found nt Binary32 (-60) (bits_of Binary32 (-60)) _ "-60" "31000000" "<") by reflexivity.
  rewrite (coincidence_line_found nt Binary32 59 (bits_of Binary32 59) _ "59" "6c800000" ">") by reflexivity.
  rewrite (coincidence_line_found nt Binary64 (-655) (bits_of Binary64 (-655)) _ "-655" "1af0000000000000" "<") by reflexivity.
  rewrite (coincidence_line_found nt Binary64 (-203) (bits_of Binary64 (-203)) _ "-203" "3730000000000000" ">") by reflexivity.
  change (bits_of Binary32 (-60)) with 0x31000000. change (bits_of Binary32 59) with 0x6c800000.
  change (bits_of Binary64 (-655)) with 0x1af0000000000000. change (bits_of Binary64 (-203)) with 0x3730000000000000.
  rewrite <- !app_assoc, !app_nil_l. reflexivity.
Qed.

(** ** The others that take no input *)
Lemma lengths_report w : exists t, screen_of w verify_length = Ok t /\ reports w verify_length t.
Proof.
  eexists. cbn [screen_of reports]. unfold length_screen. rewrite written. cbn [bind].
  split; [reflexivity|]. unfold nth, snd. vm_compute. reflexivity.
Qed.
Lemma bind_ok_inv {A B} (x : outcome A) (g : A -> B) y : bind x (fun c => Ok (g c)) = Ok y -> exists c, x = Ok c /\ g c = y.
Proof. destruct x; cbn [bind]; intros H; inversion H. eauto. Qed.
Lemma bind_undefined_inv {A B} (x : outcome A) (g : A -> B) : bind x (fun c => Ok (g c)) = Undefined -> x = Undefined.
Proof. destruct x; cbn [bind]; intros H; inversion H. reflexivity. Qed.
Lemma no_overflow over cfg junk f : exists c, generate_cache_bitset (Some over) cfg junk (cache_precision f) (min_k f) (max_k f) (generator_array_size f) = Ok c /\ overflow_lines f c = [].
Proof.
  pose proof (generate_cache_any over cfg junk f) as G. unfold generate_cache in G.
  apply bind_ok_inv in G. destruct G as (c & -> & G). exists c. split; [reflexivity|]. apply (f_equal snd) in G. rename G into E. cbn [snd] in E.
  unfold write_file in E. cbv zeta in E. cbn [snd] in E.
  unfold overflow_lines. induction (seq 0 (Z.to_nat (- min_k f))) as [|i l IH]; [reflexivity|].
  cbn [map existsb List.concat] in *. apply orb_false_iff in E. destruct E as [E1 E2]. rewrite E1, (IH E2). reflexivity.
Qed.
Lemma generate_report w over : w_over w = Some over -> exists t, screen_of w generate = Ok t /\ reports w generate t.
Proof.
  intros O. eexists. cbn [screen_of reports]. unfold generate_screen. rewrite O. cbv zeta.
  destruct (no_overflow over (w_cfg w) (w_generate_junk w Binary32) Binary32) as (c32 & -> & E32).
  destruct (no_overflow over (w_cfg w) (w_generate_junk w Binary64) Binary64) as (c64 & -> & E64). cbn [bind]. rewrite E32, E64.
  split; reflexivity.
Qed.
Lemma generate_undefined w : w_over w = None -> screen_of w generate = Undefined.
Proof.
  intros O. cbn [screen_of]. unfold generate_screen. rewrite O. cbv zeta.
  pose proof (generate_cache_float (w_cfg w) (w_generate_junk w Binary32)) as G32. pose proof (generate_cache_undefined (w_cfg w) (w_generate_junk w Binary64)) as G64.
  unfold generate_cache in G32, G64. apply bind_ok_inv in G32. destruct G32 as (c & -> & _). apply bind_undefined_inv in G64. rewrite G64. reflexivity.
Qed.

(** the text makes no difference *)
Lemma log_part_alike name low large exact computed limit :
  match log_section low large exact computed limit with
  | Ok _ => exists t, log_part name low large exact computed limit = Ok t
  | AssertFailed => log_part name low large exact computed limit = AssertFailed
  | Undefined => log_part name low large exact computed limit = Undefined
  | Diverged => log_part name low large exact computed limit = Diverged
  end.
Proof.
  unfold log_section, log_part.
  match goal with |- context [bind ?x (fun r => Ok (match r with inl st => snd st | inr _ => 0 end))] =>
    match goal with |- context [bind ?y (fun r => match r with inl _ => _ | inr _ => Ok [] end)] =>
      assert (A : alike (fun s s' => s = fst s') (fun _ _ => True) x y) end end.
  { apply loops_alike; [|reflexivity]. intros i [s1 s2] [[s1' s2'] t] E. cbn [fst] in E. injection E as <- <-.
    destruct (low i) as [lower| | |]; cbn [bind alike]; try exact I.
    destruct (large lower); cbn [bind alike fst]; [|reflexivity].
    destruct (exact i) as [v| | |]; cbn [bind alike]; try exact I.
    destruct (computed i) as [c| | |]; cbn [bind alike]; try exact I.
    destruct (negb (c =? v)); destruct (computed (- i)) as [c'| | |]; cbn [bind alike]; try exact I;
      destruct (negb (c' =? - v - 1)); cbn [bind alike fst]; reflexivity. }
  destruct (int_loop _ _ _ _) as [[a|a]| | |]; destruct (int_loop _ _ _ _) as [[[[b1 b2] b3]|b]| | |]; cbn [alike bind] in *; try contradiction; eauto.
Qed.
Lemma logs_undefined w : screen_of w verify_logs = Undefined.
Proof.
  cbn [screen_of]. unfold log_screen.
  pose proof (log10_section (w_cfg w) (w_log_junk w)) as L10. pose proof (log2_section (w_cfg w) (w_log_junk w)) as L2.
  unfold log10_pow2_section in L10. unfold log2_pow10_section in L2.
  match type of L10 with log_section ?a ?b ?c ?d ?e = _ => pose proof (log_part_alike "floor_log10_pow2" a b c d e) as P10 end.
  match type of L2 with log_section ?a ?b ?c ?d ?e = _ => pose proof (log_part_alike "floor_log2_pow10" a b c d e) as P2 end.
  rewrite L10 in P10. rewrite L2 in P2. destruct P10 as [t P10]. rewrite P10. cbn [bind]. rewrite P2. reflexivity.
Qed.

(** ** The random tests *)
Lemma random_patterns w p f n : sensible w -> Forall (pattern f) (random_inputs w p f n).
Proof.
  intros H. apply Forall_forall. intros x I. apply in_map_iff in I. destruct I as (i & <- & _). 
  exact (general_pattern f (w_draws w p) (w_sto w f) (draws_within w H p) (reads_right w H f) i).
Qed.
Lemma test_loop_ok rc cfg f xs : Forall (pattern f) xs -> forall b1 b2 ok, max_text f + 1 <= CharsModel.capacity b1 -> max_text f + 1 <= CharsModel.capacity b2 ->
  test_loop rc cfg f xs b1 b2 ok = Ok ([], ok).
Proof.
  induction 1 as [|x xs P _ IH]; intros b1 b2 ok C1 C2; [reflexivity|]. cbn [test_loop].
  destruct (same_string rc cfg f x P) as (t & _ & T). destruct (T b1 b2 C1 C2) as (b1' & b2' & -> & -> & D1 & D2 & V1 & V2).
  cbn [bind fst]. rewrite V1, V2. cbn [bind]. destruct (list_eq_dec Z.eq_dec t t) as [_|N]; [|contradiction]. apply IH; lia.
Qed.
Lemma test_report w f : sensible w -> exists t, screen_of w (random_test f) = Ok t /\ reports w (random_test f) t.
Proof.
  intros H. eexists. cbn [screen_of reports]. unfold test_screen.
  rewrite test_loop_ok by (try (apply random_patterns, H); destruct f; cbn; lia). cbn [bind fst snd].
  split; [reflexivity|]. unfold random_inputs. rewrite map_length, seq_length. eexists. split.
  - apply read_dec. pose proof (tests_fit w H f). lia.
  - rewrite title_line. rewrite <- !app_assoc, app_nil_l, title_line. reflexivity.
Qed.
Lemma perf_report w f : sensible w -> exists t, screen_of w (random_perf_test f) = Ok t /\ reports w (random_perf_test f) t.
Proof.
  intros H. eexists. cbn [screen_of reports]. unfold perf_screen. rewrite perf_test by apply random_patterns, H. cbn [bind].
  split; [reflexivity|]. rewrite title_line. reflexivity.
Qed.
(** ** The benchmark *)
Lemma benchmark_report w f : sensible w -> screen_of w (benchmark f) = Diverged \/ exists t, screen_of w (benchmark f) = Ok t /\ reports w (benchmark f) t.
Proof.
  intros H. cbn [screen_of reports]. unfold benchmark_screen.
  match goal with |- context [benchmark_test ?a ?b ?c ?d ?e ?g ?h ?i ?j ?k ?l ?m ?n ?o ?p] =>
    destruct (benchmark_files a b c d e g h i j k l m n o p) as [->|(u & d' & xs & ds & -> & _)]; try apply H end.
  { left. reflexivity. }
  right. eexists. split; [reflexivity|]. rewrite title_line. rewrite (title_line "Generating random samples..."). rewrite title_line. rewrite (title_line "Now writing to files...").
  match goal with |- context [List.concat (map ?g (w_order1 w f))] => rewrite (map_ext g (fun c =>
            bytes "Benchmarking " ++ bytes (listed c) ++ bytes " with uniformly random " ++ bytes (in_ieee f) ++ text_lines ["'s..."]%string ++
            List.concat (map (fun d => bytes "Benchmarking " ++ bytes (listed c) ++ bytes " with (approximately) uniformly random " ++ bytes (in_ieee f) ++
              bytes "'s of " ++ below_20 d ++ text_lines [" digits..."]%string) (seq 1 (Z.to_nat (max_digits f)))))) end.
  - reflexivity.
  - intros c. destruct c, f; reflexivity.
Qed.
Lemma live_report w f : sensible w -> exists t, screen_of w (live f) = Ok t /\ reports w (live f) t.
Proof.
  intros H. cbn [screen_of reports].
  destruct (dialogue (w_cfg w) f (w_line_sto w f) (w_calls w) (w_input w) (w_junk w (live f) 0)) as (ts & E & F); [apply H | apply H|].
  eauto 8.
Qed.

(** ** tests/main.cpp *)
Lemma program_report w p over : sensible w -> w_over w = Some over -> p <> verify_logs ->
  screen_of w p = Diverged \/ exists t, screen_of w p = Ok t /\ reports w p t.
Proof.
  intros H O N. destruct p.
  - contradiction.
  - right. apply lengths_report.
  - right. exact (generate_report w over O).
  - right. apply deltas_report.
  - right. apply bounds_report.
  - right. apply removals_report.
  - right. apply test_report, H.
  - right. apply perf_report, H.
  - right. exists []. split; reflexivity.
  - apply benchmark_report, H.
  - right. apply live_report, H.
Qed.
Lemma runs w over ps : sensible w -> w_over w = Some over -> ~ In verify_logs ps ->
  run_programs w ps = Diverged \/ exists ts, run_programs w ps = Ok (List.concat ts) /\ Forall2 (reports w) (up_to_live ps) ts.
Proof.
  intros H O. induction ps as [|p ps IH]; intros N.
  - right. exists []. split; [reflexivity | constructor].
  - assert (L : forall q, q = p -> screen_of w q = Diverged \/ exists t, screen_of w q = Ok t /\ reports w q t).
    { intros q ->. apply (program_report w p over H O). intros ->. apply N. left. reflexivity. }
    assert (IH' := IH (fun I => N (or_intror I))). clear IH N.
    destruct p; cbn [run_programs up_to_live];
      match goal with |- context [screen_of w ?q] => destruct (L q eq_refl) as [->|(t & -> & R)] end; cbn [bind]; try (left; reflexivity);
      try (destruct IH' as [->|(ts & -> & R')]; cbn [bind]; [left; reflexivity|]; right; exists (t :: ts); split; [reflexivity | constructor; assumption]).
    right. exists [t]. split; [cbn [List.concat]; rewrite app_nil_r; reflexivity | repeat constructor; exact R].
Qed.
Lemma main_reports w over selected : sensible w -> w_over w = Some over -> selected verify_logs = false ->
  main w selected = Diverged \/ exists ts, main w selected = Ok (List.concat ts) /\ Forall2 (reports w) (up_to_live (filter selected in_order)) ts.
Proof.
  intros H O S. apply (runs w over _ H O). intros I. apply filter_In in I. destruct I as [_ I]. congruence.
Qed.
Lemma main_logs w selected : selected verify_logs = true -> main w selected = Undefined.
Proof. intros S. unfold main, programs. cbn [filter]. rewrite S. cbn [run_programs]. rewrite logs_undefined. reflexivity. Qed.
Lemma main_generate w selected : w_over w = None -> selected generate = true -> main w selected = Undefined.
Proof.
  intros O G. destruct (selected verify_logs) eqn:S; [apply main_logs, S|]. unfold main, programs. cbn [filter]. rewrite S, G.
  destruct (lengths_report w) as (t & E & _).
  destruct (selected verify_length); cbn [run_programs]; rewrite ?E, (generate_undefined w O); reflexivity.
Qed.
Lemma runs_sure w over ps : sensible w -> w_over w = Some over -> ~ In verify_logs ps -> (forall f, ~ In (benchmark f) ps) ->
  run_programs w ps <> Diverged.
Proof.
  intros H O. induction ps as [|p ps IH]; intros N B; [discriminate|].
  assert (IH' := IH (fun I => N (or_intror I)) (fun f I => B f (or_intror I))). clear IH.
  assert (L : forall q, q = p -> exists t, screen_of w q = Ok t).
  { intros q ->. destruct p; [contradict N; left; reflexivity | | | | | | | | | elim (B f); left; reflexivity |].
    - destruct (lengths_report w) as (t & E & _). eauto.
    - destruct (generate_report w over O) as (t & E & _). eauto.
    - destruct (deltas_report w) as (t & E & _). eauto.
    - destruct (bounds_report w) as (t & E & _). eauto.
    - destruct (removals_report w) as (t & E & _). eauto.
    - destruct (test_report w f H) as (t & E & _). eauto.
    - destruct (perf_report w f H) as (t & E & _). eauto.
    - exists []. reflexivity.
    - destruct (live_report w f H) as (t & E & _). eauto. }
  destruct p; cbn [run_programs]; match goal with |- context [screen_of w ?q] => destruct (L q eq_refl) as [t ->] end; cbn [bind]; try discriminate;
    (destruct (run_programs w ps); cbn [bind]; try discriminate; exact IH').
Qed.
Lemma main_sure w over selected : sensible w -> w_over w = Some over -> selected verify_logs = false ->
  selected (benchmark Binary32) = false -> selected (benchmark Binary64) = false ->
  exists ts, main w selected = Ok (List.concat ts) /\ Forall2 (reports w) (up_to_live (filter selected in_order)) ts.
Proof.
  intros H O S B1 B2. destruct (main_reports w over selected H O S) as [D|R]; [|exact R]. exfalso. revert D. apply (runs_sure w over _ H O).
  - intros I. apply filter_In in I. destruct I as [_ I]. congruence.
  - intros f I. apply filter_In in I. destruct I as [_ I]. destruct f; congruence.
Qed.
