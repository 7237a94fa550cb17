(** * Facts about the benchmark *)

From Coq Require Import ZArith Reals List Bool Lia Ascii String Permutation.
From Flocq Require Import Core.
From Verif Require Import Machine Tables Model Spec Link Reading Bridge Results Claims Signs CharsModel TextSpec Chars Texts Outputs
  RyuModel TestModel RyuClaims RandomModel ProgramSpec RandomClaims FileModel FileSpec FileClaims BenchModel BenchSpec.
Import ListNotations.
Open Scope list_scope.
Open Scope Z_scope.

(** ** The characters of the texts *)
Definition printing (c : Z) : Prop := 45 <= c.
Lemma last_digits_printing n : forall z, Forall printing (last_digits n z).
Proof.
  induction n as [|n IH]; intros z; [constructor|]. cbn [last_digits]. apply Forall_app. split; [apply IH|]. constructor; [|constructor].
  unfold printing. pose proof (Z.mod_pos_bound z 10). lia.
Qed.
Lemma integer_printing z : Forall printing (integer_text z).
Proof. unfold integer_text. destruct (z =? 0); [repeat constructor; unfold printing; lia | apply last_digits_printing]. Qed.
Lemma pointed_printing t : Forall printing t -> Forall printing (pointed t).
Proof.
  destruct t as [|c [|d t]]; try (intros H; exact H). intros H. inversion H; subst. constructor; [assumption|]. constructor; [unfold printing; lia | assumption].
Qed.
Lemma scientific_printing neg s e : Forall printing (scientific neg s e).
Proof.
  unfold scientific. cbv zeta. rewrite !Forall_app. split; [destruct neg; repeat constructor; unfold printing; lia|].
  split; [apply pointed_printing, integer_printing|]. split; [repeat constructor; unfold printing; lia|].
  destruct (_ <? 0); [constructor; [unfold printing; lia|]|]; apply integer_printing.
Qed.

Lemma text_facts cfg f crs x : pattern f x -> exists t, text_length t <= max_text f /\ Forall printing t /\ denotes f t x /\
  forall b, text_length t + 1 <= capacity b ->
  exists b', fp_to_chars cfg f nearest_to_even crs x b = Ok (b', text_length t) /\ written b 0 (t ++ [0]) b'.
Proof.
  intros Hx. destruct (text_ok cfg f nearest_to_even crs x Hx (fun _ => eq_refl)) as (t & L & _ & W & T & Tz & Ti & Tn). exists t.
  split; [exact L|]. pose proof (three_kinds f x) as K. destruct (special_read (negative f x)) as (Rz & Ri & Rn).
  assert (M : Forall printing (if negative f x then [45] else [])) by (destruct (negative f x); repeat constructor; unfold printing; lia).
  destruct (finite f x) eqn:F.
  - destruct (Req_dec (value f x) 0) as [V|V].
    + pose proof (Tz eq_refl V) as E. split; [|split; [|exact W]].
      * rewrite E. apply Forall_app. split; [exact M | repeat constructor; unfold printing; lia].
      * unfold denotes. rewrite E, Rz. split; [exact F|]. split; [reflexivity|].
        replace (cond_Zopp (negative f x) 0) with 0 by (destruct (negative f x); reflexivity). rewrite decimal_0, read_0. symmetry. exact V.
    + assert (Hin : input f x) by (split; [|split]; assumption). destruct (T Hin) as (r & E & Et).
      destruct (returned cfg f false nearest_to_even crs assert_finite x Hin eq_refl) as (r' & E' & IR & B). assert (r' = r) by congruence. subst r'.
      split; [rewrite Et; apply scientific_printing|]. split; [|exact W].
      unfold denotes. rewrite Et, read_scientific by apply IR. split; [exact F|]. split; [reflexivity | exact B].
  - destruct (infinite f x) eqn:I.
    + pose proof (Ti eq_refl) as E. split; [|split; [|exact W]].
      * rewrite E. apply Forall_app. split; [exact M | repeat constructor; unfold printing; lia].
      * unfold denotes. rewrite E, Ri. split; [exact I | reflexivity].
    + destruct (nan f x) eqn:N; [|lia]. pose proof (Tn eq_refl) as E. split; [|split; [|exact W]].
      * rewrite E. repeat constructor; unfold printing; lia.
      * unfold denotes. rewrite E, Rn. exact N.
Qed.
Lemma printing_nonzero t : Forall printing t -> ~ In 0 t.
Proof. intros H I. rewrite Forall_forall in H. specialize (H 0 I). unfold printing in H. lia. Qed.
Lemma printing_without c t : c < 45 -> Forall printing t -> Forall (fun d => d <> c) t.
Proof. intros Hc H. eapply Forall_impl; [|exact H]. intros d Hd. unfold printing in Hd. lia. Qed.
Lemma shown cfg f x b : pattern f x -> max_text f + 1 <= capacity b -> exists t b', Forall printing t /\ denotes f t x /\ capacity b' = capacity b /\
  fp_to_chars cfg f nearest_to_even tie_to_even x b = Ok (b', text_length t) /\ string_view b' = Ok t.
Proof.
  intros Hx Hb. destruct (text_facts cfg f tie_to_even x Hx) as (t & L & P & D & W). destruct (W b ltac:(lia)) as (b' & E & V).
  exists t, b'. split; [exact P|]. split; [exact D|]. split; [apply V|]. split; [exact E|]. apply (string_view_ok b); [lia | apply printing_nonzero, P | exact V].
Qed.

(** ** The perf test *)
Lemma perf_ok cfg f xs : Forall (pattern f) xs -> forall b, max_text f + 1 <= capacity b -> perf_loop cfg f xs b = Ok tt.
Proof.
  intros H. induction H as [|x xs Hx Hxs IH]; intros b Hb; [reflexivity|]. cbn [perf_loop].
  destruct (shown cfg f x b Hx Hb) as (t & b' & _ & _ & C & E & _). rewrite E. cbn [bind fst]. apply IH. lia.
Qed.
Lemma perf_test cfg f xs junk : Forall (pattern f) xs -> uniform_random_perf_test cfg f xs junk = Ok tt.
Proof. intros H. apply perf_ok; [exact H|]. destruct f; cbn; lia. Qed.

(** ** Lines *)
Definition has_lines {A} (P : list Z -> A -> Prop) (T : list Z) (xs : list A) : Prop :=
  exists L, (forall u, pieces 10 (T ++ u) = L ++ pieces 10 u) /\ Forall2 P L xs.
Lemma lines_nil A (P : list Z -> A -> Prop) : has_lines P [] [].
Proof. exists []. split; [reflexivity | constructor]. Qed.
Lemma lines_app A (P : list Z -> A -> Prop) T xs T' xs' : has_lines P T xs -> has_lines P T' xs' -> has_lines P (T ++ T') (xs ++ xs').
Proof.
  intros (L & E & H) (L' & E' & H'). exists (L ++ L'). split; [|apply Forall2_app; assumption].
  intros u. rewrite <- !app_assoc, E, E'. reflexivity.
Qed.
Lemma lines_one A (P : list Z -> A -> Prop) line x : Forall (fun d => d <> 10) line -> P line x -> has_lines P (line ++ [10]) [x].
Proof.
  intros Hl H. exists [line]. split; [|constructor; [exact H | constructor]]. intros u. rewrite <- app_assoc. cbn [List.app]. apply pieces_first. exact Hl.
Qed.
Lemma cells_first t u : Forall (fun d => d <> 44) t -> cells (t ++ 44 :: u) = t :: cells u.
Proof. apply pieces_first. Qed.

Section Run.
Variables (rc : ryu_config) (cfg : config) (f : fmt).
Variables (draws : nat -> nat -> Z -> Z -> Z) (sto : Z -> Z -> option Z) (turns : nat).
Variables (clock : nat -> Z) (time_text : Z -> list Z).
Hypothesis Hdraws : forall i, within_bounds (draws i).
Hypothesis Hsto : correct_reader f sto.
Hypothesis Htime : forall t, ~ In 10 (time_text t) /\ ~ In 44 (time_text t).

(** ** Samples *)
Definition has_digits (d x : Z) : Prop := pattern f x /\ finite f x = true /\ (needs_digits f x d \/ d = 1 /\ value f x = 0%R).
Lemma digit_samples_ok d n : 1 <= d <= max_digits f -> forall i, digit_samples cfg f draws sto turns d n i = Diverged \/
  exists xs, digit_samples cfg f draws sto turns d n i = Ok xs /\ List.length xs = n /\ Forall (has_digits d) xs.
Proof.
  intros Hd. induction n as [|n IH]; intros i; cbn [digit_samples]; [right; exists []; repeat constructor|].
  destruct (given_digits (draws i) sto cfg f turns d Hd (Hdraws i) Hsto) as [E|(x & E & P)]; rewrite E; cbn [bind]; [left; reflexivity|].
  destruct (IH (S i)) as [E'|(xs & E' & L & F)]; rewrite E'; cbn [bind]; [left; reflexivity|]. right. exists (x :: xs).
  split; [reflexivity|]. split; [cbn; lia|]. constructor; [exact P | exact F].
Qed.
(** lists of samples with d, d + 1, ... digits *)
Inductive sampled (n : nat) : Z -> list (list Z) -> Prop :=
| sampled_nil d : sampled n d []
| sampled_cons d xs ss : List.length xs = n -> Forall (has_digits d) xs -> sampled n (d + 1) ss -> sampled n d (xs :: ss).
Lemma all_digit_samples_ok n count : forall d i, 1 <= d -> d + Z.of_nat count <= max_digits f + 1 ->
  all_digit_samples cfg f draws sto turns d count n i = Diverged \/
  exists ss, all_digit_samples cfg f draws sto turns d count n i = Ok ss /\ List.length ss = count /\ sampled n d ss.
Proof.
  induction count as [|count IH]; intros d i Hd Hc; cbn [all_digit_samples]; [right; exists []; repeat constructor|].
  destruct (digit_samples_ok d n ltac:(lia) i) as [E|(xs & E & L & F)]; rewrite E; cbn [bind]; [left; reflexivity|].
  destruct (IH (d + 1) (n + i)%nat ltac:(lia) ltac:(lia)) as [E'|(ss & E' & L' & F')]; rewrite E'; cbn [bind]; [left; reflexivity|].
  right. exists (xs :: ss). split; [reflexivity|]. split; [cbn; lia|]. constructor; assumption.
Qed.
Lemma general_pattern i : pattern f (general_float (draws i) f).
Proof.
  unfold general_float, pattern. assert (W : extended_precision f = width f) by (destruct f; reflexivity). rewrite W.
  assert (0 < 2 ^ width f) by (destruct f; reflexivity). pose proof (Hdraws i 0%nat 0 (2 ^ width f - 1) ltac:(lia)). lia.
Qed.
Lemma prepare_ok general n : prepare_samples cfg f draws sto turns general n = Diverged \/
  exists xs ss, prepare_samples cfg f draws sto turns general n = Ok (xs :: ss) /\ List.length xs = general /\ Forall (pattern f) xs /\
  List.length ss = max_digits10 f /\ sampled n 1 ss.
Proof.
  unfold prepare_samples. destruct (all_digit_samples_ok n (max_digits10 f) 1 general) as [E|(ss & E & L & F)]; [lia | destruct f; cbn; lia | |];
    rewrite E; cbn [bind]; [left; reflexivity|]. right. eexists _, ss. split; [reflexivity|].
  split; [rewrite map_length, seq_length; reflexivity|]. split; [|split; assumption].
  apply Forall_forall. intros x Hx. apply in_map_iff in Hx. destruct Hx as (i & <- & _). apply general_pattern.
Qed.

(** ** Measurements *)
Lemma convert_ok c x b : pattern f x -> max_text f + 1 <= capacity b -> exists b', convert rc cfg f c x b = Ok b' /\ capacity b' = capacity b.
Proof.
  intros Hx Hb. unfold convert. destruct c.
  - destruct (text_facts cfg f tie_to_even x Hx) as (t & L & _ & _ & W). destruct (W b ltac:(lia)) as (b' & E & V). rewrite E. exists b'. split; [reflexivity | apply V].
  - destruct (text_facts cfg f do_not_care x Hx) as (t & L & _ & _ & W). destruct (W b ltac:(lia)) as (b' & E & V). rewrite E. exists b'. split; [reflexivity | apply V].
  - destruct (same_string rc cfg f x Hx) as (t & L & W). destruct (W b b Hb Hb) as (b1 & b2 & _ & E & _ & C & _). rewrite E. exists b2. split; [reflexivity | exact C].
Qed.
Lemma repeated_ok n c x : pattern f x -> forall b, max_text f + 1 <= capacity b -> exists b', repeated rc cfg f n c x b = Ok b' /\ capacity b' = capacity b.
Proof.
  intros Hx. induction n as [|n IH]; intros b Hb; cbn [repeated]; [exists b; split; reflexivity|].
  destruct (convert_ok c x b Hx Hb) as (b1 & E & C). rewrite E. cbn [bind]. destruct (IH b1 ltac:(lia)) as (b2 & E2 & C2). exists b2. split; [exact E2 | lia].
Qed.
Lemma measure_ok n c xs : Forall (pattern f) xs -> forall i b, max_text f + 1 <= capacity b ->
  exists m i' b', measure rc cfg f clock n c xs i b = Ok (m, i', b') /\ map fst m = xs /\ capacity b' = capacity b.
Proof.
  intros H. induction H as [|x xs Hx Hxs IH]; intros i b Hb; cbn [measure]; [exists [], i, b; repeat split|].
  destruct (repeated_ok n c x Hx b Hb) as (b1 & E & C). rewrite E. cbn [bind]. destruct (IH (S i) b1 ltac:(lia)) as (m & i' & b' & E' & M & C').
  rewrite E'. cbn [bind]. exists ((x, clock i) :: m), i', b'. split; [reflexivity|]. split; [cbn [map fst]; rewrite M; reflexivity | lia].
Qed.
Lemma measure_all_ok n c ss : Forall (Forall (pattern f)) ss -> forall i b, max_text f + 1 <= capacity b ->
  exists m i' b', measure_all rc cfg f clock n c ss i b = Ok (m, i', b') /\ map (map fst) m = ss /\ capacity b' = capacity b.
Proof.
  intros H. induction H as [|xs ss Hx Hss IH]; intros i b Hb; cbn [measure_all]; [exists [], i, b; repeat split|].
  destruct (measure_ok n c xs Hx i b Hb) as (m1 & i1 & b1 & E & M & C). rewrite E. cbn [bind].
  destruct (IH i1 b1 ltac:(lia)) as (m & i' & b' & E' & M' & C'). rewrite E'. cbn [bind]. exists (m1 :: m), i', b'.
  split; [reflexivity|]. split; [cbn [map]; rewrite M, M'; reflexivity | lia].
Qed.
Lemma run_all_ok n order ss : Forall (Forall (pattern f)) ss -> forall i b, max_text f + 1 <= capacity b ->
  exists out, run_all rc cfg f clock n order ss i b = Ok out /\ forall c, In c order -> map (map fst) (results_of c out) = ss.
Proof.
  intros H. induction order as [|c order IH]; intros i b Hb; cbn [run_all]; [exists []; split; [reflexivity | intros c []]|].
  destruct (measure_all_ok n c ss H i b Hb) as (m & i' & b' & E & M & C). rewrite E. cbn [bind]. destruct (IH i' b' ltac:(lia)) as (out & E' & R).
  rewrite E'. cbn [bind]. exists ((c, m) :: out). split; [reflexivity|]. intros d Hd.
  destruct c, d; (exact M || (destruct Hd as [Hd|Hd]; [discriminate | exact (R _ Hd)])).
Qed.

(** ** Rows *)
Lemma hex_zeros n v t : 0 <= v < 2 ^ 64 -> tokens (Some 0) (padded n 48 (unsigned_text 16 64 v) ++ t) = tokens (Some v) t.
Proof.
  intros H. unfold padded. rewrite <- app_assoc, tokens_zeros. apply tokens_unsigned. change (Z.of_nat 64) with 64. split; [lia|].
  apply (Z.lt_trans _ (2 ^ 64)); [lia | reflexivity].
Qed.
Lemma hex_length fuel : forall n v, 0 <= v < 16 ^ Z.of_nat n -> (1 <= n)%nat -> (List.length (unsigned_text 16 fuel v) <= n)%nat.
Proof.
  induction fuel as [|fuel IH]; intros n v H Hn; cbn [unsigned_text]; [cbn; lia|]. destruct (Z.ltb_spec v 16); [cbn; lia|].
  rewrite app_length. cbn [List.length]. destruct n as [|[|n]]; [lia | change (16 ^ Z.of_nat 1) with 16 in H; lia|].
  rewrite Nat2Z.inj_succ, Z.pow_succ_r in H by lia.
  assert (List.length (unsigned_text 16 fuel (v / 16)) <= S n)%nat; [|lia].
  apply IH; [split; [apply Z.div_pos; lia | apply Z.div_lt_upper_bound; lia] | lia].
Qed.
Lemma hex_characters fuel v : 0 <= v -> Forall (fun c => 48 <= c) (unsigned_text 16 fuel v).
Proof.
  revert v. induction fuel as [|fuel IH]; intros v H; [constructor|]. cbn [unsigned_text].
  assert (D : forall d, 0 <= d -> 48 <= digit_char d).
  { intros d Hd. unfold digit_char. destruct (Z.ltb_spec d 10); lia. }
  destruct (Z.ltb_spec v 16) as [L|L]; [constructor; [apply D; lia | constructor]|].
  apply Forall_app. split; [apply IH; apply Z.div_pos; lia|]. constructor; [|constructor]. apply D. apply Z.mod_pos_bound. lia.
Qed.
Definition bits_text (x : Z) : list Z := text "0x" ++ padded (match f with Binary32 => 8 | Binary64 => 16 end) 48 (unsigned_text 16 64 x).
Lemma bits_read x : pattern f x -> denotes_bits f (bits_text x) x.
Proof.
  intros Hx. assert (W : 2 ^ width f <= 2 ^ 64) by (destruct f; vm_compute; discriminate). unfold pattern in Hx. split.
  - unfold bits_text. rewrite <- (app_nil_r (padded _ _ _)). change (tokens (Some 0) (padded (match f with Binary32 => 8 | Binary64 => 16 end) 48 (unsigned_text 16 64 x) ++ []) = [Literal x]).
    rewrite hex_zeros by lia. reflexivity.
  - unfold bits_text, padded. rewrite !app_length, repeat_length. change (List.length (text "0x")) with 2%nat.
    assert (L : (List.length (unsigned_text 16 64 x) <= match f with Binary32 => 8 | Binary64 => 16 end)%nat).
    { apply hex_length; [|destruct f; lia]. destruct f; cbn [width] in Hx; cbn [Z.of_nat]; (split; [lia|]); eapply Z.lt_le_trans; try apply Hx; vm_compute; discriminate. }
    destruct f; cbn [width]; [change (32 / 4) with 8 | change (64 / 4) with 16]; lia.
Qed.
Lemma bits_printing x : 0 <= x -> Forall printing (bits_text x).
Proof.
  intros Hx. unfold bits_text, padded. rewrite !Forall_app. split; [change (text "0x") with [48; 120]; constructor; [|constructor; [|constructor]]; unfold printing; lia|]. split.
  - apply Forall_forall. intros c Hc. apply repeat_spec in Hc. subst. unfold printing. lia.
  - eapply Forall_impl; [|apply hex_characters; exact Hx]. intros c Hc. unfold printing. cbn beta in Hc. lia.
Qed.
Lemma name_without c k : k = 10 \/ k = 44 -> Forall (fun d => d <> k) ([34] ++ text (name_of c) ++ [34]).
Proof. intros [->| ->]; destruct c; repeat (constructor; [discriminate|]); constructor. Qed.
Lemma without_in (k : Z) t : ~ In k t -> Forall (fun d => d <> k) t.
Proof. intros H. apply Forall_forall. intros d Hd E. subst. contradiction. Qed.
Lemma uniform_row_ok c x t b : pattern f x -> max_text f + 1 <= capacity b ->
  exists T b', uniform_row cfg f time_text c x t b = Ok (T, b') /\ capacity b' = capacity b /\ has_lines (uniform_line f) T [(name_of c, x)].
Proof.
  intros Hx Hb. destruct (shown cfg f x b Hx Hb) as (v & b' & P & D & C & E & V). unfold uniform_row. rewrite E. cbn [bind fst]. rewrite V. cbn [bind].
  eexists _, b'. split; [reflexivity|]. split; [exact C|]. fold (bits_text x).
  pose proof (bits_printing x (proj1 Hx)) as B. destruct (Htime t) as [T10 T44].
  match goal with |- has_lines _ ?T _ => replace T with ((([34] ++ text (name_of c) ++ [34]) ++ 44 :: v ++ 44 :: bits_text x ++ 44 :: time_text t) ++ [10]) end.
  2:{ rewrite <- !app_assoc. cbn [List.app]. do 2 f_equal. rewrite <- !app_assoc. cbn [List.app]. unfold bits_text. rewrite <- !app_assoc. reflexivity. }
  apply lines_one.
  - apply Forall_app. split; [apply name_without; left; reflexivity|]. constructor; [discriminate|]. apply Forall_app. split; [apply printing_without; [lia | exact P]|].
    constructor; [discriminate|]. apply Forall_app. split; [apply printing_without; [lia | exact B]|]. constructor; [discriminate|]. apply without_in, T10.
  - exists v, (bits_text x), (time_text t). split; [|split; [exact D | apply bits_read, Hx]].
    rewrite cells_first by (apply name_without; right; reflexivity). rewrite !cells_first by (apply printing_without; [lia | assumption]).
    unfold cells. rewrite pieces_none by (apply without_in, T44). reflexivity.
Qed.
Lemma digits_row_ok d c x t b : 1 <= d <= max_digits f -> pattern f x -> max_text f + 1 <= capacity b ->
  exists T b', digits_row cfg f time_text d c x t b = Ok (T, b') /\ capacity b' = capacity b /\ has_lines (digits_line f) T [(name_of c, (d, x))].
Proof.
  intros Hd Hx Hb. destruct (shown cfg f x b Hx Hb) as (v & b' & P & D & C & E & V). unfold digits_row. rewrite E. cbn [bind fst]. rewrite V. cbn [bind].
  eexists _, b'. split; [reflexivity|]. split; [exact C|]. destruct (Htime t) as [T10 T44].
  match goal with |- has_lines _ ?T _ => replace T with ((([34] ++ text (name_of c) ++ [34]) ++ 44 :: dec_text d ++ 44 :: v ++ 44 :: time_text t) ++ [10]) end.
  2:{ rewrite <- !app_assoc. cbn [List.app]. do 2 f_equal. rewrite <- !app_assoc. cbn [List.app]. rewrite <- !app_assoc. reflexivity. }
  apply lines_one.
  - apply Forall_app. split; [apply name_without; left; reflexivity|]. constructor; [discriminate|]. apply Forall_app. split; [apply dec_without, line_not|].
    constructor; [discriminate|]. apply Forall_app. split; [apply printing_without; [lia | exact P]|]. constructor; [discriminate|]. apply without_in, T10.
  - exists (dec_text d), v, (time_text t). split; [|split; [apply read_dec; assert (max_digits f < 10 ^ 64) by (destruct f; reflexivity); lia | exact D]].
    rewrite cells_first by (apply name_without; right; reflexivity). rewrite cells_first by (apply dec_without, comma_not). rewrite cells_first by (apply printing_without; [lia | assumption]).
    unfold cells. rewrite pieces_none by (apply without_in, T44). reflexivity.
Qed.
Lemma rows_ok A (P : list Z -> A -> Prop) row (name : Z -> A) results :
  (forall x t b, In x (map fst results) -> max_text f + 1 <= capacity b -> exists T b', row x t b = Ok (T, b') /\ capacity b' = capacity b /\ has_lines P T [name x]) ->
  forall b, max_text f + 1 <= capacity b ->
  exists T b', rows row results b = Ok (T, b') /\ capacity b' = capacity b /\ has_lines P T (map name (map fst results)).
Proof.
  induction results as [|[x t] results IH]; intros H b Hb; cbn [rows]; [exists [], b; repeat split; apply lines_nil|].
  destruct (H x t b (or_introl eq_refl) Hb) as (T & b1 & E & C & L). rewrite E. cbn [bind snd].
  destruct (IH (fun x t b Hx => H x t b (or_intror Hx)) b1 ltac:(lia)) as (T' & b2 & E' & C' & L'). rewrite E'. cbn [bind fst snd].
  exists (T ++ T'), b2. split; [reflexivity|]. split; [lia|]. exact (lines_app _ _ _ _ _ _ L L').
Qed.
Lemma uniform_rows_ok order out xs ss : Forall (pattern f) xs -> (forall c, In c order -> map (map fst) (results_of c out) = xs :: ss) ->
  forall b, max_text f + 1 <= capacity b ->
  exists T b', uniform_rows cfg f time_text order out b = Ok (T, b') /\ capacity b' = capacity b /\ has_lines (uniform_line f) T (list_prod (map name_of order) xs).
Proof.
  intros Hxs. induction order as [|c order IH]; intros H b Hb; cbn [uniform_rows]; [exists [], b; repeat split; apply lines_nil|].
  pose proof (H c (or_introl eq_refl)) as R. destruct (results_of c out) as [|m ms]; [discriminate|]. cbn [map] in R. injection R as R _. cbn [hd].
  destruct (rows_ok _ (uniform_line f) (uniform_row cfg f time_text c) (fun x => (name_of c, x)) m) with (b := b) as (T & b1 & E & C & L); [|exact Hb|].
  { intros x t b' Hx. rewrite R in Hx. rewrite Forall_forall in Hxs. apply uniform_row_ok. exact (Hxs x Hx). }
  rewrite E. cbn [bind snd]. destruct (IH (fun d Hd => H d (or_intror Hd)) b1 ltac:(lia)) as (T' & b2 & E' & C' & L'). rewrite E'. cbn [bind fst snd].
  exists (T ++ T'), b2. split; [reflexivity|]. split; [lia|]. rewrite R in L. exact (lines_app _ _ _ _ _ _ L L').
Qed.

(** the samples with their numbers of digits *)
Fixpoint numbered (d : Z) (ss : list (list Z)) : list (Z * Z) :=
  match ss with [] => [] | xs :: ss => map (pair d) xs ++ numbered (d + 1) ss end.
Lemma digits_rows_ok n c : forall results d, 1 <= d -> d + Z.of_nat (List.length results) <= max_digits f + 1 -> sampled n d (map (map fst) results) ->
  forall b, max_text f + 1 <= capacity b ->
  exists T b', digits_rows cfg f time_text d c results b = Ok (T, b') /\ capacity b' = capacity b /\
    has_lines (digits_line f) T (map (pair (name_of c)) (numbered d (map (map fst) results))).
Proof.
  induction results as [|m results IH]; intros d Hd Hl Hs b Hb; cbn [digits_rows]; [exists [], b; repeat split; apply lines_nil|].
  cbn [map List.length] in Hl, Hs |- *. inversion Hs as [|d' xs ss Hn Hf Hs']; subst.
  destruct (rows_ok _ (digits_line f) (digits_row cfg f time_text d c) (fun x => (name_of c, (d, x))) m) with (b := b) as (T & b1 & E & C & L); [|exact Hb|].
  { intros x t b' Hx. rewrite Forall_forall in Hf. apply digits_row_ok; [lia | exact (proj1 (Hf x Hx))]. }
  rewrite E. cbn [bind snd]. destruct (IH (d + 1) ltac:(lia) ltac:(lia) Hs' b1 ltac:(lia)) as (T' & b2 & E' & C' & L'). rewrite E'. cbn [bind fst snd].
  exists (T ++ T'), b2. split; [reflexivity|]. split; [lia|]. cbn [numbered]. rewrite map_app, map_map. exact (lines_app _ _ _ _ _ _ L L').
Qed.
Lemma all_digits_rows_ok n order out xs ss : List.length ss = max_digits10 f -> sampled n 1 ss ->
  (forall c, In c order -> map (map fst) (results_of c out) = xs :: ss) ->
  forall b, max_text f + 1 <= capacity b ->
  exists T b', all_digits_rows cfg f time_text order out b = Ok (T, b') /\ capacity b' = capacity b /\
    has_lines (digits_line f) T (list_prod (map name_of order) (numbered 1 ss)).
Proof.
  intros Hl Hs. induction order as [|c order IH]; intros H b Hb; cbn [all_digits_rows]; [exists [], b; repeat split; apply lines_nil|].
  pose proof (H c (or_introl eq_refl)) as R. destruct (results_of c out) as [|m ms]; [discriminate|]. cbn [map] in R. injection R as _ R. cbn [tl].
  assert (Lm : List.length ms = max_digits10 f) by (rewrite <- Hl, <- R, map_length; reflexivity).
  destruct (digits_rows_ok n c ms 1) with (b := b) as (T & b1 & E & C & L); [lia | rewrite Lm; destruct f; cbn; lia | rewrite R; exact Hs | exact Hb|].
  rewrite E. cbn [bind snd]. destruct (IH (fun d Hd => H d (or_intror Hd)) b1 ltac:(lia)) as (T' & b2 & E' & C' & L'). rewrite E'. cbn [bind fst snd].
  exists (T ++ T'), b2. split; [reflexivity|]. split; [lia|]. rewrite R in L. exact (lines_app _ _ _ _ _ _ L L').
Qed.

Lemma sampled_numbered n d ss : sampled n d ss ->
  Forall (fun p => has_digits (fst p) (snd p)) (numbered d ss) /\
  map fst (numbered d ss) = List.concat (map (fun i => repeat (d + Z.of_nat i) n) (seq 0 (List.length ss))).
Proof.
  intros H. induction H as [d|d xs ss Hn Hf Hs [IH1 IH2]]; cbn [numbered List.length]; [split; [constructor | reflexivity]|]. split.
  - apply Forall_app. split; [|exact IH1]. apply Forall_forall. intros p Hp. apply in_map_iff in Hp. destruct Hp as (x & <- & Hx).
    rewrite Forall_forall in Hf. exact (Hf x Hx).
  - rewrite map_app, IH2. cbn [seq map List.concat]. rewrite Z.add_0_r. f_equal.
    + rewrite map_map. cbn [fst]. rewrite <- Hn. clear. induction xs as [|x xs IH]; [reflexivity|]. cbn [map List.length repeat]. rewrite IH. reflexivity.
    + rewrite <- seq_shift, map_map. f_equal. apply map_ext. intros i. f_equal. lia.
Qed.
Lemma sampled_patterns n d ss : sampled n d ss -> Forall (Forall (pattern f)) ss.
Proof.
  intros H. induction H as [d|d xs ss Hn Hf Hs IH]; constructor; [|exact IH]. eapply Forall_impl; [|exact Hf]. intros x Hx. apply Hx.
Qed.

(** ** The two files *)
Lemma file_lines A (P : list Z -> A -> Prop) h n title T xs : Forall (fun d => d <> 10) (text h) -> Forall (fun d => d <> 10) (text title) ->
  has_lines P T xs ->
  exists L, lines (text h ++ dec_text n ++ [10] ++ text title ++ [10] ++ T) = (text h ++ dec_text n) :: text title :: L /\ Forall2 P L xs.
Proof.
  intros Hh Ht (L & E & H). exists L. split; [|exact H]. unfold lines. cbn [List.app]. rewrite app_assoc, pieces_first.
  2:{ apply Forall_app. split; [exact Hh | apply dec_without, line_not]. }
  rewrite pieces_first by exact Ht. specialize (E []). rewrite app_nil_r in E. rewrite E. change (pieces 10 []) with ([[]] : list (list Z)).
  change (?a :: ?b :: L ++ [[]]) with ((a :: b :: L) ++ [[]]). apply removelast_last.
Qed.
Lemma benchmark_ok order1 order2 general n iterations junk1 junk2 : Permutation order1 order2 -> (1 <= iterations)%nat ->
  Z.of_nat general < 2 ^ 64 -> Z.of_nat n < 2 ^ 64 ->
  benchmark_test rc cfg f draws sto turns clock time_text order1 order2 general n iterations junk1 junk2 = Diverged \/
  exists u d xs ds, benchmark_test rc cfg f draws sto turns clock time_text order1 order2 general n iterations junk1 junk2 = Ok (u, d) /\
    List.length xs = general /\ Forall (pattern f) xs /\
    map fst ds = List.concat (map (fun i => repeat (1 + Z.of_nat i) n) (seq 0 (max_digits10 f))) /\
    Forall (fun p => has_digits (fst p) (snd p)) ds /\
    (exists count L, lines u = (bytes "number_of_samples," ++ count) :: bytes "name,sample,bit_representation,time" :: L /\
      read_integer count = Some (Z.of_nat general) /\ Forall2 (uniform_line f) L (list_prod (map name_of order2) xs)) /\
    (exists count L, lines d = (bytes "number_of_samples_per_digits," ++ count) :: bytes "name,digits,sample,time" :: L /\
      read_integer count = Some (Z.of_nat n) /\ Forall2 (digits_line f) L (list_prod (map name_of order2) ds)).
Proof.
  intros HP Hi Hg Hn. unfold benchmark_test. destruct (prepare_ok general n) as [E|(xs & ss & E & Lx & Fx & Ls & S)]; rewrite E; cbn [bind]; [left; reflexivity|]. right.
  unfold run. rewrite (proj2 (Z.leb_le 1 (Z.of_nat iterations))) by lia. replace (cassert cfg true) with (Ok tt) by (unfold cassert; destruct (cfg_ndebug cfg); reflexivity). cbn [bind].
  destruct (run_all_ok iterations order1 (xs :: ss)) with (i := 0%nat) (b := mk_buffer 40 junk1) as (out & E1 & R).
  { constructor; [exact Fx | exact (sampled_patterns n 1 ss S)]. }
  { destruct f; cbn; lia. }
  rewrite E1. cbn [bind].
  assert (R2 : forall c, In c order2 -> map (map fst) (results_of c out) = xs :: ss).
  { intros c Hc. apply R. apply (Permutation_in c (Permutation_sym HP)). exact Hc. }
  destruct (uniform_rows_ok order2 out xs ss Fx R2 (mk_buffer 64 junk2)) as (U & b1 & E2 & C1 & LU); [destruct f; cbn; lia|]. rewrite E2. cbn [bind snd].
  destruct (all_digits_rows_ok n order2 out xs ss Ls S R2 b1) as (D & b2 & E3 & _ & LD); [rewrite C1; destruct f; cbn; lia|]. rewrite E3. cbn [bind fst].
  destruct (sampled_numbered n 1 ss S) as [N1 N2]. rewrite Ls in N2.
  eexists _, _, xs, (numbered 1 ss). split; [reflexivity|]. split; [exact Lx|]. split; [exact Fx|]. split; [exact N2|]. split; [exact N1|].
  assert (2 ^ 64 < 10 ^ 64) by reflexivity. split.
  - edestruct file_lines with (h := "number_of_samples,"%string) (n := (Z.of_nat general)) (title := "name,sample,bit_representation,time"%string) (3 := LU) as (L & EL & HL);
      [repeat (constructor; [discriminate|]); constructor..|].
    exists (dec_text (Z.of_nat general)), L. split; [exact EL|]. split; [apply read_dec; lia | exact HL].
  - edestruct file_lines with (h := "number_of_samples_per_digits,"%string) (n := (Z.of_nat n)) (title := "name,digits,sample,time"%string) (3 := LD) as (L & EL & HL);
      [repeat (constructor; [discriminate|]); constructor..|].
    exists (dec_text (Z.of_nat n)), L. split; [exact EL|]. split; [apply read_dec; lia | exact HL].
Qed.
End Run.

(** ** What the measured functions write *)
Lemma measured rc cfg f n c x b : pattern f x -> max_text f + 1 <= capacity b -> (1 <= n)%nat ->
  exists b' t, repeated rc cfg f n c x b = Ok b' /\ string_view b' = Ok t /\ denotes f t x.
Proof.
  intros Hx Hb Hn. destruct n as [|n]; [lia|]. clear Hn. revert b Hb. induction n as [|n IH]; intros b Hb.
  - cbn [repeated]. assert (G : exists b' t, convert rc cfg f c x b = Ok b' /\ string_view b' = Ok t /\ denotes f t x).
    { unfold convert. destruct c.
      - destruct (shown cfg f x b Hx Hb) as (t & b' & _ & D & _ & E & V). rewrite E. exists b', t. repeat split; assumption.
      - destruct (text_facts cfg f do_not_care x Hx) as (t & L & P & D & W). destruct (W b ltac:(lia)) as (b' & E & V). rewrite E.
        exists b', t. split; [reflexivity|]. split; [|exact D]. apply (string_view_ok b); [lia | apply printing_nonzero, P | exact V].
      - destruct (same_string rc cfg f x Hx) as (t & L & W). destruct (W b b Hb Hb) as (b1 & b2 & E1 & E2 & _ & _ & V1 & V2). rewrite E2.
        exists b2, t. split; [reflexivity|]. split; [exact V2|].
        destruct (shown cfg f x b Hx Hb) as (t' & b' & _ & D & _ & E & V). rewrite E1 in E. injection E as <- _. rewrite V1 in V. injection V as <-. exact D. }
    destruct G as (b' & t & E & G). rewrite E. cbn [bind]. exists b', t. split; [reflexivity | exact G].
  - change (repeated rc cfg f (S (S n)) c x b) with (b <- convert rc cfg f c x b ;; repeated rc cfg f (S n) c x b).
    destruct (convert_ok rc cfg f c x b Hx Hb) as (b1 & E & C). rewrite E. cbn [bind]. apply IH. lia.
Qed.

Lemma benchmark_files rc cfg f draws sto turns clock time_text order1 order2 general n iterations junk1 junk2 :
  (forall i, within_bounds (draws i)) -> correct_reader f sto -> (forall t, ~ In 10 (time_text t) /\ ~ In 44 (time_text t)) ->
  Permutation order1 [grisu_exact_chars; grisu_exact_wo_correct_rounding_chars; ryu_chars] ->
  Permutation order2 [grisu_exact_chars; grisu_exact_wo_correct_rounding_chars; ryu_chars] ->
  (1 <= iterations)%nat -> Z.of_nat general < 2 ^ 64 -> Z.of_nat n < 2 ^ 64 ->
  benchmark_test rc cfg f draws sto turns clock time_text order1 order2 general n iterations junk1 junk2 = Diverged \/
  exists u d xs ds, benchmark_test rc cfg f draws sto turns clock time_text order1 order2 general n iterations junk1 junk2 = Ok (u, d) /\
    List.length xs = general /\ Forall (pattern f) xs /\
    map fst ds = List.concat (map (fun i => repeat (1 + Z.of_nat i) n) (seq 0 (Z.to_nat (max_digits f)))) /\
    Forall (fun p => pattern f (snd p) /\ finite f (snd p) = true /\ (needs_digits f (snd p) (fst p) \/ fst p = 1 /\ value f (snd p) = 0%R)) ds /\
    (exists count L, lines u = (bytes "number_of_samples," ++ count) :: bytes "name,sample,bit_representation,time" :: L /\
      read_integer count = Some (Z.of_nat general) /\ Forall2 (uniform_line f) L (list_prod (map name_of order2) xs)) /\
    (exists count L, lines d = (bytes "number_of_samples_per_digits," ++ count) :: bytes "name,digits,sample,time" :: L /\
      read_integer count = Some (Z.of_nat n) /\ Forall2 (digits_line f) L (list_prod (map name_of order2) ds)).
Proof.
  intros H1 H2 H3 P1 P2. replace (Z.to_nat (max_digits f)) with (max_digits10 f) by (destruct f; reflexivity).
  apply benchmark_ok; [assumption..|]. exact (Permutation_trans P1 (Permutation_sym P2)).
Qed.
Lemma measured_text rc cfg f c x : pattern f x -> exists policy t,
  In (name_of c, policy) [("Grisu-Exact", tie_to_even); ("Grisu-Exact (w/o correct rounding)", do_not_care); ("Ryu", tie_to_even)]%string /\
  (forall iterations b, max_text f + 1 <= capacity b -> (1 <= iterations)%nat ->
     exists b', repeated rc cfg f iterations c x b = Ok b' /\ string_view b' = Ok t) /\
  (forall b, max_text f + 1 <= capacity b ->
     exists b', fp_to_chars cfg f nearest_to_even policy x b = Ok (b', text_length t) /\ string_view b' = Ok t).
Proof.
  intros Hx. assert (G : exists policy t,
    In (name_of c, policy) [("Grisu-Exact", tie_to_even); ("Grisu-Exact (w/o correct rounding)", do_not_care); ("Ryu", tie_to_even)]%string /\
    (forall b, max_text f + 1 <= capacity b -> exists b', convert rc cfg f c x b = Ok b' /\ string_view b' = Ok t) /\
    (forall b, max_text f + 1 <= capacity b -> exists b', fp_to_chars cfg f nearest_to_even policy x b = Ok (b', text_length t) /\ string_view b' = Ok t)).
  { unfold convert. destruct c.
    - destruct (text_facts cfg f tie_to_even x Hx) as (t & L & P & D & W). exists tie_to_even, t. split; [left; reflexivity|].
      assert (V : forall b, max_text f + 1 <= capacity b -> exists b', fp_to_chars cfg f nearest_to_even tie_to_even x b = Ok (b', text_length t) /\ string_view b' = Ok t).
      { intros b Hb. destruct (W b ltac:(lia)) as (b' & E & V). exists b'. split; [exact E|]. apply (string_view_ok b); [lia | apply printing_nonzero, P | exact V]. }
      split; [|exact V]. intros b Hb. destruct (V b Hb) as (b' & -> & E). exists b'. split; [reflexivity | exact E].
    - destruct (text_facts cfg f do_not_care x Hx) as (t & L & P & D & W). exists do_not_care, t. split; [right; left; reflexivity|].
      assert (V : forall b, max_text f + 1 <= capacity b -> exists b', fp_to_chars cfg f nearest_to_even do_not_care x b = Ok (b', text_length t) /\ string_view b' = Ok t).
      { intros b Hb. destruct (W b ltac:(lia)) as (b' & E & V). exists b'. split; [exact E|]. apply (string_view_ok b); [lia | apply printing_nonzero, P | exact V]. }
      split; [|exact V]. intros b Hb. destruct (V b Hb) as (b' & -> & E). exists b'. split; [reflexivity | exact E].
    - destruct (same_string rc cfg f x Hx) as (t & L & W). exists tie_to_even, t. split; [right; right; left; reflexivity|].
      split; intros b Hb; destruct (W b b Hb Hb) as (b1 & b2 & E1 & E2 & _ & _ & V1 & V2).
      + rewrite E2. exists b2. split; [reflexivity | exact V2].
      + exists b1. split; [exact E1 | exact V1]. }
  destruct G as (policy & t & I & G & F). exists policy, t. split; [exact I|]. split; [|exact F].
  intros n b Hb Hn. destruct n as [|n]; [lia|]. clear Hn. revert b Hb. induction n as [|n IH]; intros b Hb.
  - destruct (G b Hb) as (b' & E & V). cbn [repeated]. rewrite E. cbn [bind]. exists b'. split; [reflexivity | exact V].
  - change (repeated rc cfg f (S (S n)) c x b) with (b <- convert rc cfg f c x b ;; repeated rc cfg f (S n) c x b).
    destruct (convert_ok rc cfg f c x b Hx Hb) as (b1 & E & C). rewrite E. cbn [bind]. apply IH. lia.
Qed.
Lemma names_listed : map name_of [grisu_exact_chars; grisu_exact_wo_correct_rounding_chars; ryu_chars] =
  ["Grisu-Exact"; "Grisu-Exact (w/o correct rounding)"; "Ryu"]%string.
Proof. reflexivity. Qed.
