(** * The dialogue of the live test *)

From Coq Require Import ZArith Reals List Bool Lia String.
From Flocq Require Import Core.
From Verif Require Import Machine Model CharsModel TestModel CheckModel FileModel LiveModel
  Spec UserSpec TextSpec FileSpec ProgramSpec BenchSpec LiveSpec ExpFacts Core Link Bridge FileClaims BenchClaims LiveClaims Reader.
Import ListNotations.
Open Scope list_scope.
Open Scope Z_scope.

Lemma bits_shown f x : pattern f x -> denotes_bits f (bits_text f x) x.
Proof. apply (bits_read f (reader f)), reader_correct. Qed.

(** ** One answer *)
Lemma significand_pattern f x : pattern f (fc f (n_of f x)).
Proof.
  unfold pattern, fc, n_of. pose proof (frac_range f x) as R.
  assert (N : 0 <= (if expo f x =? 0 then frac f x else 2 ^ precision f + frac f x) < 2 ^ (precision f + 1)).
  { rewrite Z.pow_add_r by (destruct f; discriminate). destruct (expo f x =? 0); lia. }
  revert N. generalize (if expo f x =? 0 then frac f x else 2 ^ precision f + frac f x). intros n N.
  destruct f; unfold normal_interval_length, boundary_bit; cbn in N |- *; lia.
Qed.
Lemma exponent_short f x : - 10 ^ 64 < (if expo f x =? 0 then exp_min f - 1 else e_of f x) < 10 ^ 64.
Proof.
  assert (B : - 5000 < (if expo f x =? 0 then exp_min f - 1 else e_of f x) < 5000).
  { pose proof (expo_range f x) as R. unfold e_of. revert R. generalize (expo f x). intros k R.
    assert (M : -3000 < exp_min f <= 0) by (destruct f; split; (reflexivity || discriminate)).
    assert (T : 2 ^ exponent_bits f <= 2048) by (destruct f; discriminate). destruct (k =? 0); lia. }
  assert (T : 5000 < 10 ^ 64) by reflexivity. revert B T. generalize (10 ^ 64). intros; lia.
Qed.
Lemma decimal_without t : Forall FileClaims.decimal t -> Forall (fun d => d <> 10) t.
Proof. intros H. eapply Forall_impl; [|exact H]. intros c [Hc|Hc]; lia. Qed.

Lemma answer_ok cfg f x b : pattern f x -> max_text f + 1 <= capacity b ->
  exists t b', live_answer cfg f x b = Ok (t, b') /\ capacity b' = capacity b /\ answers f x t.
Proof.
  intros Hx Hb. destruct (shown cfg f x b Hx Hb) as (v & b' & P & D & C & E & V). unfold live_answer. rewrite (decompose_float_ok cfg f x Hx). cbn [bind fp_is_negative fp_exponent fp_significand].
  rewrite E. cbn [bind fst]. rewrite V. cbn [bind].
  eexists _, b'. split; [reflexivity|]. split; [exact C|].
  set (e := if expo f x =? 0 then exp_min f - 1 else e_of f x). pose proof (significand_pattern f x) as S. set (s := fc f (n_of f x)) in *.
  destruct (bits_shown f s S) as [B1 B2].
  exists (dec_text e), (bits_text f s), v, e, s.
  split; [|split; [|split; [|split; [exact B1|split; [exact B2|split; [exact D|]]]]]].
  - match goal with |- lines ?T = _ => replace T with
      ((text "               sign: " ++ text (if negative f x then "-" else "+")) ++ 10 :: (text "           exponent: " ++ dec_text e) ++ 10 ::
       (text "        significand: " ++ bits_text f s) ++ 10 :: (text " Grisu-Exact output: " ++ v) ++ 10 :: []) end.
    2:{ unfold bits_text. destruct (negative f x); rewrite <- ?app_assoc; cbn [List.app]; rewrite <- ?app_assoc; reflexivity. }
    unfold lines. rewrite !pieces_first; [reflexivity| | | |].
    + apply Forall_app. split; [repeat (constructor; [discriminate|]); constructor|]. apply printing_without; [lia | exact P].
    + apply Forall_app. split; [repeat (constructor; [discriminate|]); constructor|]. apply printing_without; [lia|]. apply bits_printing, S.
    + apply Forall_app. split; [repeat (constructor; [discriminate|]); constructor|]. apply decimal_without, dec_decimal.
    + destruct (negative f x); repeat (constructor; [discriminate|]); constructor.
  - rewrite !app_assoc. apply last_last.
  - apply read_dec, exponent_short.
  - intros F H. destruct (decomposed cfg f x Hx F H) as (r & Er & _ & Vr). rewrite (decompose_float_ok cfg f x Hx) in Er.
    injection Er as <-. exact Vr.
Qed.

(** ** The lines *)
Lemma split_line_pieces input :
  pieces 10 input = fst (split_line input) :: match snd (split_line input) with Some rest => pieces 10 rest | None => [] end.
Proof.
  induction input as [|c input IH]; [reflexivity|]. cbn [pieces split_line]. rewrite IH. destruct (c =? 10); [rewrite <- IH; reflexivity|].
  destruct (split_line input) as [line rest]. reflexivity.
Qed.
(** the lines that will be read, then empty lines or the last one *)
Definition to_come (stream : option (list Z)) : list (list Z) := match stream with Some input => pieces 10 input | None => [] end.

Lemma loop_ok cfg f sto : (forall line x, sto line = Some x -> pattern f x) -> sto [] = None ->
  forall calls stream x_str b, (stream = None -> sto x_str = None) -> max_text f + 1 <= capacity b ->
  exists ts, live_loop cfg f sto calls stream x_str b = Ok (List.concat ts) /\
    Forall2 (reaction f sto) (firstn calls (to_come stream ++ repeat [] calls)) ts.
Proof.
  intros Hp H0. induction calls as [|calls IH]; intros stream x_str b Hs Hb; [exists []; split; [reflexivity | constructor]|].
  cbn [live_loop].
  assert (G : forall stream' str line, sto line = sto str ->
    exists ts, match sto str with
      | None => t <- live_loop cfg f sto calls stream' str b ;; Ok (not_valid ++ t)
      | Some x => r <- live_answer cfg f x b ;; t <- live_loop cfg f sto calls stream' [] (snd r) ;; Ok (fst r ++ t)
      end = Ok (List.concat ts) /\ Forall2 (reaction f sto) (line :: firstn calls (to_come stream' ++ repeat [] calls)) ts).
  { intros stream' str line El. destruct (sto str) as [x|] eqn:Es.
    - destruct (answer_ok cfg f x b (Hp _ _ Es) Hb) as (t & b' & E & C & A). rewrite E. cbn [bind fst snd].
      destruct (IH stream' [] b' (fun _ => H0) ltac:(lia)) as (ts & E' & F). rewrite E'. cbn [bind]. exists (t :: ts). split; [reflexivity|].
      constructor; [unfold reaction; rewrite El; exact A | exact F].
    - destruct (IH stream' str b (fun _ => Es) Hb) as (ts & E' & F). rewrite E'. cbn [bind]. exists (not_valid :: ts). split; [reflexivity|].
      constructor; [unfold reaction; rewrite El; reflexivity | exact F]. }
  destruct stream as [input|]; cbn [getline to_come].
  - rewrite split_line_pieces. destruct (split_line input) as [line rest]. cbn [fst snd].
    destruct (G rest line line eq_refl) as (ts & E & F).
    exists ts. split; [exact E|]. cbn [List.app firstn].
    replace (firstn calls _) with (firstn calls (to_come rest ++ repeat [] calls)); [exact F|].
    change (match rest with Some r => pieces 10 r | None => [] end) with (to_come rest). rewrite !firstn_app. f_equal.
    assert (R : forall k n, (k <= n)%nat -> firstn k (repeat (@nil Z) n) = repeat [] k).
    { clear. induction k as [|k IHk]; intros [|n] H; try reflexivity; [lia|]. cbn. f_equal. apply IHk. lia. }
    rewrite !R by lia. reflexivity.
  - destruct (G None x_str []) as (ts & E & F); [rewrite H0; symmetry; apply Hs; reflexivity|].
    exists ts. split; [exact E | exact F].
Qed.
Lemma dialogue cfg f sto calls input junk : (forall line x, sto line = Some x -> pattern f x) -> sto [] = None ->
  exists ts, live_test cfg f sto calls input junk = Ok (heading f ++ List.concat ts) /\
    Forall2 (reaction f sto) (firstn calls (pieces 10 input ++ repeat [] calls)) ts.
Proof.
  intros Hp H0. unfold live_test. destruct (loop_ok cfg f sto Hp H0 calls (Some input) [] (mk_buffer 41 junk)) as (ts & E & F); [discriminate | destruct f; cbn; lia|].
  rewrite E. cbn [bind]. exists ts. split; [|exact F]. destruct f; reflexivity.
Qed.

(** ** After the end of the input *)
Lemma loop_past cfg f sto x_str b k : sto x_str = None -> live_loop cfg f sto k None x_str b = Ok (List.concat (repeat not_valid k)).
Proof. intros H. induction k as [|k IH]; [reflexivity|]. cbn [live_loop getline]. rewrite H, IH. reflexivity. Qed.
Lemma loop_end cfg f sto k : (forall line x, sto line = Some x -> pattern f x) -> sto [] = None ->
  forall calls stream x_str b, (stream = None -> sto x_str = None) -> max_text f + 1 <= capacity b -> (List.length (to_come stream) <= calls)%nat ->
  exists t, live_loop cfg f sto calls stream x_str b = Ok t /\ live_loop cfg f sto (calls + k) stream x_str b = Ok (t ++ List.concat (repeat not_valid k)).
Proof.
  intros Hp H0. induction calls as [|calls IH]; intros stream x_str b Hs Hb Hl.
  - destruct stream as [input|].
    + cbn [to_come] in Hl. rewrite split_line_pieces in Hl. cbn in Hl. lia.
    + exists []. split; [reflexivity|]. apply loop_past, Hs. reflexivity.
  - cbn [live_loop Nat.add]. destruct (getline stream x_str) as [stream' str] eqn:G.
    assert (Hl' : (List.length (to_come stream') <= calls)%nat).
    { destruct stream as [input|]; cbn [getline to_come] in *; [|injection G as <- _; cbn; lia].
      rewrite split_line_pieces in Hl. destruct (split_line input) as [line rest]. injection G as <- _. cbn in Hl. unfold to_come. lia. }
    destruct (sto str) as [x|] eqn:Es.
    + destruct (answer_ok cfg f x b (Hp _ _ Es) Hb) as (t & b' & E & C & _). rewrite E. cbn [bind fst snd].
      destruct (IH stream' [] b' (fun _ => H0) ltac:(lia) Hl') as (u & E1 & E2). rewrite E1, E2. cbn [bind]. exists (t ++ u).
      split; [reflexivity|]. rewrite app_assoc. reflexivity.
    + destruct (IH stream' str b (fun _ => Es) Hb Hl') as (u & E1 & E2). rewrite E1, E2. cbn [bind]. exists (not_valid ++ u).
      split; [reflexivity|]. rewrite app_assoc. reflexivity.
Qed.
Lemma endless cfg f sto calls input junk k : (forall line x, sto line = Some x -> pattern f x) -> sto [] = None ->
  (List.length (pieces 10 input) <= calls)%nat ->
  exists t, live_test cfg f sto calls input junk = Ok t /\
    live_test cfg f sto (calls + k) input junk = Ok (t ++ List.concat (repeat (bytes "Not a valid input; input again." ++ [10]) k)).
Proof.
  intros Hp H0 Hl. unfold live_test.
  destruct (loop_end cfg f sto k Hp H0 calls (Some input) [] (mk_buffer 41 junk)) as (t & E1 & E2); [discriminate | destruct f; cbn; lia | exact Hl|].
  rewrite E1, E2. cbn [bind]. eexists. split; [reflexivity|]. rewrite <- !app_assoc. reflexivity.
Qed.
