(** * Facts about the files written by generate_cache and verify_cache_length *)

From Coq Require Import ZArith List Bool Lia Ascii String.
From Flocq Require Import Core.
From Verif Require Import Machine Tables Model GenModel GenTables LengthModel LengthTables LengthClaims FileModel TextSpec FileSpec FileTexts.
Import ListNotations.
Open Scope list_scope.
Open Scope Z_scope.

(** ** Hexadecimal numbers *)
Lemma hex_of_char d : 0 <= d < 16 -> hex_digit (digit_char d) = Some d.
Proof.
  intros H. unfold digit_char. destruct (Z.ltb_spec d 10); unfold hex_digit.
  - rewrite (proj2 (Z.leb_le 48 (48 + d))), (proj2 (Z.leb_le (48 + d) 57)) by lia. cbn [andb]. f_equal. lia.
  - rewrite (proj2 (Z.leb_gt (87 + d) 57)) by lia. rewrite andb_false_r.
    rewrite (proj2 (Z.leb_le 97 (87 + d))), (proj2 (Z.leb_le (87 + d) 102)) by lia. cbn [andb]. f_equal. lia.
Qed.
Lemma tokens_zeros n t : tokens (Some 0) (repeat 48 n ++ t) = tokens (Some 0) t.
Proof. induction n as [|n IH]; [reflexivity|]. cbn [repeat List.app tokens]. change (hex_digit 48) with (Some 0). cbv iota. exact IH. Qed.
Lemma tokens_unsigned fuel v t : 0 <= v < 16 ^ Z.of_nat fuel -> tokens (Some 0) (unsigned_text 16 fuel v ++ t) = tokens (Some v) t.
Proof.
  revert v t. induction fuel as [|fuel IH]; intros v t H.
  - change (16 ^ Z.of_nat 0) with 1 in H. replace v with 0 by lia. reflexivity.
  - cbn [unsigned_text]. destruct (Z.ltb_spec v 16) as [L|L].
    + cbn [List.app tokens]. rewrite hex_of_char by lia. f_equal.
    + rewrite <- app_assoc. rewrite Nat2Z.inj_succ, Z.pow_succ_r in H by lia. rewrite IH.
      * cbn [List.app tokens]. pose proof (Z.mod_pos_bound v 16 ltac:(lia)). rewrite hex_of_char by lia. f_equal. f_equal. pose proof (Z.div_mod v 16 ltac:(lia)). lia.
      * split; [apply Z.div_pos; lia|]. apply Z.div_lt_upper_bound; lia.
Qed.
Lemma tokens_hex16 v t : 0 <= v < 2 ^ 64 -> tokens (Some 0) (hex16 v ++ t) = tokens (Some v) t.
Proof.
  intros H. unfold hex16, padded. rewrite <- app_assoc, tokens_zeros. apply tokens_unsigned. change (Z.of_nat 64) with 64. split; [lia|].
  apply (Z.lt_trans _ (2 ^ 64)); [lia | reflexivity].
Qed.

(** ** The table *)
Definition separator (c : Z) : Prop := hex_digit c = None /\ c <> 48.
Lemma tokens_close v c t : separator c -> tokens (Some v) (c :: t) = Literal v :: tokens None (c :: t).
Proof. intros [H _]. cbn [tokens]. rewrite H. reflexivity. Qed.
Lemma tokens_mark c t : c <> 48 -> white c = false -> tokens None (c :: t) = Character c :: tokens None t.
Proof.
  intros H Wc. cbn [tokens]. destruct t as [|d t]; [rewrite Wc; reflexivity|]. rewrite (proj2 (Z.eqb_neq c 48)) by exact H. cbn [andb]. rewrite Wc. reflexivity.
Qed.
Lemma tokens_white c t : c <> 48 -> white c = true -> tokens None (c :: t) = tokens None t.
Proof.
  intros H Wc. cbn [tokens]. destruct t as [|d t]; [rewrite Wc; reflexivity|]. rewrite (proj2 (Z.eqb_neq c 48)) by exact H. cbn [andb]. rewrite Wc. reflexivity.
Qed.
Lemma tokens_open t : tokens None (text "0x" ++ t) = tokens (Some 0) t.
Proof. reflexivity. Qed.
Lemma tokens_element e c t : holds e -> separator c -> tokens None (element_text e ++ c :: t) = entry_tokens e ++ tokens None (c :: t).
Proof.
  intros H S. destruct e as [v|v]; cbn [holds element_text entry_tokens] in *.
  - rewrite <- app_assoc, tokens_open, tokens_hex16 by exact H. apply tokens_close. exact S.
  - destruct H as [Hh Hl]. rewrite <- !app_assoc. change (text "{ 0x") with (123 :: 32 :: text "0x"). cbn [List.app].
    rewrite tokens_mark by (discriminate || reflexivity). rewrite tokens_white by (discriminate || reflexivity). cbn [List.app]. f_equal.
    change (48 :: 120 :: ?x) with (text "0x" ++ x). rewrite tokens_open, tokens_hex16 by exact Hh.
    change (text ", 0x" ++ ?x) with (44 :: 32 :: text "0x" ++ x). rewrite tokens_close by (split; [reflexivity | discriminate]). f_equal.
    rewrite tokens_mark by (discriminate || reflexivity). rewrite tokens_white by (discriminate || reflexivity). f_equal. rewrite tokens_open, tokens_hex16 by exact Hl.
    change (text " }" ++ ?x) with (32 :: 125 :: x). rewrite tokens_close by (split; [reflexivity | discriminate]). f_equal.
Qed.

Lemma tokens_declaration f t :
  tokens None (text "static constexpr " ++ text (type_name f) ++ text " cache[] = {" ++ 10 :: t) = declaration f ++ tokens None (10 :: t).
Proof. destruct f; reflexivity. Qed.
Lemma tokens_entries l x t : Forall holds l -> holds x -> 
  tokens None (List.concat (map (fun e => [10; 9] ++ element_text e ++ [44]) l) ++ [10; 9] ++ element_text x ++ 10 :: t) =
  comma_separated (map entry_tokens (l ++ [x])) ++ tokens None t.
Proof.
  intros H Hx. induction H as [|e l He Hl IH].
  - cbn [map List.concat List.app comma_separated]. rewrite 2!tokens_white by (discriminate || reflexivity).
    rewrite tokens_element by (exact Hx || (split; [reflexivity | discriminate])). rewrite tokens_white by (discriminate || reflexivity). reflexivity.
  - cbn [map List.concat List.app]. rewrite <- !app_assoc. cbn [List.app]. rewrite 2!tokens_white by (discriminate || reflexivity).
    rewrite tokens_element by (exact He || (split; [reflexivity | discriminate])). rewrite tokens_mark by (discriminate || reflexivity).
    cbn [List.app] in IH. rewrite IH. destruct (map entry_tokens (l ++ [x])) as [|y m] eqn:E.
    { destruct l; discriminate. }
    cbn [comma_separated]. rewrite <- app_assoc. reflexivity.
Qed.
Theorem table_read f l : Forall holds l -> l <> [] ->
  tokens None (table_text f l) = initialiser f l.
Proof.
  intros H Hn. unfold initialiser, table_text. rewrite (app_removelast_last (Cache64 0) Hn) in H |- *.
  apply Forall_app in H. destruct H as [H Hx]. inversion Hx; subst.
  rewrite removelast_last, last_last. set (r := removelast l) in *. set (x := last l (Cache64 0)) in *.
  assert (E : List.concat (map (fun e => [10; 9] ++ element_text e ++ [44]) r) ++ [10; 9] ++ element_text x ++ [10] ++ text "};" =
    10 :: tl (List.concat (map (fun e => [10; 9] ++ element_text e ++ [44]) r) ++ [10; 9] ++ element_text x ++ [10] ++ text "};")).
  { destruct r; reflexivity. }
  rewrite E, tokens_declaration, <- E. f_equal. change ([10] ++ text "};") with (10 :: text "};"). rewrite tokens_entries by assumption. reflexivity.
Qed.

Definition holds_check (e : cache_entry) : bool :=
  match e with
  | Cache64 v => (0 <=? v) && (v <? 2 ^ 64)
  | Cache128 v => ((0 <=? u128_high v) && (u128_high v <? 2 ^ 64)) && ((0 <=? u128_low v) && (u128_low v <? 2 ^ 64))
  end.
Lemma holds_ok e : holds_check e = true -> holds e.
Proof. destruct e; cbn [holds holds_check]; rewrite !andb_true_iff, !Z.leb_le, !Z.ltb_lt; auto. Qed.
Lemma table_holds f : Forall holds (table f).
Proof.
  apply Forall_forall. intros e He. apply holds_ok. assert (T : forallb holds_check (table f) = true) by (destruct f; vm_cast_no_check (eq_refl true)).
  rewrite forallb_forall in T. apply T. exact He.
Qed.

(** ** What generate_cache writes *)
Definition recorded_table (f : fmt) : string := match f with Binary32 => binary32_generated_cache_txt | Binary64 => binary64_generated_cache_txt end.
Lemma table_recorded f : table_text f (table f) = text (recorded_table f).
Proof. destruct f; [vm_cast_no_check (eq_refl (text binary32_generated_cache_txt)) | vm_cast_no_check (eq_refl (text binary64_generated_cache_txt))]. Qed.
Lemma generated_recorded over cfg junk f : generated_file (Some over) cfg junk f = Ok (text (recorded_table f)).
Proof. unfold generated_file. rewrite generate_cache_any. cbn [bind fst]. rewrite table_recorded. reflexivity. Qed.
Lemma generated_float cfg junk : generated_file None cfg junk Binary32 = Ok (text (recorded_table Binary32)).
Proof. unfold generated_file. rewrite generate_cache_float. cbn [bind fst]. rewrite (table_recorded Binary32). reflexivity. Qed.
Lemma recorded_read f : tokens None (text (recorded_table f)) = initialiser f (table f).
Proof. rewrite <- table_recorded. apply table_read; [apply table_holds | destruct f; discriminate]. Qed.

(** ** Decimal numbers *)
Lemma is_digit_char d : 0 <= d < 10 -> is_digit (digit_char d) = true /\ digit_char d - 48 = d.
Proof.
  intros H. unfold digit_char. rewrite (proj2 (Z.ltb_lt d 10)) by lia. unfold is_digit. rewrite (proj2 (Z.leb_le 48 (48 + d))), (proj2 (Z.leb_le (48 + d) 57)) by lia.
  split; [reflexivity | lia].
Qed.
Lemma read_unsigned fuel v t : 0 <= v < 10 ^ Z.of_nat fuel ->
  exists k, 0 <= k /\ (fuel <> O -> 0 < k) /\
  read_digits 0 (unsigned_text 10 fuel v ++ t) = let '(x, n, r) := read_digits v t in (x, n + k, r).
Proof.
  revert v t. induction fuel as [|fuel IH]; intros v t H.
  - change (10 ^ Z.of_nat 0) with 1 in H. replace v with 0 by lia. exists 0. split; [lia|]. split; [congruence|]. cbn [unsigned_text List.app].
    destruct (read_digits 0 t) as [[x n] r]. rewrite Z.add_0_r. reflexivity.
  - cbn [unsigned_text]. destruct (Z.ltb_spec v 10) as [L|L].
    + destruct (is_digit_char v) as [D E]; [lia|]. exists 1. split; [lia|]. split; [lia|]. cbn [List.app read_digits]. rewrite D, E. replace (10 * 0 + v) with v by lia. reflexivity.
    + rewrite Nat2Z.inj_succ, Z.pow_succ_r in H by lia. rewrite <- app_assoc.
      destruct (IH (v / 10) ([digit_char (v mod 10)] ++ t)) as (k & Hk & _ & E).
      { split; [apply Z.div_pos; lia|]. apply Z.div_lt_upper_bound; lia. }
      destruct (is_digit_char (v mod 10)) as [D F]; [apply Z.mod_pos_bound; lia|].
      exists (k + 1). split; [lia|]. split; [lia|]. rewrite E. cbn [List.app read_digits]. rewrite D, F.
      replace (10 * (v / 10) + v mod 10) with v by (rewrite <- Z.div_mod; lia). destruct (read_digits v t) as [[x n] r].
      f_equal. f_equal. lia.
Qed.
Definition decimal (c : Z) : Prop := c = 45 \/ 48 <= c <= 57.
Lemma unsigned_decimal fuel v : 0 <= v -> Forall (fun c => 48 <= c <= 57) (unsigned_text 10 fuel v).
Proof.
  revert v. induction fuel as [|fuel IH]; intros v H; [constructor|]. cbn [unsigned_text].
  assert (D : forall d, 0 <= d < 10 -> 48 <= digit_char d <= 57).
  { intros d Hd. unfold digit_char. rewrite (proj2 (Z.ltb_lt d 10)) by lia. lia. }
  destruct (Z.ltb_spec v 10) as [L|L]; [constructor; [apply D; lia | constructor]|].
  apply Forall_app. split; [apply IH; apply Z.div_pos; lia|]. constructor; [|constructor]. apply D. apply Z.mod_pos_bound. lia.
Qed.
Lemma dec_decimal v : Forall decimal (dec_text v).
Proof.
  assert (D : forall w, 0 <= w -> Forall decimal (unsigned_text 10 64 w)).
  { intros w Hw. eapply Forall_impl; [|apply unsigned_decimal; exact Hw]. intros c Hc. right. exact Hc. }
  unfold dec_text. destruct (Z.ltb_spec v 0); [constructor; [left; reflexivity|]|]; apply D; lia.
Qed.
Lemma read_unsigned_all v : 0 <= v < 10 ^ 64 -> exists k, 0 < k /\ read_digits 0 (unsigned_text 10 64 v) = (v, k, []).
Proof.
  intros H. destruct (read_unsigned 64 v [] H) as (k & _ & Hk & E). rewrite app_nil_r in E. exists k. split; [apply Hk; discriminate|]. rewrite E. reflexivity.
Qed.
Lemma read_dec v : - 10 ^ 64 < v < 10 ^ 64 -> read_integer (dec_text v) = Some v.
Proof.
  intros H. unfold dec_text, read_integer. destruct (Z.ltb_spec v 0) as [L|L].
  - cbn [read_sign]. change (45 =? 45) with true. cbv iota. destruct (read_unsigned_all (- v)) as (k & Hk & E); [lia|]. rewrite E, (proj2 (Z.eqb_neq k 0)) by lia.
    cbn [cond_Zopp]. f_equal. lia.
  - destruct (read_unsigned_all v) as (k & Hk & E); [lia|]. pose proof (unsigned_decimal 64 v L) as D.
    assert (S : read_sign (unsigned_text 10 64 v) = (false, unsigned_text 10 64 v)).
    { destruct (unsigned_text 10 64 v) as [|c t]; [reflexivity|]. inversion D; subst. unfold read_sign. rewrite (proj2 (Z.eqb_neq c 45)) by lia. reflexivity. }
    rewrite S, E, (proj2 (Z.eqb_neq k 0)) by lia. reflexivity.
Qed.

(** ** Columns *)
Lemma pieces_some c t : exists p l, pieces c t = p :: l.
Proof. induction t as [|d t (p & l & IH)]; [exists [], []; reflexivity|]. cbn [pieces]. rewrite IH. destruct (d =? c); eauto. Qed.
Lemma pieces_none c t : Forall (fun d => d <> c) t -> pieces c t = [t].
Proof. intros H. induction H as [|d t Hd Ht IH]; [reflexivity|]. cbn [pieces]. rewrite IH, (proj2 (Z.eqb_neq d c)) by exact Hd. reflexivity. Qed.
Lemma pieces_first c t u : Forall (fun d => d <> c) t -> pieces c (t ++ c :: u) = t :: pieces c u.
Proof.
  intros H. induction H as [|d t Hd Ht IH]; cbn [List.app pieces].
  - destruct (pieces_some c u) as (p & l & E). rewrite E, Z.eqb_refl. reflexivity.
  - rewrite IH, (proj2 (Z.eqb_neq d c)) by exact Hd. reflexivity.
Qed.
Lemma dec_without c v : ~ decimal c -> Forall (fun d => d <> c) (dec_text v).
Proof. intros H. eapply Forall_impl; [|apply dec_decimal]. intros d Hd E. subst. contradiction. Qed.
Lemma comma_not : ~ decimal 44. Proof. unfold decimal. lia. Qed.
Lemma line_not : ~ decimal 10. Proof. unfold decimal. lia. Qed.
Lemma read_line a b : - 10 ^ 64 < a < 10 ^ 64 -> - 10 ^ 64 < b < 10 ^ 64 -> read_row (dec_text a ++ 44 :: dec_text b) = Some (a, b).
Proof.
  intros Ha Hb. unfold read_row. rewrite pieces_first by (apply dec_without; exact comma_not). rewrite pieces_none by (apply dec_without; exact comma_not).
  rewrite !read_dec by assumption. reflexivity.
Qed.
Lemma pieces_rows rows : pieces 10 (List.concat (map row_text rows)) = map (fun r => dec_text (fst r) ++ 44 :: dec_text (snd r)) rows ++ [[]].
Proof.
  induction rows as [|r rows IH]; [reflexivity|]. cbn [map List.concat]. unfold row_text at 1. rewrite <- !app_assoc. cbn [List.app].
  change (44 :: dec_text (snd r) ++ 10 :: ?x) with ((44 :: dec_text (snd r)) ++ 10 :: x). rewrite app_assoc, pieces_first.
  - rewrite IH. reflexivity.
  - apply Forall_app. split; [apply dec_without; exact line_not|]. constructor; [discriminate | apply dec_without; exact line_not].
Qed.
Theorem rows_read rows : Forall (fun r => - 2 ^ 64 < fst r < 2 ^ 64 /\ - 2 ^ 64 < snd r < 2 ^ 64) rows -> read_rows (rows_text rows) = map Some rows.
Proof.
  intros H. unfold read_rows, rows_text. change ([10] ++ ?x) with (10 :: x). rewrite pieces_first.
  2:{ repeat (constructor; [discriminate|]). constructor. }
  cbn [tl]. rewrite pieces_rows, removelast_last, map_map. apply map_ext_in. intros [a b] Hr. rewrite Forall_forall in H. destruct (H _ Hr) as [Ha Hb].
  cbn [fst snd] in *. assert (2 ^ 64 < 10 ^ 64) by reflexivity. apply read_line; lia.
Qed.

(** ** What verify_cache_length writes *)
Definition recorded_rows : list string := [binary32_negative_k_csv; binary32_positive_k_csv; binary64_negative_k_csv; binary64_positive_k_csv].
Definition rows_of_files : list (list (Z * Z)) := [binary32_negative_k; binary32_positive_k; binary64_negative_k; binary64_positive_k].
Lemma rows_recorded : map rows_text rows_of_files = map text recorded_rows.
Proof. vm_cast_no_check (eq_refl (map text recorded_rows)). Qed.
Lemma length_recorded cfg junk : length_files cfg junk = Ok (map text recorded_rows).
Proof. unfold length_files. rewrite LengthClaims.written, <- rows_recorded. reflexivity. Qed.
Definition row_check (r : Z * Z) : bool := (- 2 ^ 64 <? fst r) && (fst r <? 2 ^ 64) && ((- 2 ^ 64 <? snd r) && (snd r <? 2 ^ 64)).
Lemma rows_small rows : forallb row_check rows = true -> Forall (fun r => - 2 ^ 64 < fst r < 2 ^ 64 /\ - 2 ^ 64 < snd r < 2 ^ 64) rows.
Proof.
  intros H. apply Forall_forall. intros r Hr. rewrite forallb_forall in H. specialize (H r Hr). unfold row_check in H. rewrite !andb_true_iff, !Z.ltb_lt in H. tauto.
Qed.
Lemma recorded_rows_read : map (fun s => read_rows (text s)) recorded_rows = map (map Some) rows_of_files.
Proof.
  rewrite <- (map_map text read_rows), <- rows_recorded, map_map. apply map_ext_in. intros rows Hr. apply rows_read, rows_small.
  assert (T : forallb (forallb row_check) rows_of_files = true) by vm_cast_no_check (eq_refl true).
  rewrite forallb_forall in T. apply T. exact Hr.
Qed.
