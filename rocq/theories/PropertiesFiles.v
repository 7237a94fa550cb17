(** * The files that generate_cache and verify_cache_length write *)

From Coq Require Import ZArith List Bool Lia String.
From Verif Require Import Machine Tables Model Claims BigClaims GenModel GenTables LengthModel LengthTables FileModel TextSpec FileSpec FileTexts FileClaims.
Import ListNotations.
Open Scope list_scope.
Open Scope Z_scope.

(** ** C61: the files in test_results are, byte for byte, what the programs write; read as C++ and as columns of
    decimal integers they say what the header and C52 say *)

(** generate_cache, whatever the shifts by 64 give ([over]; see C46) and whatever is in uninitialised memory *)
Theorem C61_tables : forall over cfg junk,
  generated_file (Some over) cfg junk Binary32 = Ok (bytes binary32_generated_cache_txt) /\
  generated_file (Some over) cfg junk Binary64 = Ok (bytes binary64_generated_cache_txt).
Proof. intros. exact (conj (generated_recorded over cfg junk Binary32) (generated_recorded over cfg junk Binary64)). Qed.
Print Assumptions C61_tables.
Theorem C61_float_table : forall cfg junk, generated_file None cfg junk Binary32 = Ok (bytes binary32_generated_cache_txt).
Proof. exact generated_float. Qed.
Print Assumptions C61_float_table.
(** the recorded texts declare the tables of the header *)
Theorem C61_declared :
  tokens None (bytes binary32_generated_cache_txt) = initialiser Binary32 (map Cache64 cache_float) /\
  tokens None (bytes binary64_generated_cache_txt) = initialiser Binary64 (map (fun hl => Cache128 (mk_uint128 (fst hl) (snd hl))) cache_double).
Proof. exact (conj (recorded_read Binary32) (recorded_read Binary64)). Qed.
Print Assumptions C61_declared.
(** and any other table of 64-bit words would be declared too *)
Theorem C61_any_table : forall f entries, Forall holds entries -> entries <> [] -> tokens None (table_text f entries) = initialiser f entries.
Proof. exact table_read. Qed.
Print Assumptions C61_any_table.
(** verify_cache_length *)
Theorem C61_rows : forall cfg junk, length_files cfg junk =
  Ok (map bytes [binary32_negative_k_csv; binary32_positive_k_csv; binary64_negative_k_csv; binary64_positive_k_csv]).
Proof. exact length_recorded. Qed.
Print Assumptions C61_rows.
Theorem C61_rows_read :
  map (fun s => read_rows (bytes s)) [binary32_negative_k_csv; binary32_positive_k_csv; binary64_negative_k_csv; binary64_positive_k_csv] =
  map (map Some) [binary32_negative_k; binary32_positive_k; binary64_negative_k; binary64_positive_k].
Proof. exact recorded_rows_read. Qed.
Print Assumptions C61_rows_read.
Theorem C61_any_rows : forall rows, Forall (fun r => - 2 ^ 64 < fst r < 2 ^ 64 /\ - 2 ^ 64 < snd r < 2 ^ 64) rows ->
  read_rows (rows_text rows) = map Some rows.
Proof. exact rows_read. Qed.
Print Assumptions C61_any_rows.
Example C61_example :
  table_text Binary32 [Cache64 11; Cache64 (2 ^ 64 - 1)] =
  bytes "static constexpr std::uint64_t cache[] = {" ++ [10; 9] ++ bytes "0x000000000000000b," ++ [10; 9] ++ bytes "0xffffffffffffffff" ++ [10] ++ bytes "};" /\
  Forall holds [Cache64 11; Cache64 (2 ^ 64 - 1)] /\
  rows_text [(-45, 61)] = bytes "e,required_bits" ++ [10] ++ bytes "-45,61" ++ [10] /\
  read_rows (rows_text [(-45, 61)]) = [Some (-45, 61)] /\
  read_row (bytes "-45;61") = None /\ tokens None (bytes "{ 0x1f }") = [Character 123; Literal 31; Character 125].
Proof. repeat split; try reflexivity. repeat constructor; cbn [holds]; discriminate. Qed.
