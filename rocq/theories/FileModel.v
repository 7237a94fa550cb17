(** * Model of the text output of generate_cache and verify_cache_length

    A text is the list of its byte values; '\n' and std::endl write the byte 10 (on a system that translates line
    ends the bytes of the file differ). *)

From Coq Require Import ZArith List Bool Ascii String.
From Verif Require Import Machine Model BigintModel GenModel LengthModel.
Import ListNotations.
Open Scope Z_scope.

(** the bytes of a string literal, as at generate_cache.cpp:208 *)
Definition text (s : string) : list Z := map (fun c => Z.of_N (N_of_ascii c)) (list_ascii_of_string s).

(** one digit as std::hex and std::dec write it, as at generate_cache.cpp:248 *)
Definition digit_char (d : Z) : Z := if d <? 10 then 48 + d else 87 + d.
(** std::ostream << of an unsigned integer: no leading zeros; [fuel] bounds the number of digits *)
Fixpoint unsigned_text (base : Z) (fuel : nat) (v : Z) : list Z :=
  match fuel with
  | O => []
  | S fuel' => if v <? base then [digit_char v] else unsigned_text base fuel' (v / base) ++ [digit_char (v mod base)]
  end.
(** std::setw(n) and std::setfill(c), as at generate_cache.cpp:248 *)
Definition padded (n : nat) (c : Z) (t : list Z) : list Z := repeat c (n - List.length t) ++ t.
(** std::hex << std::setw(16) << std::setfill('0') << value, generate_cache.cpp:248, 264, 265 *)
Definition hex16 (v : Z) : list Z := padded 16 48 (unsigned_text 16 64 v).
(** std::ostream << of an int or a std::size_t, as at verify_cache_length.cpp:353 *)
Definition dec_text (v : Z) : list Z := if v <? 0 then 45 :: unsigned_text 10 64 (- v) else unsigned_text 10 64 v.

(** generate_cache.cpp:247-249 and 263-267: element_printer *)
Definition element_text (e : cache_entry) : list Z :=
  match e with
  | Cache64 v => text "0x" ++ hex16 v
  | Cache128 v => text "{ 0x" ++ hex16 (u128_high v) ++ text ", 0x" ++ hex16 (u128_low v) ++ text " }"
  end.
(** generate_cache.cpp:242 and 258: cache_type_name_string *)
Definition type_name (f : fmt) : string := match f with Binary32 => "std::uint64_t" | Binary64 => "uint128" end.
(** generate_cache.cpp:208-231: every entry but the last one is followed by a comma *)
Definition table_text (f : fmt) (entries : list cache_entry) : list Z :=
  text "static constexpr " ++ text (type_name f) ++ text " cache[] = {" ++
  List.concat (map (fun e => [10; 9] ++ element_text e ++ [44]) (removelast entries)) ++
  [10; 9] ++ element_text (last entries (Cache64 0)) ++ [10] ++ text "};".
(** generate_cache.cpp:235-268: the file written for one format *)
Definition generated_file (over : option Z) (cfg : config) (junk : nat -> nat -> Z) (f : fmt) : outcome (list Z) :=
  r <- generate_cache over cfg junk f ;; Ok (table_text f (fst r)).

(** verify_cache_length.cpp:352-354: on_each *)
Definition row_text (r : Z * Z) : list Z := dec_text (fst r) ++ [44] ++ dec_text (snd r) ++ [10].
(** verify_cache_length.cpp:361-363: one file *)
Definition rows_text (rows : list (Z * Z)) : list Z := text "e,required_bits" ++ [10] ++ List.concat (map row_text rows).
(** verify_cache_length.cpp:360-382: the four files *)
Definition length_files (cfg : config) (junk : nat -> Z -> nat -> nat -> nat -> nat -> Z) : outcome (list (list Z)) :=
  r <- verify_cache_length cfg junk ;; Ok (map (fun x => rows_text (fst x)) r).
