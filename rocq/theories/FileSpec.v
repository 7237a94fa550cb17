(** * What the files of test_results say, to a reader that knows nothing of the program

    A C++ array initialiser as a list of tokens, and a table of two columns of decimal integers. *)

From Coq Require Import ZArith List Bool Ascii String.
From Verif Require Import Machine Model TextSpec.
Import ListNotations.
Open Scope list_scope.
Open Scope Z_scope.

(** the bytes of a string of the Coq library *)
Definition bytes (s : string) : list Z := map (fun c => Z.of_N (N_of_ascii c)) (list_ascii_of_string s).

(** ** C++ tokens: hexadecimal literals, and everything else one character at a time, without white space *)
Inductive token := Literal (v : Z) | Character (c : Z).

Definition white (c : Z) : bool := (c =? 32) || (c =? 9) || (c =? 10).
(** the value of a hexadecimal digit, in lower case *)
Definition hex_digit (c : Z) : option Z :=
  if (48 <=? c) && (c <=? 57) then Some (c - 48) else if (97 <=? c) && (c <=? 102) then Some (c - 87) else None.
(** [open] is the literal being read; a literal starts with 0x (48 120) *)
Fixpoint tokens (open : option Z) (t : list Z) : list token :=
  match t with
  | [] => match open with Some v => [Literal v] | None => [] end
  | c :: t' =>
      let outside :=
        match t' with
        | d :: t'' => if (c =? 48) && (d =? 120) then tokens (Some 0) t''
                      else if white c then tokens None t' else Character c :: tokens None t'
        | [] => if white c then [] else [Character c]
        end in
      match open with
      | None => outside
      | Some v => match hex_digit c with
                  | Some d => tokens (Some (16 * v + d)) t'
                  | None => Literal v :: outside
                  end
      end
  end.

(** items with commas (44) between them *)
Fixpoint comma_separated (l : list (list token)) : list token :=
  match l with
  | [] => []
  | [x] => x
  | x :: l => x ++ Character 44 :: comma_separated l
  end.

(** ** What the initialiser of a table is *)

(** the words of the table fit in 64 bits *)
Definition holds (e : cache_entry) : Prop :=
  match e with
  | Cache64 v => 0 <= v < 2 ^ 64
  | Cache128 v => 0 <= u128_high v < 2 ^ 64 /\ 0 <= u128_low v < 2 ^ 64
  end.
(** one word as it is, two words in braces (123 and 125) *)
Definition entry_tokens (e : cache_entry) : list token :=
  match e with
  | Cache64 v => [Literal v]
  | Cache128 v => [Character 123; Literal (u128_high v); Character 44; Literal (u128_low v); Character 125]
  end.
(** what precedes the entries, without white space *)
Definition declaration (f : fmt) : list token :=
  map Character (bytes (match f with Binary32 => "staticconstexprstd::uint64_tcache[]={" | Binary64 => "staticconstexpruint128cache[]={" end)).
(** the declaration of a table: }; is 125 59 *)
Definition initialiser (f : fmt) (entries : list cache_entry) : list token :=
  declaration f ++ comma_separated (map entry_tokens entries) ++ [Character 125; Character 59].

(** ** Two columns *)

(** the pieces of a text between the characters [c] *)
Fixpoint pieces (c : Z) (t : list Z) : list (list Z) :=
  match t with
  | [] => [[]]
  | d :: t => match pieces c t with
              | [] => [[d]]
              | p :: l => if d =? c then [] :: p :: l else (d :: p) :: l
              end
  end.
(** one line: two integers with a comma between them *)
Definition read_row (line : list Z) : option (Z * Z) :=
  match pieces 44 line with
  | [a; b] => match read_integer a, read_integer b with Some a, Some b => Some (a, b) | _, _ => None end
  | _ => None
  end.
(** all the lines after the first one; the last one ends with a line end (10) *)
Definition read_rows (t : list Z) : list (option (Z * Z)) := map read_row (removelast (tl (pieces 10 t))).
