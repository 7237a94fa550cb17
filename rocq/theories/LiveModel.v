(** * Executable model of the dialogue of tests/live_test.cpp

    The standard input is the list of its bytes, the screen the list of the bytes printed.  The program has no way to
    end, so that what is modelled is the screen after a given number of calls to std::getline. *)

From Coq Require Import ZArith List Bool String.
From Verif Require Import Machine Model CharsModel TestModel CheckModel FileModel.
Import ListNotations.
Open Scope list_scope.
Open Scope Z_scope.

(** live_test.cpp:56: the bytes before the next line end, and what follows it if there is one *)
Fixpoint split_line (input : list Z) : list Z * option (list Z) :=
  match input with
  | [] => ([], None)
  | c :: input => if c =? 10 then ([], Some input) else let (line, rest) := split_line input in (c :: line, rest)
  end.
(** std::getline, live_test.cpp:56: when the end of the input has been met the stream is not good any more and the
    string is left as it is.  The state is what is left of the input, None after its end. *)
Definition getline (stream : option (list Z)) (str : list Z) : option (list Z) * list Z :=
  match stream with
  | None => (None, str)
  | Some input => let (line, rest) := split_line input in (rest, line)
  end.

(** live_test.cpp:66 *)
Definition not_valid : list Z := text "Not a valid input; input again." ++ [10].
(** live_test.cpp:72-85: std::setfill is left in force, without effect where there is no std::setw *)
Definition live_answer (cfg : config) (f : fmt) (x : Z) (b : buffer) : outcome (list Z * buffer) :=
  xx <- decompose_float cfg f x ;;
  r <- fp_to_chars cfg f nearest_to_even tie_to_even x b ;;
  view <- string_view (fst r) ;;
  Ok (text "               sign: " ++ text (match fp_is_negative xx with Some true => "-" | _ => "+" end) ++ [10] ++
      text "           exponent: " ++ dec_text (fp_exponent xx) ++ [10] ++
      text "        significand: " ++ text "0x" ++ padded (match f with Binary32 => 8 | Binary64 => 16 end) 48 (unsigned_text 16 64 (fp_significand xx)) ++ [10] ++
      text " Grisu-Exact output: " ++ view ++ [10], fst r).

(** live_test.cpp:52-86: [calls] calls to std::getline.  [sto] is std::stof or std::stod, None when it throws.  The
    string is constructed again after every answer. *)
Fixpoint live_loop (cfg : config) (f : fmt) (sto : list Z -> option Z) (calls : nat) (stream : option (list Z)) (x_str : list Z) (b : buffer)
  : outcome (list Z) :=
  match calls with
  | O => Ok []
  | S calls =>
      let (stream, x_str) := getline stream x_str in
      match sto x_str with
      | None => t <- live_loop cfg f sto calls stream x_str b ;; Ok (not_valid ++ t)
      | Some x =>
          r <- live_answer cfg f x b ;;
          t <- live_loop cfg f sto calls stream [] (snd r) ;; Ok (fst r ++ t)
      end
  end.
(** live_test.cpp:89-96: live_test_float and live_test_double; [junk] is the contents of the uninitialised buffer *)
Definition live_test (cfg : config) (f : fmt) (sto : list Z -> option Z) (calls : nat) (input : list Z) (junk : Z -> Z) : outcome (list Z) :=
  t <- live_loop cfg f sto calls (Some input) [] (mk_buffer 41 junk) ;;
  Ok (text (match f with Binary32 => "[Start live test for float's]" | Binary64 => "[Start live test for double's]" end) ++ [10] ++ t).
