(** * Executable model of tests/uniform_random_test.cpp

    The inputs come from the random generator: here they are any list of bit patterns. *)

From Coq Require Import ZArith List Bool.
From Verif Require Import Machine Model CharsModel RyuModel.
Import ListNotations.
Open Scope Z_scope.

(** std::string_view(char const* ): the bytes from [p] up to the first zero byte.  Reading outside the buffer is
    undefined. *)
(** uniform_random_test.cpp:43-44 *)
Fixpoint c_string (fuel : nat) (b : buffer) (p : Z) : outcome (list Z) :=
  match fuel with
  | O => Diverged
  | S fuel =>
      if (0 <=? p) && (p <? capacity b) then
        if byte_at b p =? 0 then Ok [] else t <- c_string fuel b (p + 1) ;; Ok (byte_at b p :: t)
      else Undefined
  end.
(** uniform_random_test.cpp:43-44: no more turns than bytes *)
Definition string_view (b : buffer) : outcome (list Z) := c_string (S (Z.to_nat (capacity b))) b 0.

(** tests/uniform_random_test.cpp:34-50: one iteration on the input [x]; the flag is [succeeded] *)
Definition uniform_random_step (rc : ryu_config) (cfg : config) (f : fmt) (x : Z) (st : buffer * buffer * bool)
  : outcome (buffer * buffer * bool) :=
  let '(buffer1, buffer2, succeeded) := st in
  r1 <- fp_to_chars cfg f nearest_to_even tie_to_even x buffer1 ;;
  r2 <- ryu_buffered rc f x buffer2 ;;
  view1 <- string_view (fst r1) ;;
  view2 <- string_view (fst r2) ;;
  Ok (fst r1, fst r2, if list_eq_dec Z.eq_dec view1 view2 then succeeded else false).
(** uniform_random_test.cpp:31-51 *)
Fixpoint uniform_random_loop (rc : ryu_config) (cfg : config) (f : fmt) (xs : list Z) (st : buffer * buffer * bool) : outcome bool :=
  match xs with
  | [] => let '(_, _, succeeded) := st in Ok succeeded
  | x :: xs => st <- uniform_random_step rc cfg f x st ;; uniform_random_loop rc cfg f xs st
  end.
(** uniform_random_test.cpp:24-57: whether success is reported; [junk1] and [junk2] are the contents of the two uninitialised buffers *)
Definition uniform_random_test (rc : ryu_config) (cfg : config) (f : fmt) (xs : list Z) (junk1 junk2 : Z -> Z) : outcome bool :=
  uniform_random_loop rc cfg f xs (mk_buffer 41 junk1, mk_buffer 41 junk2, true).
