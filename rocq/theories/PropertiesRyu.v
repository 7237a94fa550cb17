(** * Properties of the bundled Ryu and of the program comparing with it

    Every theorem is closed by [exact] of a lemma proved elsewhere; the assumptions of each are
    printed beneath it, and an [Example] beside it shows a concrete case meeting its hypotheses.
    [ryu_buffered rc f x b] is f2s_buffered or d2s_buffered called on the bit pattern [x] and the buffer [b]. *)

From Coq Require Import ZArith Reals List Bool.
From Flocq Require Import Core.
From Verif Require Import Machine Model CharsModel Spec TextSpec RyuModel TestModel RyuClaims.
Import ListNotations.
Open Scope Z_scope.

(** a 32-bit debug build without 128-bit integers, with the full table for float *)
Definition odd_build : ryu_config := mk_ryu (mk_config MulPortable CtzMask false false) true true.
Definition plain_build : config := mk_config MulInt128 CtzBuiltin true true.

(** ** C47: for every bit pattern the default fp_to_chars and Ryu write the same string *)
Theorem C47_same_string : forall rc cfg f x, pattern f x -> exists t, text_length t <= max_text f /\
  forall b1 b2, max_text f + 1 <= capacity b1 -> max_text f + 1 <= capacity b2 ->
  exists b1' b2', fp_to_chars cfg f nearest_to_even tie_to_even x b1 = Ok (b1', text_length t) /\
    ryu_buffered rc f x b2 = Ok (b2', text_length t) /\ capacity b1' = capacity b1 /\ capacity b2' = capacity b2 /\
    string_view b1' = Ok t /\ string_view b2' = Ok t.
Proof. exact same_string. Qed.
Print Assumptions C47_same_string.
Theorem C47_same_text : forall rc cfg f x, pattern f x -> exists t, text_length t <= max_text f /\
  (forall b, text_length t <= capacity b ->
     exists b', fp_to_chars_n cfg f nearest_to_even tie_to_even x b = Ok (b', text_length t) /\ written b 0 t b') /\
  (forall b, text_length t <= capacity b ->
     exists b', ryu_buffered_n rc f x b = Ok (b', text_length t) /\ written b 0 t b').
Proof. exact same_text_n. Qed.
Print Assumptions C47_same_text.
(** the test program reports success whatever the inputs *)
Theorem C47_test : forall rc cfg f xs junk1 junk2, (forall x, In x xs -> pattern f x) ->
  uniform_random_test rc cfg f xs junk1 junk2 = Ok true.
Proof. exact test_succeeds. Qed.
Print Assumptions C47_test.
(** 2^53 + 2: 9.007199254740994E15 *)
Example C47_example : pattern Binary64 0x4340000000000001 /\
  (r <- ryu_buffered odd_build Binary64 0x4340000000000001 (mk_buffer 25 (fun _ => 7)) ;; string_view (fst r))
  = Ok [57; 46; 48; 48; 55; 49; 57; 57; 50; 53; 52; 55; 52; 48; 57; 57; 52; 69; 49; 53] /\
  uniform_random_test odd_build plain_build Binary64 [0; 1; 0x4340000000000001; 0x7ff0000000000001; 0xfff0000000000000] (fun _ => 7) (fun _ => 8) = Ok true.
Proof. split; [split; vm_compute; congruence|]. split; vm_compute; reflexivity. Qed.

(** ** C48: what Ryu prints is a shortest decimal reading back, closest among these, with ties to even *)
Theorem C48_ryu : forall rc f x, input f x -> exists t s e,
  read_text t = Some (Number (negative f x) s e) /\
  reads_back f nearest_to_even x (cond_Zopp (negative f x) s) e /\
  (forall s' e', reads_back f nearest_to_even x s' e' -> digits s <= digits s') /\
  closest f nearest_to_even x (cond_Zopp (negative f x) s) e /\
  breaks_ties tie_to_even f nearest_to_even x (cond_Zopp (negative f x) s) e /\
  forall b, text_length t + 1 <= capacity b -> exists b', ryu_buffered rc f x b = Ok (b', text_length t) /\ written b 0 (t ++ [0]) b'.
Proof. exact ryu_meaning. Qed.
Print Assumptions C48_ryu.
(** the largest float, negated: -3.4028235E38 *)
Example C48_example : input Binary32 0xff7fffff /\
  (r <- ryu_buffered odd_build Binary32 0xff7fffff (mk_buffer 16 (fun _ => 7)) ;; string_view (fst r))
  = Ok [45; 51; 46; 52; 48; 50; 56; 50; 51; 53; 69; 51; 56].
Proof. split; [apply Claims.input_check; reflexivity | vm_compute; reflexivity]. Qed.

(** ** C49: the buffers f2s and d2s allocate are large enough, and no zero byte is written before the end *)
Theorem C49_allocated : forall rc f x, pattern f x -> exists t, text_length t <= max_text f /\ ~ In 0 t /\
  forall junk, exists b', ryu_allocated rc f x junk = Ok (b', text_length t) /\
    written (mk_buffer (max_text f + 1) junk) 0 (t ++ [0]) b'.
Proof. exact allocated. Qed.
Print Assumptions C49_allocated.
(** -2.2250738585072014E-308 takes the 25 bytes; with 24 the terminating zero has no room *)
Example C49_example : pattern Binary64 0x8010000000000000 /\
  (r <- ryu_allocated odd_build Binary64 0x8010000000000000 (fun _ => 7) ;; Ok (snd r)) = Ok 24 /\
  ryu_buffered odd_build Binary64 0x8010000000000000 (mk_buffer 24 (fun _ => 7)) = Undefined.
Proof. split; [split; vm_compute; congruence|]. split; vm_compute; reflexivity. Qed.
