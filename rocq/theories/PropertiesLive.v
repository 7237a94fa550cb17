(** * Theorems: the dialogue of the live test *)

From Coq Require Import ZArith Reals List Bool String.
From Flocq Require Import Core.
From Verif Require Import Machine Model FileModel LiveModel Spec TextSpec FileSpec ProgramSpec LiveSpec Reader Claims LiveFacts.
Import ListNotations.
Open Scope list_scope.
Open Scope Z_scope.

(** ** C66: every line typed gets the right reaction, whatever std::stof and std::stod accept *)
Theorem C66_dialogue : forall cfg f sto calls input junk,
  (forall line x, sto line = Some x -> pattern f x) -> sto [] = None ->
  exists ts, live_test cfg f sto calls input junk = Ok (heading f ++ List.concat ts) /\
    Forall2 (reaction f sto) (firstn calls (pieces 10 input ++ repeat [] calls)) ts.
Proof. exact dialogue. Qed.
Print Assumptions C66_dialogue.

(** ** C67: the live test ends with its input.  It does not: whatever the input, after its end every further turn of
    the program prints the same message. *)
Theorem C67_end_refuted : forall cfg f sto calls input junk k,
  (forall line x, sto line = Some x -> pattern f x) -> sto [] = None ->
  (List.length (pieces 10 input) <= calls)%nat ->
  exists t, live_test cfg f sto calls input junk = Ok t /\
    live_test cfg f sto (calls + k) input junk = Ok (t ++ List.concat (repeat (bytes "Not a valid input; input again." ++ [10]) k)).
Proof. exact endless. Qed.
Print Assumptions C67_end_refuted.

(** std::stod on the texts that [read_text] understands *)
Definition some_sto (f : fmt) (line : list Z) : option Z :=
  match read_text line with Some (Number neg s e) => reader f (cond_Zopp neg s) e | _ => None end.
Example C66_example : (forall f line x, some_sto f line = Some x -> pattern f x) /\ (forall f, some_sto f [] = None) /\
  live_test debug_build Binary64 (some_sto Binary64) 3 (bytes "-3E-1" ++ [10] ++ bytes "abc" ++ [10]) (fun _ => 7) =
  Ok (bytes "[Start live test for double's]" ++ [10] ++
      bytes "               sign: -" ++ [10] ++
      bytes "           exponent: -65" ++ [10] ++
      bytes "        significand: 0x9999999999999800" ++ [10] ++
      bytes " Grisu-Exact output: -3E-1" ++ [10] ++
      bytes "Not a valid input; input again." ++ [10] ++
      bytes "Not a valid input; input again." ++ [10]) /\
  pieces 10 (bytes "-3E-1" ++ [10] ++ bytes "abc" ++ [10]) = [bytes "-3E-1"; bytes "abc"; []].
Proof.
  split; [|split; [intros []; reflexivity|]].
  - intros f line x. unfold some_sto. destruct (read_text line) as [[neg s e|neg|]|]; try discriminate. intros H.
    pose proof (reader_correct f (cond_Zopp neg s) e) as R. rewrite H in R. apply R.
  - split; vm_compute; reflexivity.
Qed.
