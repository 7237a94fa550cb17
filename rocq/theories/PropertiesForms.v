(** * Theorems: the form of the printed texts *)

From Coq Require Import ZArith Reals List Bool Lia Lra String.
From Flocq Require Import Core.
From Verif Require Import Machine Model CharsModel Spec TextSpec FileSpec UserSpec FormSpec Claims Reader Forms.
Import ListNotations.
Open Scope list_scope.
Open Scope Z_scope.

(** ** C69: every text printed for a finite nonzero number is [-]d[.ddd]E[-]nnn without superfluous zeros, and stands
    for the decimal of grisu_exact *)
Theorem C69_form : forall cfg f m crs x, input f x -> returns m f x = true ->
  exists r t, grisu_exact cfg f false m crs assert_finite x = Ok r /\ in_form t /\ stands_for t (decimal (signed f x r) (fp_exponent r)) /\
  (forall b, text_length t <= capacity b -> exists b', fp_to_chars_n cfg f m crs x b = Ok (b', text_length t) /\ written b 0 t b') /\
  (forall b, text_length t + 1 <= capacity b -> exists b', fp_to_chars cfg f m crs x b = Ok (b', text_length t) /\ written b 0 (t ++ [0]) b').
Proof. exact printed. Qed.
Print Assumptions C69_form.
(** a number has no more than one text in this form *)
Theorem C69_one_text : forall t t' v, in_form t -> in_form t' -> stands_for t v -> stands_for t' v -> t = t'.
Proof. exact one_text. Qed.
Print Assumptions C69_one_text.
(** a text in this form with up to 6 (float) or 15 (double) digits, read as a normal number, is printed again byte for byte *)
Theorem C69_short_texts : forall cfg f m crs x t v, in_form t -> stands_for t v -> digits_shown t <= dig f ->
  input f x -> normal f x -> minimal m f x = true -> read f m v = value f x ->
  (forall b, text_length t <= capacity b -> exists b', fp_to_chars_n cfg f m crs x b = Ok (b', text_length t) /\ written b 0 t b') /\
  (forall b, text_length t + 1 <= capacity b -> exists b', fp_to_chars cfg f m crs x b = Ok (b', text_length t) /\ written b 0 (t ++ [0]) b').
Proof. exact short_text. Qed.
Print Assumptions C69_short_texts.
(** and every such text with an exponent from -37 to 37 (float) or -307 to 307 (double) is printed for some number *)
Theorem C69_every_text : forall cfg f crs t neg s e, in_form t -> read_text t = Some (Number neg s e) -> digits_shown t <= dig f ->
  - whole_range f <= e + digits_shown t - 1 <= whole_range f ->
  exists x, input f x /\ read f nearest_to_even (decimal (cond_Zopp neg s) e) = value f x /\
    (forall b, text_length t <= capacity b -> exists b', fp_to_chars_n cfg f nearest_to_even crs x b = Ok (b', text_length t) /\ written b 0 t b') /\
    (forall b, text_length t + 1 <= capacity b -> exists b', fp_to_chars cfg f nearest_to_even crs x b = Ok (b', text_length t) /\ written b 0 (t ++ [0]) b').
Proof. exact every_text. Qed.
Print Assumptions C69_every_text.

(** the text -1.23456789012345E8, of the double 0xc19d6f34540ca42b; 1.50E0, 15E-1 and 1.5E00 are not in the form *)
Example C69_example : let t := bytes "-1.23456789012345E8"%string in
  in_form t /\ digits_shown t = dig Binary64 /\ read_text t = Some (Number true 123456789012345 (-6)) /\
  reader Binary64 (-123456789012345) (-6) = Some 0xc19d6f34540ca42b /\
  match fp_to_chars debug_build Binary64 nearest_to_even tie_to_even 0xc19d6f34540ca42b (mk_buffer 21 (fun _ => 7)) with
  | Ok (b, p) => p = 19 /\ map (byte_at b) [0;1;2;3;4;5;6;7;8;9;10;11;12;13;14;15;16;17;18;19;20] = t ++ [0; 7]
  | _ => False
  end.
Proof.
  cbv zeta. split; [|split; [|split; [|split]]]; [|vm_compute; reflexivity|vm_compute; reflexivity|vm_compute; reflexivity|vm_compute; split; reflexivity].
  exists true, 49, (bytes "23456789012345"%string), false, [56]. split; [reflexivity|]. unfold numeral, decimal_digit.
  split; [lia|]. split; [lia|]. split; [cbn; repeat (apply Forall_cons; [lia|]); apply Forall_nil|]. split; [vm_compute; discriminate|].
  split; [|discriminate]. split; [discriminate|]. split; [apply Forall_cons; [lia | apply Forall_nil]|]. cbn. lia.
Qed.
Example C69_not_in_form : ~ in_form (bytes "1.50E0"%string) /\ ~ in_form (bytes "15E-1"%string) /\ ~ in_form (bytes "1.5E00"%string).
Proof.
  split; [|split]; intros F.
  - apply (form_of_reading _ false 150 (-2)) in F; [|reflexivity]. destruct F as [_ M]. apply M. reflexivity.
  - apply (form_of_reading _ false 15 (-1)) in F; [|reflexivity]. destruct F as [E _]. vm_compute in E. discriminate E.
  - apply (form_of_reading _ false 15 (-1)) in F; [|reflexivity]. destruct F as [E _]. vm_compute in E. discriminate E.
Qed.
