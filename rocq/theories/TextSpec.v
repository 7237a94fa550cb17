(** * Texts of decimal numbers

    What a text means (a reader) and which text is expected (a writer), on lists of byte values;
    nothing here depends on how fp_to_chars works (of CharsModel only the memory [buffer] is used). *)

From Coq Require Import ZArith List Bool.
From Flocq Require Import Core.
From Verif Require Import Machine Model CharsModel Spec.
Import ListNotations.
Open Scope Z_scope.

(** ** Reading *)
Inductive meaning :=
| Number (neg : bool) (s e : Z)   (* (-1)^neg * s * 10^e *)
| Infinity (neg : bool)
| NaN.

Definition is_digit (c : Z) : bool := (48 <=? c) && (c <=? 57).
(** Reads the digits at the start of a text: the number [acc] continued by them, how many they are, and the rest. *)
Fixpoint read_digits (acc : Z) (t : list Z) : Z * Z * list Z :=
  match t with
  | c :: t' =>
      if is_digit c then let '(v, n, rest) := read_digits (10 * acc + (c - 48)) t' in (v, n + 1, rest)
      else (acc, 0, t)
  | [] => (acc, 0, [])
  end.
(** an optional minus sign (45 is '-') *)
Definition read_sign (t : list Z) : bool * list Z :=
  match t with c :: t' => if c =? 45 then (true, t') else (false, t) | [] => (false, []) end.
(** [digits] or [digits . digits] with digits on both sides (46 is '.'): the number without its point and the
    number of digits after the point *)
Definition read_mantissa (t : list Z) : option (Z * Z * list Z) :=
  let '(v, n, t) := read_digits 0 t in
  if n =? 0 then None
  else match t with
       | c :: t' =>
           if c =? 46 then let '(v, n, t) := read_digits v t' in if n =? 0 then None else Some (v, n, t)
           else Some (v, 0, t)
       | [] => Some (v, 0, [])
       end.
(** a signed integer up to the end of the text *)
Definition read_integer (t : list Z) : option Z :=
  let '(neg, t) := read_sign t in
  let '(v, n, t) := read_digits 0 t in
  if n =? 0 then None else match t with [] => Some (cond_Zopp neg v) | _ => None end.
(** [-]mantissa E integer (69 is 'E'), [-]Infinity, or NaN *)
Definition read_text (t : list Z) : option meaning :=
  let '(neg, u) := read_sign t in
  if list_eq_dec Z.eq_dec t [78; 97; 78] then Some NaN
  else if list_eq_dec Z.eq_dec u [73; 110; 102; 105; 110; 105; 116; 121] then Some (Infinity neg)
  else match read_mantissa u with
       | Some (v, n, c :: rest) =>
           if c =? 69 then
             match read_integer rest with
             | Some e => Some (Number neg v (e - n))
             | None => None
             end
           else None
       | _ => None
       end.

(** ** Writing *)

(** the last [n] decimal digits of [s], as characters *)
Fixpoint last_digits (n : nat) (s : Z) : list Z :=
  match n with
  | O => []
  | S n => last_digits n (s / 10) ++ [48 + s mod 10]
  end.
(** a nonnegative integer without superfluous zeros *)
Definition integer_text (s : Z) : list Z := if s =? 0 then [48] else last_digits (Z.to_nat (digits s)) s.
(** a point after the first of several digits *)
Definition pointed (t : list Z) : list Z :=
  match t with
  | d :: ((_ :: _) as rest) => d :: 46 :: rest
  | _ => t
  end.
(** the scientific notation of (-1)^neg * s * 10^e *)
Definition scientific (neg : bool) (s e : Z) : list Z :=
  (if neg then [45] else []) ++ pointed (integer_text s) ++ [69] ++
  (let x := e + digits s - 1 in if x <? 0 then 45 :: integer_text (- x) else integer_text x).
Definition text_length (t : list Z) : Z := Z.of_nat (length t).

(** most characters fp_to_chars_n may write *)
Definition max_text (f : fmt) : Z := match f with Binary32 => 15 | Binary64 => 24 end.

(** [b'] is [b] with [t] written at [p] and no other byte changed. *)
Definition written (b : buffer) (p : Z) (t : list Z) (b' : buffer) : Prop :=
  capacity b' = capacity b /\ forall j, byte_at b' j = if (p <=? j) && (j <? p + text_length t) then nth (Z.to_nat (j - p)) t 0 else byte_at b j.
