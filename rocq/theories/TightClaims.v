(** * The bounds are reached *)

From Coq Require Import ZArith List Bool Lia.
From Verif Require Import Machine Model CharsModel Spec TextSpec Claims UserSpec Chars Outputs Tight Overrun.
Import ListNotations.
Open Scope Z_scope.

Lemma exact_ranges cfg f rs m crs h x : input f x -> returns m f x = true -> exists r, grisu_exact cfg f rs m crs h x = Ok r /\
  0 < fp_significand r /\ digits (fp_significand r) <= max_digits f /\
  match f with Binary32 => -45 | Binary64 => -324 end <= fp_exponent r + digits (fp_significand r) - 1 <= match f with Binary32 => 38 | Binary64 => 308 end.
Proof. intros Hin Hr. destruct (tight_ranges cfg f rs m crs h x Hin Hr) as (r & E & A & B & C). exists r. repeat split; try assumption; destruct f; apply C. Qed.

(** the longest text, the least and the greatest positive number *)
Definition longest (f : fmt) : Z := match f with Binary32 => 0xa87cc1e4 | Binary64 => 0x8010000000000000 end.
Definition greatest_finite (f : fmt) : Z := match f with Binary32 => 0x7f7fffff | Binary64 => 0x7fefffffffffffff end.
Definition decided (o : outcome fp_t) (ok : fp_t -> bool) : bool := match o with Ok r => ok r | _ => false end.
Lemma decided_some cfg f rs h x ok : decided (grisu_exact debug_build f rs nearest_to_even tie_to_even h x) ok = true ->
  exists r, grisu_exact cfg f rs nearest_to_even tie_to_even h x = Ok r /\ ok r = true.
Proof.
  intros D. destruct (grisu_exact debug_build f rs nearest_to_even tie_to_even h x) as [r| | |] eqn:E; cbn [decided] in D; try discriminate.
  exists r. split; [exact (debug_decides debug_build cfg f rs nearest_to_even tie_to_even h x r eq_refl E) | exact D].
Qed.
Definition sci_is (e : Z) (r : fp_t) : bool := fp_exponent r + digits (fp_significand r) - 1 =? e.
Definition long (f : fmt) (r : fp_t) : bool := digits (fp_significand r) =? max_digits f.
Lemma ranges_reached cfg f rs h : exists x1 x2 x3 r1 r2 r3,
  input f x1 /\ grisu_exact cfg f rs nearest_to_even tie_to_even h x1 = Ok r1 /\ digits (fp_significand r1) = max_digits f /\
  input f x2 /\ grisu_exact cfg f rs nearest_to_even tie_to_even h x2 = Ok r2 /\
    fp_exponent r2 + digits (fp_significand r2) - 1 = match f with Binary32 => -45 | Binary64 => -324 end /\
  input f x3 /\ grisu_exact cfg f rs nearest_to_even tie_to_even h x3 = Ok r3 /\
    fp_exponent r3 + digits (fp_significand r3) - 1 = match f with Binary32 => 38 | Binary64 => 308 end.
Proof.
  destruct (decided_some cfg f rs h (longest f) (long f)) as (r1 & E1 & D1); [destruct f, rs, h; vm_compute; reflexivity|].
  destruct (decided_some cfg f rs h 1 (sci_is (match f with Binary32 => -45 | Binary64 => -324 end))) as (r2 & E2 & D2); [destruct f, rs, h; vm_compute; reflexivity|].
  destruct (decided_some cfg f rs h (greatest_finite f) (sci_is (match f with Binary32 => 38 | Binary64 => 308 end))) as (r3 & E3 & D3); [destruct f, rs, h; vm_compute; reflexivity|].
  exists (longest f), 1, (greatest_finite f), r1, r2, r3.
  split; [apply input_check; destruct f; reflexivity|]. split; [exact E1|]. split; [apply Z.eqb_eq, D1|].
  split; [apply input_check; destruct f; reflexivity|]. split; [exact E2|]. split; [apply Z.eqb_eq, D2|].
  split; [apply input_check; destruct f; reflexivity|]. split; [exact E3|]. apply Z.eqb_eq, D3.
Qed.

Definition plenty : buffer := mk_buffer 31 (fun _ => 0).
Definition ended (o : outcome (buffer * Z)) (n : Z) : bool := match o with Ok (_, p) => p =? n | _ => false end.
Lemma longest_length cfg f b : capacity b < max_text f -> fp_to_chars_n cfg f nearest_to_even tie_to_even (longest f) b = Undefined.
Proof.
  intros Hb. assert (P : pattern f (longest f)) by (destruct f; split; reflexivity || discriminate).
  destruct (exact_size cfg f nearest_to_even tie_to_even (longest f) P (fun _ => eq_refl)) as (t & L & W & S & _). apply S.
  destruct (W plenty) as (b' & E & _); [destruct f; cbn [plenty capacity max_text] in *; lia|].
  assert (N : ended (fp_to_chars_n cfg f nearest_to_even tie_to_even (longest f) plenty) (max_text f) = true).
  { clear. destruct cfg as [[] [] [] []], f; vm_compute; reflexivity. }
  rewrite E in N. apply Z.eqb_eq in N. lia.
Qed.
Lemma smallest_buffer cfg f b :
  ((forall x, pattern f x -> fp_to_chars_n cfg f nearest_to_even tie_to_even x b <> Undefined) <-> max_text f <= capacity b) /\
  ((forall x, pattern f x -> fp_to_chars cfg f nearest_to_even tie_to_even x b <> Undefined) <-> max_text f + 1 <= capacity b).
Proof.
  assert (P : pattern f (longest f)) by (destruct f; split; reflexivity || discriminate).
  assert (L : forall c, capacity c < max_text f + 1 -> fp_to_chars cfg f nearest_to_even tie_to_even (longest f) c = Undefined).
  { intros c Hc. destruct (exact_size cfg f nearest_to_even tie_to_even (longest f) P (fun _ => eq_refl)) as (t & L & W & S & _ & S'). apply S'.
    destruct (Z_lt_le_dec (text_length t) (max_text f)) as [T|T]; [|lia]. exfalso.
    destruct (W (mk_buffer (text_length t) (fun _ => 0)) (Z.le_refl _)) as (b' & E & _). rewrite longest_length in E by exact T. discriminate. }
  split; split.
  - intros H. destruct (Z_lt_le_dec (capacity b) (max_text f)) as [C|C]; [|exact C]. destruct (H (longest f) P (longest_length cfg f b C)).
  - intros H x Hx. destruct (exact_size cfg f nearest_to_even tie_to_even x Hx (fun _ => eq_refl)) as (t & T & W & _).
    destruct (W b ltac:(lia)) as (b' & E & _). rewrite E. discriminate.
  - intros H. destruct (Z_lt_le_dec (capacity b) (max_text f + 1)) as [C|C]; [|exact C]. destruct (H (longest f) P (L b C)).
  - intros H x Hx. destruct (exact_size cfg f nearest_to_even tie_to_even x Hx (fun _ => eq_refl)) as (t & T & _ & _ & W & _).
    destruct (W b ltac:(lia)) as (b' & E & _). rewrite E. discriminate.
Qed.
