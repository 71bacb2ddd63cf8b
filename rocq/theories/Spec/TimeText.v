(** Times of day written by people: "h:m", "h:m:s", "h:m:s.f", "m:s.f", with an optional AM or PM.
    Independent of the model's parser. *)
From Coq Require Export ZArith List Bool Lia.
From Verif Require Import Model.Base Spec.Calendar Spec.Text Spec.DateText Spec.Clock.
Import ListNotations.
Open Scope Z_scope.

(** At most six digits after a decimal point, possibly none *)
Definition fraction_digits (f : list Z) : Prop := Forall digit f /\ (length f <= 6)%nat.
Definition micros (f : list Z) : Z := digits_value f * 10 ^ Z.of_nat (6 - length f).

(** [time_words t h mi s us]: the text [t] says h hours, mi minutes, s seconds and us microseconds.
    ':' is 58, '.' is 46. *)
Inductive time_words : list Z -> Z -> Z -> Z -> Z -> Prop :=
| TW_hm h m : short_digits h -> short_digits m ->
    time_words (h ++ 58 :: m) (digits_value h) (digits_value m) 0 0
| TW_hms h m s : short_digits h -> short_digits m -> short_digits s ->
    time_words (h ++ 58 :: m ++ 58 :: s) (digits_value h) (digits_value m) (digits_value s) 0
| TW_hmsf h m s f : short_digits h -> short_digits m -> short_digits s -> fraction_digits f ->
    time_words (h ++ 58 :: m ++ 58 :: s ++ 46 :: f) (digits_value h) (digits_value m) (digits_value s) (micros f)
| TW_msf m s f : short_digits m -> short_digits s -> fraction_digits f ->
    time_words (m ++ 58 :: s ++ 46 :: f) 0 (digits_value m) (digits_value s) (micros f).

(** AM and PM may follow directly or after a blank. *)
Inductive half := NoHalf | HalfAM (blank : bool) | HalfPM (blank : bool).
Definition gap (blank : bool) : list Z := if blank then [32] else [].
Definition half_text (x : half) : list Z :=
  match x with NoHalf => [] | HalfAM b => gap b ++ [65; 77] | HalfPM b => gap b ++ [80; 77] end.

(** The time of day meant, as microseconds after midnight; [None]: there is no such time. Second 60
    is allowed everywhere, and 24:00:00 is the end of the day. *)
Definition meant_hour (x : half) (h : Z) : option Z :=
  match x with
  | NoHalf => if h <=? 24 then Some h else None
  | HalfAM _ => if h <=? 12 then Some (h mod 12) else None
  | HalfPM _ => if h <=? 12 then Some (h mod 12 + 12) else None
  end.
Definition meant_clock (x : half) (h mi s us : Z) : option Z :=
  match meant_hour x h with
  | Some h' =>
      if (mi <=? 59) && (s <=? 60) && ((h' <? 24) || (mi =? 0) && (s =? 0) && (us =? 0))
      then Some (clock h' mi s us) else None
  | None => None
  end.
