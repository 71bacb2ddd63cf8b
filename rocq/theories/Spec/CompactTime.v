(** Times of day written without colons: "0405", "040506", "040506.789". Independent of the model's
    parser. *)
From Coq Require Export ZArith List Bool Lia.
From Verif Require Import Model.Base Spec.Text Spec.DateText Spec.TimeText Spec.DateWords Spec.Clock.
Import List ListNotations.
Open Scope Z_scope.

(** [compact_time t h mi s us]: the text [t] says h hours, mi minutes, s seconds and us microseconds.
    '.' is 46. *)
Inductive compact_time : list Z -> Z -> Z -> Z -> Z -> Prop :=
| CT_hm H M : two_digits H -> two_digits M ->
    compact_time (H ++ M) (digits_value H) (digits_value M) 0 0
| CT_hms H M S : two_digits H -> two_digits M -> two_digits S ->
    compact_time (H ++ M ++ S) (digits_value H) (digits_value M) (digits_value S) 0
| CT_hmsf H M S f : two_digits H -> two_digits M -> two_digits S -> fraction_digits f -> f <> [] ->
    compact_time (H ++ M ++ S ++ 46 :: f) (digits_value H) (digits_value M) (digits_value S) (micros f).

(** After a date nothing but the hour of an AM or PM is checked; larger numbers carry over. *)
Definition carried_clock (x : half) (h mi s us : Z) : option Z :=
  match x with
  | NoHalf => Some (clock h mi s us)
  | _ => match meant_hour x h with Some h' => Some (clock h' mi s us) | None => None end
  end.
