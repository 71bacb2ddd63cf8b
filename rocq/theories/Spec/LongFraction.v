(** Seconds written with more than six digits after the point. Independent of the model's parser. *)
From Coq Require Export ZArith List.
From Verif Require Import Spec.Text Spec.DateText.
Import ListNotations.
Open Scope Z_scope.

(** What stands before the decimal point: "h:m:s" or "m:s". ':' is 58. *)
Inductive clock_prefix : list Z -> Prop :=
| CP_hms h m s : short_digits h -> short_digits m -> short_digits s -> clock_prefix (h ++ 58 :: m ++ 58 :: s)
| CP_ms m s : short_digits m -> short_digits s -> clock_prefix (m ++ 58 :: s).

(** The six digits [g] are nearest to the seven digits [f]. *)
Definition nearest_micros (f g : list Z) : Prop :=
  length f = 7%nat /\ length g = 6%nat /\ Forall digit f /\ Forall digit g /\ Z.abs (10 * digits_value g - digits_value f) <= 5.
