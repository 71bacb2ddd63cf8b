(** Texts without long numbers and without certain words. Independent of the model. *)
From Coq Require Export ZArith List.
From Verif Require Import Spec.Text Spec.Lexing.
Import ListNotations.
Open Scope Z_scope.

(** No more than six digits in a row *)
Definition short_numbers (s : list Z) : Prop :=
  forall a d b, s = a ++ d ++ b -> Forall digit d -> (length d <= 6)%nat.

(** The word [w], given in lower case, stands in [s] in capitals, small letters or a mixture, with no
    letter directly before or after it. *)
Definition has_word (w s : list Z) : Prop :=
  exists a v b, s = a ++ v ++ b /\ List.map to_lower v = w
    /\ (a = [] \/ ~ letter (last a 0)) /\ match b with c :: _ => ~ letter c | [] => True end.
