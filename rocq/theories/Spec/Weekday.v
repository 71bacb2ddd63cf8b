(** Words without effect on the value, for C64. *)
From Verif Require Import Model.Common Spec.Text Spec.Keywords Spec.DateWords.
From Coq Require Import List ZArith.
Import List ListNotations.
Open Scope Z_scope.

(** The name of a day of the week, in any letter case *)
Definition weekday_name (w : list Z) : Prop := exists word v, In (word, v) weekday_words /\ any_case w word.
(** "at" and "on" *)
Definition filler (w : list Z) : Prop := any_case w (bs "at") \/ any_case w (bs "on").
