(** Texts of a single word, for C60. *)
From Verif Require Import Spec.Text Spec.Lexing Spec.DateWords.
From Coq Require Import List ZArith.
Import ListNotations.
Open Scope Z_scope.

(** [s] is the word [w], with white space around it and perhaps a sign before it. *)
Definition one_word (sign w s : list Z) : Prop :=
  Forall letter w /\ (1 <= length w <= 127)%nat /\ (sign = [] \/ sign = [43] \/ sign = [45])
  /\ exists b1 b2 b3, Forall white b1 /\ Forall white b2 /\ Forall white b3 /\ s = b1 ++ sign ++ b2 ++ w ++ b3.
