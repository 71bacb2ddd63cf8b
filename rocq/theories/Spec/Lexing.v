(** Texts as sequences of bytes, white space and words. Independent of the model. *)
From Coq Require Export ZArith List Bool Lia.
From Verif Require Import Spec.Text.
Import ListNotations.
Open Scope Z_scope.

(** ASCII white space: space, tab, line feed, form feed, carriage return *)
Definition white (c : Z) : Prop := c = 32 \/ c = 9 \/ c = 10 \/ c = 12 \/ c = 13.
Definition letter (c : Z) : Prop := 65 <= c <= 90 \/ 97 <= c <= 122.

(** [s] has [n] bytes that are not white space *)
Inductive significant : list Z -> nat -> Prop :=
  | sg_nil : significant [] 0
  | sg_white c s n : white c -> significant s n -> significant (c :: s) n
  | sg_solid c s n : ~ white c -> significant s n -> significant (c :: s) (S n).

(** Only letters or only digits *)
Definition plain_word (w : list Z) : Prop := w <> [] /\ (Forall letter w \/ Forall digit w).

(** [s] is made of the words [ws], apart from each other by white space *)
Inductive spaced : list (list Z) -> list Z -> Prop :=
  | sp_nil b : Forall white b -> spaced [] b
  | sp_cons b w ws s : Forall white b -> plain_word w -> spaced ws s ->
      (ws = [] \/ exists c r, s = c :: r /\ white c) -> spaced (w :: ws) (b ++ w ++ s).

Definition total_length (ws : list (list Z)) : nat := list_sum (List.map (@length Z) ws).

(** ASCII punctuation *)
Definition punctuation (c : Z) : Prop :=
  33 <= c <= 47 \/ 58 <= c <= 64 \/ 91 <= c <= 96 \/ 123 <= c <= 126.

(** The last byte that is not white space is a sign. *)
Definition ends_with_sign (s : list Z) : Prop :=
  exists a c w, s = a ++ c :: w /\ (c = 43 \/ c = 45) /\ Forall white w.

(** The text ends with a letter "t" standing by itself, perhaps followed by white space and
    punctuation. *)
Definition ends_with_t (s : list Z) : Prop :=
  exists a c w, s = a ++ c :: w /\ (c = 84 \/ c = 116) /\ Forall (fun z => white z \/ punctuation z) w
    /\ (a = [] \/ ~ letter (last a 0)).

(** Lower case of ASCII *)
Definition to_lower (c : Z) : Z := if (65 <=? c) && (c <=? 90) then c + 32 else c.

(** Bytes that may continue a word such as "mar-1" *)
Definition word_byte (c : Z) : Prop :=
  letter c \/ digit c \/ c = 43 \/ c = 45 \/ c = 47 \/ c = 95 \/ c = 46 \/ c = 58.

(** A capital comes after a letter and a byte among "+", "-", "/", "." and the digits, in one word:
    "at-1MAR". *)
Definition late_capital (s : list Z) : Prop :=
  exists a l x p u b, s = a ++ l :: x :: p ++ u :: b /\ letter l
    /\ (digit x \/ x = 43 \/ x = 45 \/ x = 47 \/ x = 46) /\ Forall word_byte p /\ 65 <= u <= 90.

(** Two texts that differ only in the amount and kind of white space: runs of white space correspond
    to runs of white space, and there may be any at the end (except directly after a "."). *)
Inductive respaced : list Z -> list Z -> Prop :=
  | rs_end w w' : Forall white w -> Forall white w' -> respaced w w'
  | rs_run w w' s s' : Forall white w -> Forall white w' -> w <> [] -> w' <> [] ->
      respaced s s' -> respaced (w ++ s) (w' ++ s')
  | rs_byte c s s' : respaced s s' -> (c = 46 -> (s = [] <-> s' = [])) -> respaced (c :: s) (c :: s').
