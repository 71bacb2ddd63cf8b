(** Numeric dates written by people: three numbers with separators, in the session's order, with an
    optional era. Independent of the model's parser. *)
From Coq Require Export ZArith List Bool Lia.
From Verif Require Import Model.Base Spec.Calendar Spec.Text.
Import ListNotations.
Open Scope Z_scope.

Inductive era := Unmarked | MarkedAD | MarkedBC.
Definition era_text (e : era) : list Z :=
  match e with Unmarked => [] | MarkedAD => [32; 65; 68] | MarkedBC => [32; 66; 67] end.

Definition separator (c : Z) : Prop := c = 45 \/ c = 46 \/ c = 47.

(** A run of 1 to 9 digits *)
Definition short_digits (t : list Z) : Prop := Forall digit t /\ (1 <= length t <= 9)%nat.

(** Which of the three numbers is the year, the month and the day: the first one is the year if it
    has three digits or more, otherwise the order decides. *)
Definition reading (order : date_order) (A B C : list Z) : list Z * list Z * list Z :=
  if (3 <=? length A)%nat then (A, B, C)
  else match order with YMD => (A, B, C) | DMY => (C, B, A) | MDY => (C, A, B) end.

(** The astronomical year meant by the digits [Y]; [None]: there is no such year. *)
Definition meant_year (e : era) (Y : list Z) : option Z :=
  let y := digits_value Y in
  match e with
  | MarkedBC => if y =? 0 then None else Some (1 - y)
  | _ =>
      if (length Y <=? 2)%nat then Some (if y <? 70 then 2000 + y else 1900 + y)
      else if y =? 0 then None else Some y
  end.
