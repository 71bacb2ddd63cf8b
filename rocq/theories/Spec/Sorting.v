(** Sorting texts as a dictionary does, byte by byte. Used by C68. *)
From Coq Require Import ZArith List.
From Verif Require Import Spec.Calendar.
Import ListNotations.
Open Scope Z_scope.

Fixpoint sorts_before (a b : list Z) : Prop :=
  match a, b with
  | _, [] => False
  | [], _ :: _ => True
  | x :: a', y :: b' => x < y \/ x = y /\ sorts_before a' b'
  end.

(** A day number whose year (AD) is written with four digits. *)
Definition four_digit_year (n : Z) : Prop := exists y m d, valid_ymd (y, m, d) /\ day_number (y, m, d) n /\ 1 <= y <= 9999.
