(** Texts without any digit: what they may mean. *)
From Verif Require Import Spec.Calendar Spec.Ranges Spec.Text.
From Coq Require Import List ZArith.
Open Scope Z_scope.

Definition no_digit (s : list Z) : Prop := Forall (fun c => ~ digit c) s.

(** Day 0 of the Julian day count, 24 November 4714 BC. *)
Definition julian_day_0 : Z := -2451545.

(** The last day of a month, where the month runs from November of 2 BC to November of 1 BC: "day zero" of the month
    after it. The year 0 is 1 BC. *)
Definition day_zero (n : Z) : Prop :=
  exists y m, (y = 0 /\ 1 <= m <= 12 \/ y = -1 /\ m = 12) /\ day_number (y, m, 1) (n + 1).

Definition midnight_or_noon (t : Z) : Prop := t = 0 \/ t = 43200000000.
