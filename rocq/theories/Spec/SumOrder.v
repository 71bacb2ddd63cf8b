(** Sums of an instant and an interval as the calendar has them. Used by C69. *)
From Coq Require Import ZArith.
From Verif Require Import Spec.Calendar Spec.Ranges Spec.Clock Spec.Shift.
Open Scope Z_scope.

(** From [t] first months, then days, then microseconds, never leaving the range of timestamps. *)
Definition calendar_sum (t months days time r : Z) : Prop :=
  exists c h mi s us t1, reading c h mi s us t /\ reading (add_months c months) h mi s us t1 /\
    valid_ts t /\ valid_ts t1 /\ valid_ts (t1 + days * usecs_day) /\ valid_ts r /\ r = t1 + days * usecs_day + time.

(** The day of the month of [t] *)
Definition month_day (t d : Z) : Prop := exists y m h mi s us, reading (y, m, d) h mi s us t.
