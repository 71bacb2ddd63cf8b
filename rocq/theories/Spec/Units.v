(** Calendar units: where a second, a month, a century ... starts; weeks and ISO weeks. *)
From Coq Require Import ZArith.
From Verif Require Import Model.Base Spec.Calendar Spec.Ranges Spec.Clock.
Open Scope Z_scope.

(** The instant [b] is the first instant of some [unit]. Years are astronomical (0 is 1 BC), so
    centuries start in the years 1, 101, ... and ... -99, -199 (100 BC, 200 BC). *)
Definition is_start (unit : date_unit) (b : Z) : Prop :=
  exists y m d h mi s us, reading (y, m, d) h mi s us b /\
    let midnight := h = 0 /\ mi = 0 /\ s = 0 /\ us = 0 in
    match unit with
    | MicroSec => True
    | MilliSec => us mod 1000 = 0
    | Second => us = 0
    | Minute => s = 0 /\ us = 0
    | Hour => mi = 0 /\ s = 0 /\ us = 0
    | Day => midnight
    | Month => d = 1 /\ midnight
    | Quarter => (m = 1 \/ m = 4 \/ m = 7 \/ m = 10) /\ d = 1 /\ midnight
    | Year => m = 1 /\ d = 1 /\ midnight
    | Decade => y mod 10 = 0 /\ m = 1 /\ d = 1 /\ midnight
    | Century => y mod 100 = 1 /\ m = 1 /\ d = 1 /\ midnight
    | Millennium => y mod 1000 = 1 /\ m = 1 /\ d = 1 /\ midnight
    | _ => False
    end.

(** [r] is the latest start of a [unit] not after [t]. *)
Definition latest_start (unit : date_unit) (t r : Z) : Prop :=
  is_start unit r /\ r <= t /\ forall b, is_start unit b -> b <= t -> b <= r.

(** Weekdays: 0 is Sunday, ..., 6 Saturday; 2000-01-01 (day 0) was a Saturday. *)
Definition weekday (n : Z) : Z := (n + 6) mod 7.

(** The Monday on or before day [n]. *)
Definition monday (n k : Z) : Prop := weekday k = 1 /\ k <= n < k + 7.

(** ISO 8601: the ISO year of day [n] is the calendar year of the Thursday of its week; weeks are
    counted from the one containing 4 January. *)
Definition iso_week (n iy w : Z) : Prop :=
  exists k, monday n k /\
    (exists m d, valid_ymd (iy, m, d) /\ day_number (iy, m, d) (k + 3)) /\
    (exists n4 k4, day_number (iy, 1, 4) n4 /\ monday n4 k4 /\ k = k4 + 7 * (w - 1)).

(** Every [coarse] unit consists of whole [fine] ones. Decades do not fit into centuries: those start
    in years ending in 1. *)
Definition unit_rank (u : date_unit) : Z :=
  match u with
  | MicroSec => 0 | MilliSec => 1 | Second => 2 | Minute => 3 | Hour => 4 | Day => 5 | Month => 6 | Quarter => 7
  | Year => 8 | Decade | Century => 9 | Millennium => 10 | _ => -1
  end.
Definition consists_of (coarse fine : date_unit) : Prop :=
  0 <= unit_rank fine <= unit_rank coarse /\ (unit_rank fine = 9 -> fine = coarse \/ fine = Century /\ coarse = Millennium).
