(** Clock readings: what it means for a calendar day and a wall-clock time to denote an instant
    counted in microseconds from 2000-01-01 00:00. *)
From Coq Require Import ZArith.
From Verif Require Import Spec.Calendar Spec.Ranges.
Open Scope Z_scope.

Definition clock (h mi s us : Z) : Z := ((h * 60 + mi) * 60 + s) * 1000000 + us.

Definition clock_ok (h mi s us : Z) : Prop :=
  0 <= h < 24 /\ 0 <= mi < 60 /\ 0 <= s < 60 /\ 0 <= us < 1000000.

(** The instant [t] is the reading [h:mi:s.us] on the real calendar day [c]. *)
Definition reading (c : ymd) (h mi s us t : Z) : Prop :=
  valid_ymd c /\ clock_ok h mi s us /\
  exists n, day_number c n /\ t = n * usecs_day + clock h mi s us.
