(** Calendar distance between two instants, [late] not before [early]: whole months, then days
    and clock time, borrowing a month as long as the earlier instant's. *)
From Coq Require Import ZArith.
From Verif Require Import Model.Base Model.Common Spec.Calendar Spec.Ranges Spec.Clock.
Open Scope Z_scope.

Definition calendar_distance (late early : Z) (r : interval) : Prop :=
  exists y1 m1 d1 h1 mi1 s1 us1 y2 m2 d2 h2 mi2 s2 us2,
    reading (y1, m1, d1) h1 mi1 s1 us1 late /\ reading (y2, m2, d2) h2 mi2 s2 us2 early /\
    let months := 12 * (y1 - y2) + (m1 - m2) in
    let rest := (d1 - d2) * usecs_day + (clock h1 mi1 s1 us1 - clock h2 mi2 s2 us2) in
    0 <= iv_time r < usecs_day /\ 0 <= iv_day r /\
    (if rest <? 0
     then iv_month r = months - 1 /\
          iv_day r * usecs_day + iv_time r = rest + month_len y2 m2 * usecs_day
     else iv_month r = months /\ iv_day r * usecs_day + iv_time r = rest).
