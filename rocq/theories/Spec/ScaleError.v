(** The length of an interval as a real number, for error bounds. *)
From Coq Require Import ZArith Reals.
From Verif Require Import Model.DateTime.
Open Scope R_scope.

(** The length in microseconds, with months of 30 days and days of 24 hours; the size adds the
    absolute values of the three fields, so that fields of opposite signs do not cancel. *)
Definition micros (a : interval) : R :=
  (30 * IZR (iv_month a) + IZR (iv_day a)) * 86400000000 + IZR (iv_time a).
Definition size (a : interval) : R :=
  (30 * Rabs (IZR (iv_month a)) + Rabs (IZR (iv_day a))) * 86400000000 + Rabs (IZR (iv_time a)).
(** The fields of the interval, each multiplied by [k], stay within the range of the types. *)
Definition scales_within (a : interval) (k : R) : Prop :=
  Rabs (IZR (iv_month a) * k) <= 2147483000 /\ Rabs (IZR (iv_day a) * k) <= 2147483000
  /\ Rabs (IZR (iv_time a) * k) <= 9100000000000000000.
(** [b] is [a] scaled by [k]: the length is right within 43.22 milliseconds and one part in
    2 * 10^15 of the size, no month is gained, and at most 37 days of each field move to or from
    the other fields. *)
Definition scaled_by (k : R) (a b : interval) : Prop :=
  Rabs (micros b - k * micros a) <= 43220 + size a * Rabs k / 2000000000000000
  /\ Rabs (IZR (iv_month b) - IZR (iv_month a) * k) <= 1 + / 1000000
  /\ Rabs (IZR (iv_day b) - IZR (iv_day a) * k) <= 37.
