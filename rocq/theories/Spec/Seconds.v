(** Clock readings whose seconds are a real number. *)
From Coq Require Import ZArith Reals.
Open Scope Z_scope.

(** Accepted readings: hour, minute and seconds, seconds up to and including 60, not after 24:00:00. *)
Definition reading_accepted (h m : Z) (x : R) : Prop :=
  0 <= h /\ 0 <= m <= 59 /\ (0 <= x <= 60)%R /\ (h < 24 \/ h = 24 /\ m = 0 /\ x = 0%R).

(** [us] is [x] seconds to the microsecond: half a microsecond plus the slack [e] of one double
    multiplication. *)
Definition nearest_usecs (e : R) (x : R) (us : Z) : Prop :=
  (Rabs (IZR us - x * 1000000) <= 1/2 + e)%R.
