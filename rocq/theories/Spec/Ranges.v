(** Supported ranges, in plain numbers. *)
From Coq Require Import ZArith.
From Verif Require Import Spec.Calendar.
Open Scope Z_scope.

(** Days since 2000-01-01 of the supported dates (24 Nov 4714 BC .. 31 Dec 5874897). *)
Definition valid_date (n : Z) : Prop := -2451545 <= n <= 2145031948.

(** Microseconds since 2000-01-01 00:00 of the supported timestamps
    (24 Nov 4714 BC 00:00 .. before 1 Jan 294277). *)
Definition valid_ts (t : Z) : Prop := -211813488000000000 <= t < 9223371331200000000.

Definition usecs_day : Z := 86400000000.

(** Dates strictly before 294277-01-01 (convertible to timestamps). *)
Definition ts_date (n : Z) : Prop := -2451545 <= n < 106751983.

Definition pos_inf_date : Z := 2147483647.
Definition neg_inf_date : Z := -2147483648.
Definition pos_inf_ts : Z := 9223372036854775807.
Definition neg_inf_ts : Z := -9223372036854775808.
