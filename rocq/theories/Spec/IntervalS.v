(** Independent vocabulary for intervals: an interval is (months, days, microseconds). *)
From Coq Require Import ZArith.
From Verif Require Import Model.Base Spec.Ranges.
Open Scope Z_scope.

(** What the three machine fields can hold. *)
Definition fields_ok (i : interval) : Prop :=
  in_i32 (iv_month i) /\ in_i32 (iv_day i) /\ in_i64 (iv_time i).

(** Length in microseconds when a month counts 30 days and a day 24 hours. *)
Definition span (months days time : Z) : Z := (months * 30 + days) * usecs_day + time.
Definition span_of (i : interval) : Z := span (iv_month i) (iv_day i) (iv_time i).

(** Not of opposite (strict) signs. *)
Definition agree (a b : Z) : Prop := ~ (0 < a /\ b < 0) /\ ~ (a < 0 /\ 0 < b).

(** [r] is [v] rounded to the nearest multiple of [u], ties away from zero. *)
Definition rounded (u v r : Z) : Prop :=
  exists k, r = k * u /\ 2 * Z.abs (v - r) <= u /\
    (2 * Z.abs (v - r) = u -> Z.abs v < Z.abs r).

(** [r] is [v] truncated toward zero to a multiple of [u]. *)
Definition toward_zero (u v r : Z) : Prop :=
  exists k, r = k * u /\ Z.abs r <= Z.abs v < Z.abs r + u /\ agree r v.

(** The interval qualifiers of the public typmod argument and their codes: one bit per field
    (month 2, year 4, day 8, hour 1024, minute 2048, second 4096); 32767 means no restriction.
    A typmod is [code * 65536 + precision], precision 65535 meaning full. *)
Inductive irange :=
| RFull | RYear | RMonth | RYearMonth | RDay | RHour | RMinute | RSecond | RDayHour | RDayMinute
| RDaySecond | RHourMinute | RHourSecond | RMinuteSecond.

Definition range_code (r : irange) : Z :=
  match r with
  | RFull => 32767 | RYear => 4 | RMonth => 2 | RYearMonth => 4 + 2 | RDay => 8
  | RHour => 1024 | RMinute => 2048 | RSecond => 4096 | RDayHour => 8 + 1024
  | RDayMinute => 8 + 1024 + 2048 | RDaySecond => 8 + 1024 + 2048 + 4096
  | RHourMinute => 1024 + 2048 | RHourSecond => 1024 + 2048 + 4096 | RMinuteSecond => 2048 + 4096
  end.

(** [b] is [a] restricted to the fields down to the last one of the qualifier. *)
Definition restricted (r : irange) (a b : interval) : Prop :=
  match r with
  | RFull | RSecond | RDaySecond | RHourSecond | RMinuteSecond => b = a
  | RYear => toward_zero 12 (iv_month a) (iv_month b) /\ iv_day b = 0 /\ iv_time b = 0
  | RMonth | RYearMonth => iv_month b = iv_month a /\ iv_day b = 0 /\ iv_time b = 0
  | RDay => iv_month b = iv_month a /\ iv_day b = iv_day a /\ iv_time b = 0
  | RHour | RDayHour =>
      iv_month b = iv_month a /\ iv_day b = iv_day a /\
      toward_zero 3600000000 (iv_time a) (iv_time b)
  | RMinute | RDayMinute | RHourMinute =>
      iv_month b = iv_month a /\ iv_day b = iv_day a /\
      toward_zero 60000000 (iv_time a) (iv_time b)
  end.

(** [b] is [a] with everything below [unit] dropped (toward zero). *)
Definition truncated_iv (unit : date_unit) (a b : interval) : Prop :=
  let months n := toward_zero n (iv_month a) (iv_month b) /\ iv_day b = 0 /\ iv_time b = 0 in
  let time n := iv_month b = iv_month a /\ iv_day b = iv_day a /\
                toward_zero n (iv_time a) (iv_time b) in
  match unit with
  | Millennium => months 12000 | Century => months 1200 | Decade => months 120
  | Year => months 12 | Quarter => months 3 | Month => months 1
  | Day => iv_month b = iv_month a /\ iv_day b = iv_day a /\ iv_time b = 0
  | Hour => time 3600000000 | Minute => time 60000000 | Second => time 1000000
  | MilliSec => time 1000 | MicroSec => time 1
  | _ => False
  end.

(** Intervals the library writes: every field fits, the whole hours fit 32 bits and the hours
    and days can be negated. *)
Definition writable_iv (a : interval) : Prop :=
  fields_ok a /\ Z.abs (iv_time a) < 2147483648 * 3600000000 /\ iv_day a <> -2147483648.

(** The whole minutes of the clock part fit 32 bits. *)
Definition minutes_fit (a : interval) : Prop := -2147483648 <= Z.quot (iv_time a) 60000000 <= 2147483647.

(** Intervals whose text the library reads back. *)
Definition readable_iv (a : interval) : Prop :=
  fields_ok a /\ minutes_fit a /\ iv_day a <> -2147483648.

(** What reading the text of [a] gives: [a] itself when its minutes fit 32 bits; otherwise a build
    with overflow checks stops and one without gives another clock part. *)
Definition read_back (md : mode) (a : interval) (r : res interval) : Prop :=
  (minutes_fit a -> r = Ok a) /\
  (~ minutes_fit a ->
   match md with
   | Debug => r = Fault FArith
   | Release => exists c, r = Ok (mkInterval c (iv_day a) (iv_month a)) /\ c <> iv_time a
   end).
