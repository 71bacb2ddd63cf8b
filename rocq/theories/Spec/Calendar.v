(** Independent specification of the proleptic Gregorian calendar: a calendar day is a triple
    (astronomical year, month, day); everything is derived from "the next day". *)
From Coq Require Import ZArith Bool.
Open Scope Z_scope.

(** Astronomical year numbering: 0 is 1 BC, -1 is 2 BC, ... *)
Definition leap (y : Z) : bool :=
  (y mod 4 =? 0) && (negb (y mod 100 =? 0) || (y mod 400 =? 0)).

Definition month_len (y m : Z) : Z :=
  match m with
  | 1 => 31 | 2 => if leap y then 29 else 28 | 3 => 31 | 4 => 30 | 5 => 31 | 6 => 30
  | 7 => 31 | 8 => 31 | 9 => 30 | 10 => 31 | 11 => 30 | 12 => 31
  | _ => 0
  end.

Definition ymd : Type := (Z * Z * Z)%type.

Definition valid_ymd (c : ymd) : Prop :=
  let '(y, m, d) := c in 1 <= m <= 12 /\ 1 <= d <= month_len y m.

Definition next_day (c : ymd) : ymd :=
  let '(y, m, d) := c in
  if d <? month_len y m then (y, m, d + 1)
  else if m <? 12 then (y, m + 1, 1)
  else (y + 1, 1, 1).

(** The day [n] days after [c]. *)
Fixpoint walk (n : nat) (c : ymd) : ymd :=
  match n with O => c | S k => next_day (walk k c) end.

(** Chronological (lexicographic) order of calendar days. *)
Definition ymd_lt (a b : ymd) : Prop :=
  let '(y1, m1, d1) := a in
  let '(y2, m2, d2) := b in
  y1 < y2 \/ (y1 = y2 /\ (m1 < m2 \/ (m1 = m2 /\ d1 < d2))).

Definition epoch_day : ymd := (2000, 1, 1).

(** [n] is the number of days from 2000-01-01 to [c] (negative before). *)
Definition day_number (c : ymd) (n : Z) : Prop :=
  (0 <= n /\ walk (Z.to_nat n) epoch_day = c)
  \/ (n < 0 /\ valid_ymd c /\ walk (Z.to_nat (- n)) c = epoch_day).

(** The API writes BC years as negative numbers and has no year 0. *)
Definition astro (y : Z) : Z := if y <? 0 then y + 1 else y.

(** First and last supported dates: 24 Nov 4714 BC, 31 Dec 5874897; last timestamp day
    31 Dec 294276. *)
Definition first_day : ymd := (-4713, 11, 24).
Definition last_day : ymd := (5874897, 12, 31).
Definition last_ts_day : ymd := (294276, 12, 31).

Definition ymd_le (a b : ymd) : Prop := ymd_lt a b \/ a = b.
