(** Calendar month arithmetic. *)
From Coq Require Import ZArith.
From Verif Require Import Spec.Calendar.
Open Scope Z_scope.

(** Move [k] months, keeping the day of month, clamped to the length of the target month. *)
Definition add_months (c : ymd) (k : Z) : ymd :=
  let '(y, m, d) := c in
  let total := 12 * y + (m - 1) + k in
  let y' := total / 12 in
  let m' := total mod 12 + 1 in
  (y', m', Z.min d (month_len y' m')).
