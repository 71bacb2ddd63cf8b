(** Intervals in the ISO 8601 notation, with designators ("P1Y2M3DT4H5M6.7S") and in the alternative
    format ("P0001-02-03T04:05:06", "P00010203T040506"). Independent of the model's parser. *)
From Coq Require Export ZArith List Bool Lia.
From Verif Require Import Model.Base Spec.Calendar Spec.Ranges Spec.Text Spec.DateText Spec.TimeText Spec.Clock Spec.IntervalS Spec.Keywords Spec.DateWords
  Spec.IntervalWords.
Import List ListNotations.
Open Scope Z_scope.

(** An amount: digits, digits of the fraction if there is one, and the unit *)
Record amount := mkA { a_int : list Z; a_frac : option (list Z); a_unit : iunit }.
Definition as_quantity (a : amount) : quantity := mkQ Unsigned (a_int a) (a_frac a) None (a_unit a).

(** The letters: years, months, weeks and days before the 'T', hours, minutes and seconds after it *)
Definition date_letter (u : iunit) : option Z :=
  match u with UYear => Some 89 | UMonth => Some 77 | UWeek => Some 87 | UDay => Some 68 | _ => None end.
Definition time_letter (u : iunit) : option Z :=
  match u with UHour => Some 72 | UMinute => Some 77 | USecond => Some 83 | _ => None end.

(** Sizes: as for quantities with unit names. With a fraction (up to six digits) the amount must stay
    below 10^9 seconds, 10^7 for years. Fractions of months that are a whole number of days are meant
    only for a half, or if there are no whole months ("P0.1M", "P1.5M", "P1.25M", but not "P1.9M"). *)
Definition frac_weight (u : iunit) : Z :=
  match u with UYear => 100 | UMonth => 2592000 | UWeek => 604800 | UDay => 86400 | UHour => 3600 | UMinute => 60 | _ => 1 end.
Definition month_fraction (i n p : Z) : Prop := i = 0 \/ 2 * n = p \/ n = 0 \/ Z.rem (30 * n) p <> 0.
Definition amount_ok (a : amount) : Prop :=
  short_digits (a_int a) /\ digits_value (a_int a) * weight (a_unit a) <= 100000000
  /\ match a_frac a with
     | None => True
     | Some f => Forall digit f /\ (1 <= length f <= 6)%nat /\ digits_value (a_int a) * frac_weight (a_unit a) <= 1000000000
                 /\ (a_unit a = UMonth -> month_fraction (digits_value (a_int a)) (digits_value f) (pow10 (length f)))
     end.
Definition amount_text (letter : iunit -> option Z) (a : amount) : list Z :=
  a_int a ++ match a_frac a with None => [] | Some f => 46 :: f end ++ match letter (a_unit a) with None => [] | Some c => [c] end.

(** The alternative format: years, months and days; a number of eight digits is year, month and day,
    one of another length the years. *)
Inductive iso_date : list Z -> Z -> Z -> Z -> Prop :=
| ID_full Y M D : short_digits Y -> short_digits M -> short_digits D ->
    iso_date (Y ++ 45 :: M ++ 45 :: D) (digits_value Y) (digits_value M) (digits_value D)
| ID_month Y M : short_digits Y -> short_digits M -> iso_date (Y ++ 45 :: M) (digits_value Y) (digits_value M) 0
| ID_year Y : short_digits Y -> length Y <> 8%nat -> iso_date Y (digits_value Y) 0 0
| ID_compact Y M D : Forall digit Y -> length Y = 4%nat -> two_digits M -> two_digits D ->
    iso_date (Y ++ M ++ D) (digits_value Y) (digits_value M) (digits_value D).

(** Hours, minutes and seconds, which may have a fraction; a number of six digits is all three of
    them, one of another length the hours. *)
Definition seconds_part (f : option (list Z)) : list Z := match f with None => [] | Some f => 46 :: f end.
Definition micros_part (f : option (list Z)) : Z :=
  match f with None => 0 | Some f => digits_value f * 1000000 / pow10 (length f) end.
Definition seconds_ok (f : option (list Z)) : Prop := match f with None => True | Some f => Forall digit f /\ (1 <= length f <= 6)%nat end.
Inductive iso_clock : list Z -> Z -> Z -> Z -> Z -> Prop :=
| IC_full h mi s f : short_digits h -> short_digits mi -> short_digits s -> seconds_ok f ->
    iso_clock (h ++ 58 :: mi ++ 58 :: s ++ seconds_part f) (digits_value h) (digits_value mi) (digits_value s) (micros_part f)
| IC_minutes h mi : short_digits h -> short_digits mi -> iso_clock (h ++ 58 :: mi) (digits_value h) (digits_value mi) 0 0
| IC_hours h : short_digits h -> length h <> 6%nat -> iso_clock h (digits_value h) 0 0 0
| IC_compact h mi s f : two_digits h -> two_digits mi -> two_digits s -> seconds_ok f ->
    iso_clock (h ++ mi ++ s ++ seconds_part f) (digits_value h) (digits_value mi) (digits_value s) (micros_part f).

Inductive date_half := DAmounts (a : list amount) | DAlternative (t : list Z) (y m d : Z).
Inductive time_half := TNothing | TAmounts (a : list amount) | TAlternative (t : list Z) (h mi s us : Z).

Definition date_half_text (d : date_half) : list Z :=
  match d with DAmounts a => concat (map (amount_text date_letter) a) | DAlternative t _ _ _ => t end.
Definition time_half_text (t : time_half) : list Z :=
  match t with
  | TNothing => []
  | TAmounts a => 84 :: concat (map (amount_text time_letter) a)
  | TAlternative t _ _ _ _ => 84 :: t
  end.
Definition iso_text (d : date_half) (t : time_half) : list Z := 80 :: date_half_text d ++ time_half_text t.

(** Each designator at most once, in any order; parts below 10^8, hours below 10^6 *)
Definition amounts_ok (letter : iunit -> option Z) (l : list amount) : Prop :=
  Forall amount_ok l /\ Forall (fun a => letter (a_unit a) <> None) l /\ NoDup (map a_unit l).
Definition date_half_ok (d : date_half) : Prop :=
  match d with
  | DAmounts a => amounts_ok date_letter a
  | DAlternative t y m d => iso_date t y m d /\ y <= 100000000 /\ m <= 100000000 /\ d <= 100000000
  end.
Definition time_half_ok (t : time_half) : Prop :=
  match t with
  | TNothing => True
  | TAmounts a => amounts_ok time_letter a /\ a <> []
  | TAlternative t h mi s us => iso_clock t h mi s us /\ h <= 1000000 /\ mi <= 100000000 /\ s <= 100000000
  end.
Definition iso_text_ok (d : date_half) (t : time_half) : Prop :=
  date_half_ok d /\ time_half_ok t /\ date_half_text d ++ time_half_text t <> [] /\ (length (iso_text d t) <= 127)%nat.

Definition half_total (f : quantity -> Z) (l : list amount) : Z := total f (map as_quantity l).
Definition iso_months (d : date_half) : Z := match d with DAmounts a => half_total q_months a | DAlternative _ y m _ => 12 * y + m end.
Definition iso_days (d : date_half) : Z := match d with DAmounts a => half_total q_days a | DAlternative _ _ _ d => d end.
Definition iso_time (d : date_half) (t : time_half) : Z :=
  match d with DAmounts a => half_total q_micros a | _ => 0 end
  + match t with TNothing => 0 | TAmounts a => half_total q_micros a | TAlternative _ h mi s us => clock h mi s us end.
