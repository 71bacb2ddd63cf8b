(** Intervals written as numbers with units, then possibly a clock and "ago". Independent of the
    model's parser. *)
From Coq Require Export ZArith List Bool Lia.
From Verif Require Import Model.Base Spec.Calendar Spec.Ranges Spec.Text Spec.DateText Spec.TimeText Spec.Clock Spec.IntervalS Spec.Keywords Spec.DateWords.
Import List ListNotations.
Open Scope Z_scope.

(** A sign: none, '+' or '-' *)
Inductive sign := Unsigned | Plus | Minus.
Definition sign_text (s : sign) : list Z := match s with Unsigned => [] | Plus => [43] | Minus => [45] end.
Definition signed (s : sign) (v : Z) : Z := match s with Minus => - v | _ => v end.

(** A name of a unit in any letter case; only the first ten letters of a name count. *)
Definition unit_name (w : list Z) (u : iunit) : Prop :=
  exists word, In (firstn 10 word, u) unit_words /\ any_case w word.

(** What one of each unit is: months, days and microseconds *)
Definition unit_months (u : iunit) : Z :=
  match u with UMonth => 1 | UYear => 12 | UDecade => 120 | UCentury => 1200 | UMillennium => 12000 | _ => 0 end.
Definition unit_days (u : iunit) : Z := match u with UDay => 1 | UWeek => 7 | _ => 0 end.
Definition unit_micros (u : iunit) : Z :=
  match u with UMicro => 1 | UMilli => 1000 | USecond => 1000000 | UMinute => 60000000 | UHour => 3600000000 | _ => 0 end.
Definition span_unit (u : iunit) : Prop :=
  match u with UQuarter | UZone | UZoneHour | UZoneMinute => False | _ => True end.

(** A quantity: sign, digits, digits of the fraction if there is one, the name of the unit if it is
    written, and the unit *)
Record quantity := mkQ { q_sign : sign; q_int : list Z; q_frac : option (list Z); q_word : option (list Z); q_unit : iunit }.

(** The numerator and the number of digits of the fraction *)
Definition q_num (q : quantity) : Z := match q_frac q with None => 0 | Some f => signed (q_sign q) (digits_value f) end.
Definition q_len (q : quantity) : nat := match q_frac q with None => 0 | Some f => length f end.
Definition q_val (q : quantity) : Z := signed (q_sign q) (digits_value (q_int q)).

(** The fraction [n / 10^k] of a unit. A fraction of a year counts in whole months, a fraction of a
    month of 30 days or of a week in whole days and the time left over. *)
Definition part_months (u : iunit) (n p : Z) : Z := match u with UYear => Z.quot (12 * n) p | _ => 0 end.
Definition part_days (u : iunit) (n p : Z) : Z :=
  match u with UWeek => Z.quot (7 * n) p | UMonth => Z.quot (30 * n) p | _ => 0 end.
Definition part_micros (u : iunit) (n p : Z) : Z :=
  match u with
  | UMilli => n * 1000 / p
  | USecond => n * 1000000 / p
  | UMinute => n * 60000000 / p
  | UHour => n * 3600000000 / p
  | UDay => n * usecs_day / p
  | UWeek => Z.rem (7 * n) p * usecs_day / p
  | UMonth => Z.rem (30 * n) p * usecs_day / p
  | _ => 0
  end.
Definition pow10 (k : nat) : Z := 10 ^ Z.of_nat k.
Definition q_months (q : quantity) : Z := q_val q * unit_months (q_unit q) + part_months (q_unit q) (q_num q) (pow10 (q_len q)).
Definition q_days (q : quantity) : Z := q_val q * unit_days (q_unit q) + part_days (q_unit q) (q_num q) (pow10 (q_len q)).
Definition q_micros (q : quantity) : Z := q_val q * unit_micros (q_unit q) + part_micros (q_unit q) (q_num q) (pow10 (q_len q)).

(** Quantities small enough for every sum of a few of them: at most 10^8 of the unit, 10^6 hours,
    10^8 days in weeks, 10^8 years in decades, centuries or millennia. Fractions have at most six
    digits (three for milliseconds) and are meant for milliseconds to months, and years. *)
Definition weight (u : iunit) : Z :=
  match u with UHour => 100 | UWeek => 7 | UDecade => 10 | UCentury => 100 | UMillennium => 1000 | _ => 1 end.
Definition fraction_ok (u : iunit) (f : list Z) : Prop :=
  Forall digit f /\ f <> [] /\
  match u with
  | UMilli => (length f <= 3)%nat
  | USecond | UMinute | UHour | UDay | UWeek | UMonth | UYear => (length f <= 6)%nat
  | _ => False
  end.
Definition quantity_ok (q : quantity) : Prop :=
  short_digits (q_int q) /\ match q_word q with Some w => unit_name w (q_unit q) | None => True end /\ span_unit (q_unit q)
  /\ digits_value (q_int q) * weight (q_unit q) <= 100000000
  /\ match q_frac q with None => True | Some f => fraction_ok (q_unit q) f end.

(** The parts of an interval a quantity takes up; none may be given twice. *)
Definition takes (q : quantity) : list iunit :=
  match q_unit q with
  | USecond => if q_num q =? 0 then [USecond] else [USecond; UMilli; UMicro]
  | u => [u]
  end.

Definition number_text (q : quantity) : list Z :=
  sign_text (q_sign q) ++ q_int q ++ match q_frac q with None => [] | Some f => 46 :: f end.
Definition quantity_pieces (q : quantity) : list (list Z) :=
  number_text q :: match q_word q with Some w => [w] | None => [] end.

(** The unit of a number without one: that of the number after it (days before hours); of the last
    number [last]. *)
Definition before_unit (u : iunit) : iunit := match u with UHour => UDay | u => u end.
Fixpoint units_implied (last : option iunit) (qs : list quantity) : Prop :=
  match qs with
  | [] => True
  | q :: rest =>
      (q_word q = None ->
       match rest with [] => last = Some (q_unit q) | q' :: _ => q_unit q = before_unit (q_unit q') end)
      /\ units_implied last rest
  end.
(** The unit a column type implies: the last field of the qualifier, seconds without one *)
Definition default_of (r : irange) : iunit :=
  match r with
  | RYear => UYear | RMonth | RYearMonth => UMonth | RDay => UDay | RHour | RDayHour => UHour
  | RMinute | RHourMinute | RDayMinute => UMinute | _ => USecond
  end.

(** A clock: "h:m", "h:m:s", "h:m:s.f", "m:s.f"; "m:s" if the qualifier is MINUTE TO SECOND *)
Definition clock_words (r : irange) (t : list Z) (h mi s us : Z) : Prop :=
  match r with
  | RMinuteSecond =>
      (exists tm ts, short_digits tm /\ short_digits ts /\ t = tm ++ 58 :: ts
         /\ h = 0 /\ mi = digits_value tm /\ s = digits_value ts /\ us = 0)
      \/ time_words t h mi s us /\ (exists a b c, t = a ++ 58 :: b ++ 58 :: c \/ t = a ++ 58 :: b ++ 46 :: c)
  | _ => time_words t h mi s us
  end.
(** Sign, text, hours, minutes, seconds, microseconds *)
Record clockpart := mkC { k_sign : sign; k_text : list Z; k_h : Z; k_mi : Z; k_s : Z; k_us : Z }.
Definition clock_ok (r : irange) (k : clockpart) : Prop :=
  clock_words r (k_text k) (k_h k) (k_mi k) (k_s k) (k_us k) /\ k_h k <= 1000000 /\ k_mi k <= 59 /\ k_s k <= 60.
Definition clock_micros (k : clockpart) : Z := signed (k_sign k) (clock (k_h k) (k_mi k) (k_s k) (k_us k)).
Definition clock_takes : list iunit := [UHour; UMinute; USecond; UMilli; UMicro].

(** The whole text: quantities, then a clock, then "ago", separated by blanks. *)
Record wordy := mkW { w_qs : list quantity; w_clock : option clockpart; w_ago : bool }.
Definition wordy_pieces (w : wordy) : list (list Z) :=
  concat (map quantity_pieces (w_qs w))
  ++ match w_clock w with None => [] | Some k => [sign_text (k_sign k) ++ k_text k] end
  ++ (if w_ago w then [[97; 103; 111]] else []).
Fixpoint joined_text (ps : list (list Z)) : list Z :=
  match ps with [] => [] | [p] => p | p :: ps => p ++ 32 :: joined_text ps end.
Definition wordy_text (w : wordy) : list Z := joined_text (wordy_pieces w).
Definition wordy_takes (w : wordy) : list iunit :=
  concat (map takes (w_qs w)) ++ match w_clock w with None => [] | Some _ => clock_takes end.
Definition last_unit (r : irange) (w : wordy) : option iunit :=
  match w_clock w with Some _ => Some UDay | None => if w_ago w then None else Some (default_of r) end.
Definition wordy_ok (r : irange) (w : wordy) : Prop :=
  Forall quantity_ok (w_qs w) /\ (forall k, w_clock w = Some k -> clock_ok r k)
  /\ (w_qs w <> [] \/ w_clock w <> None) /\ (length (wordy_text w) <= 127)%nat
  /\ units_implied (last_unit r w) (w_qs w).
(** The qualifier of a type modifier; a negative one has none. *)
Definition qualified (r : irange) (p : Z) : Prop :=
  (exists prec, 0 <= prec <= 65535 /\ p = range_code r * 65536 + prec) \/ p < 0 /\ r = RFull.
(** In the SQL standard's style a text whose only sign is a leading '-' is read differently. *)
Definition is_sign (c : Z) : bool := (c =? 43) || (c =? 45).
Definition lone_minus (w : wordy) : bool :=
  match wordy_pieces w with
  | (45 :: _) :: rest => negb (existsb (fun p => match p with c :: _ => is_sign c | [] => false end) rest)
  | _ => false
  end.

Definition total (f : quantity -> Z) (qs : list quantity) : Z := fold_right Z.add 0 (map f qs).
Definition sign_of (ago : bool) (v : Z) : Z := if ago then - v else v.
Definition wordy_months (w : wordy) : Z := sign_of (w_ago w) (total q_months (w_qs w)).
Definition wordy_days (w : wordy) : Z := sign_of (w_ago w) (total q_days (w_qs w)).
Definition wordy_time (w : wordy) : Z :=
  sign_of (w_ago w) (total q_micros (w_qs w) + match w_clock w with None => 0 | Some k => clock_micros k end).
