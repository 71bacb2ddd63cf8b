(** Intervals with the years and months written "y-m", as in the SQL standard. Independent of the
    model's parser. *)
From Verif Require Import Model.Base Spec.Calendar Spec.Ranges Spec.Text Spec.DateText Spec.TimeText Spec.Clock Spec.IntervalS Spec.Keywords Spec.DateWords Spec.IntervalWords.
Import List ListNotations.
Open Scope Z_scope.

(** Sign, digits of the years and digits of the months; the sign is meant for both. *)
Record yearmonth := mkYM { m_sign : sign; m_year : list Z; m_month : list Z }.
Definition ym_text (y : yearmonth) : list Z := sign_text (m_sign y) ++ m_year y ++ 45 :: m_month y.
Definition ym_total (y : yearmonth) : Z := 12 * digits_value (m_year y) + digits_value (m_month y).
Definition ym_months (y : yearmonth) : Z := signed (m_sign y) (ym_total y).
Definition ym_shape (y : yearmonth) : Prop := short_digits (m_year y) /\ short_digits (m_month y).
Definition ym_ok (y : yearmonth) : Prop := ym_shape y /\ digits_value (m_month y) < 12 /\ ym_total y <= 100000000.

(** "y-m", then possibly quantities, a clock and "ago" *)
Definition dated_pieces (y : yearmonth) (w : wordy) : list (list Z) := ym_text y :: wordy_pieces w.
Definition dated_text (y : yearmonth) (w : wordy) : list Z := joined_text (dated_pieces y w).
Definition dated_rest (r : irange) (y : yearmonth) (w : wordy) : Prop :=
  Forall quantity_ok (w_qs w) /\ (forall k, w_clock w = Some k -> clock_ok r k)
  /\ (length (dated_text y w) <= 127)%nat /\ units_implied (last_unit r w) (w_qs w).
Definition dated_takes (w : wordy) : list iunit := UMonth :: wordy_takes w.
Definition dated_months (y : yearmonth) (w : wordy) : Z := sign_of (w_ago w) (ym_months y + total q_months (w_qs w)).
(** The only sign is a minus at the beginning. *)
Definition only_minus (ps : list (list Z)) : bool :=
  match ps with
  | (45 :: _) :: rest => negb (existsb (fun p => match p with c :: _ => is_sign c | [] => false end) rest)
  | _ => false
  end.

(** The SQL standard's own notation: years and months, days, a clock; at least one of them, days only
    before a clock or as the only field of the column type. No signs: a minus before the whole text
    is meant for all of it. *)
Record sqlspan := mkSql { s_ym : option (list Z * list Z); s_day : option (list Z); s_clock : option clockpart }.
Definition unsigned_ym (p : list Z * list Z) : yearmonth := mkYM Unsigned (fst p) (snd p).
Definition sql_pieces (s : sqlspan) : list (list Z) :=
  match s_ym s with None => [] | Some p => [ym_text (unsigned_ym p)] end
  ++ match s_day s with None => [] | Some d => [d] end
  ++ match s_clock s with None => [] | Some k => [k_text k] end.
Definition sql_ok (r : irange) (s : sqlspan) : Prop :=
  (forall p, s_ym s = Some p -> ym_ok (unsigned_ym p))
  /\ (forall d, s_day s = Some d -> short_digits d /\ digits_value d <= 100000000 /\ (s_clock s = None -> default_of r = UDay))
  /\ (forall k, s_clock s = Some k -> clock_ok r k /\ k_sign k = Unsigned)
  /\ sql_pieces s <> [] /\ (length (joined_text (sql_pieces s)) <= 126)%nat.
Definition sql_months (s : sqlspan) : Z := match s_ym s with None => 0 | Some p => ym_total (unsigned_ym p) end.
Definition sql_days (s : sqlspan) : Z := match s_day s with None => 0 | Some d => digits_value d end.
Definition sql_time (s : sqlspan) : Z := match s_clock s with None => 0 | Some k => clock_micros k end.
