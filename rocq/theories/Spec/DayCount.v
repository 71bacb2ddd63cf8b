(** Dates given by a count of days, for C62. *)
From Verif Require Import Model.Common Spec.Calendar Spec.Text Spec.DateText Spec.Lexing Spec.DateWords.
From Coq Require Import List ZArith.
Import ListNotations.
Open Scope Z_scope.

Definition julian_word (w : list Z) : Prop := exists k, In k [bs "j"; bs "jd"; bs "julian"] /\ any_case w k.
(** J2451545, Julian 2451545: the day [ds] of the Julian period *)
Definition julian_text (w b ds t : list Z) : Prop :=
  julian_word w /\ Forall white b /\ Forall digit ds /\ (1 <= length ds <= 10)%nat /\ t = w ++ b ++ ds.

(** 1999-008, 1999.008, 1999/008, 1999 008: day [D] of the year [Y] *)
Definition year_day_text (order : date_order) (Y D t : list Z) : Prop :=
  ((3 <= length Y)%nat \/ order = YMD) /\ Forall digit D /\ length D = 3%nat
  /\ (short_digits Y /\ (exists sep, separator sep /\ t = Y ++ sep :: D)
      \/ few_digits Y /\ t = Y ++ 32 :: D).

(** The day meant by day [D] of year [Y]: the days since 2000-01-01 of 1 January, and then [D] - 1 more. *)
Definition meant_year_day (e : era) (Y D : list Z) (y n : Z) : Prop :=
  meant_year e Y = Some y /\ exists n1, day_number (y, 1, 1) n1 /\ n = n1 + digits_value D - 1.
