(** Calendar dates written by people, with or without a month name, followed by an optional time of
    day and era. Independent of the model's parser. *)
From Coq Require Export ZArith List Bool Lia.
From Verif Require Import Model.Base Spec.Calendar Spec.Ranges Spec.Text Spec.DateText Spec.TimeText Spec.Clock Spec.Keywords.
Import List ListNotations.
Open Scope Z_scope.

(** [w] is the lower-case word [word] with any of its letters in upper case. *)
Definition any_case (w word : list Z) : Prop :=
  Forall2 (fun a b => 97 <= b <= 122 /\ (a = b \/ a = b - 32)) w word.
Definition month_name (w : list Z) (m : Z) : Prop := exists word, In (word, m) month_words /\ any_case w word.

(** Which of the two numbers beside a month name are the year and the day. *)
Definition beside_month (order : date_order) (A B : list Z) : list Z * list Z :=
  if (3 <=? length A)%nat then (A, B)
  else match order with
       | YMD => if (3 <=? length B)%nat then (B, A) else (A, B)
       | _ => (B, A)
       end.
(** The same if blanks separate the parts: under YMD a short first number is always the year. *)
Definition around_month (order : date_order) (A B : list Z) : list Z * list Z :=
  if (3 <=? length A)%nat then (A, B) else match order with YMD => (A, B) | _ => (B, A) end.

Definition two_digits (t : list Z) : Prop := Forall digit t /\ length t = 2%nat.
(** A run of 1 to 5 digits *)
Definition few_digits (t : list Z) : Prop := Forall digit t /\ (1 <= length t <= 5)%nat.

(** [date_words order glue t Y m d]: under the session's order the text [t] gives the digits [Y] for
    the year, month number [m] and day number [d]; a 'T' may follow directly if [glue]. *)
Inductive date_words (order : date_order) : bool -> list Z -> list Z -> Z -> Z -> Prop :=
| DW_numeric A B C sep : (* 1999-01-08, 1/8/99, 08.01.1999 *)
    short_digits A -> short_digits B -> short_digits C -> (length B <= 2)%nat -> separator sep ->
    date_words order true (A ++ sep :: B ++ sep :: C) (fst (fst (DateText.reading order A B C)))
      (digits_value (snd (fst (DateText.reading order A B C)))) (digits_value (snd (DateText.reading order A B C)))
| DW_compact Y M D : (* 19990108, 990108 *)
    short_digits Y -> (2 <= length Y)%nat -> two_digits M -> two_digits D ->
    date_words order true (Y ++ M ++ D) Y (digits_value M) (digits_value D)
| DW_inner A w m B sep : (* 8-Jan-1999 *)
    short_digits A -> month_name w m -> short_digits B -> separator sep ->
    date_words order false (A ++ sep :: w ++ sep :: B) (fst (beside_month order A B)) m
      (digits_value (snd (beside_month order A B)))
| DW_first w m A B sep : (* Jan-8-1999 *)
    month_name w m -> short_digits A -> short_digits B -> separator sep ->
    date_words order false (w ++ sep :: A ++ sep :: B) (fst (beside_month order A B)) m
      (digits_value (snd (beside_month order A B)))
| DW_month_day_year w m D Y (comma : bool) : (* January 8 1999; January 8, 1999 *)
    month_name w m -> few_digits D -> few_digits Y ->
    date_words order true (w ++ 32 :: D ++ (if comma then [44; 32] else [32]) ++ Y) Y m (digits_value D)
| DW_around A w m B : (* 8 January 1999, 1999 January 8 *)
    few_digits A -> month_name w m -> few_digits B ->
    date_words order true (A ++ 32 :: w ++ 32 :: B) (fst (around_month order A B)) m
      (digits_value (snd (around_month order A B))).

(** What may follow a date: nothing, or a blank (or a 'T') and a time of day [h mi s us] with AM or PM. *)
Inductive time_part : bool -> list Z -> option Z -> Prop :=
| TP_none g : time_part g [] (Some 0)
| TP_time g sep t h mi s us x : sep = 32 \/ (sep = 84 /\ g = true) -> time_words t h mi s us ->
    time_part g (sep :: t ++ half_text x) (meant_clock x h mi s us).

(** The day meant: days since 2000-01-01, [None] if there is no such day. *)
Definition meant_day (e : era) (Y : list Z) (m d n : Z) : Prop :=
  exists y, meant_year e Y = Some y /\ valid_ymd (y, m, d) /\ day_number (y, m, d) n.
