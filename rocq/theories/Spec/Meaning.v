(** All the ways of writing a moment of C56, C57, C62, C76 and C77 together, with any letter case and
    white space. Independent of the model's parser. *)
From Verif Require Import Model.Base Spec.Calendar Spec.Text Spec.Lexing Spec.DateText Spec.TimeText Spec.DateWords Spec.CompactTime
  Spec.DayCount Spec.Labels.
From Coq Require Import List ZArith.
Import List ListNotations.
Open Scope Z_scope.

(** [means order t n k]: in the order [order] the text [t] says day [n] (days since 2000-01-01) and [k]
    microseconds after its midnight. *)
Inductive means (order : date_order) : list Z -> Z -> Z -> Prop :=
| M_words glue td Y m d tt k e n : (* 1999-01-08 04:05 PM, January 8, 99 BC *)
    date_words order glue td Y m d -> DateWords.time_part glue tt (Some k) -> meant_day e Y m d n ->
    means order (td ++ tt ++ era_text e) n k
| M_compact glue td Y m d sep t h mi s us x k e n : (* 1999-01-08T040506 *)
    date_words order glue td Y m d -> sep = 32 \/ sep = 84 /\ glue = true -> compact_time t h mi s us ->
    carried_clock x h mi s us = Some k -> meant_day e Y m d n ->
    means order (td ++ sep :: t ++ half_text x ++ era_text e) n k
| M_labels ps x e g n k : (* y1999 m1 d8 h4 *)
    Forall part_ok ps -> (length ps <= 7)%nat -> say_all ps nothing = Some g ->
    carried_clock x (or_zero (g_hour g)) (or_zero (g_minute g)) (seconds g) (fraction g) = Some k -> labelled_day e g n ->
    means order (parts_text ps ++ half_text x ++ era_text e) n k
| M_julian w b ds td tt k : (* J2451187 04:05 *)
    julian_text w b ds td -> DateWords.time_part true tt (Some k) ->
    means order (td ++ tt) (digits_value ds - 2451545) k
| M_year_day Y D td tt k e y n : (* 1999-008 04:05 *)
    year_day_text order Y D td -> 1 <= digits_value D <= 366 -> DateWords.time_part true tt (Some k) ->
    meant_year_day e Y D y n -> y <= 5874897 -> -2451545 <= n ->
    means order (td ++ tt ++ era_text e) n k
| M_case t t' n k : means order t n k -> List.map to_lower t = List.map to_lower t' -> means order t' n k
| M_white t t' n k : means order t n k -> t' <> [] -> respaced t t' -> means order t' n k.
