(** Dates and times written as numbers with letters in front: "y1999 m1 d8 h4 mm5 s6.5". Independent
    of the model's parser. *)
From Coq Require Export ZArith List Bool Lia.
From Verif Require Import Model.Base Spec.Calendar Spec.Text Spec.DateText Spec.TimeText Spec.DateWords Spec.Clock.
Import List ListNotations.
Open Scope Z_scope.

Inductive label := Ly | Lm | Ld | Lh | Lmm | Ls.
(** y, m, d, h, mm and s *)
Definition label_word (l : label) : list Z :=
  match l with Ly => [121] | Lm => [109] | Ld => [100] | Lh => [104] | Lmm => [109; 109] | Ls => [115] end.

(** One number with its letter, a blank between them or not, a fraction or none ([]), a blank after it or not. *)
Record part := Part { p_label : label; p_word : list Z; p_gap : bool; p_num : list Z; p_frac : list Z; p_sep : bool }.
Definition spaced_by (b : bool) : list Z := if b then [32] else [].
Definition part_number (p : part) : list Z := p_num p ++ match p_frac p with [] => [] | f => 46 :: f end.
Definition part_text (p : part) : list Z := p_word p ++ spaced_by (p_gap p) ++ part_number p ++ spaced_by (p_sep p).
Definition parts_text (ps : list part) : list Z := flat_map part_text ps.

(** Capital or small letters; years, months and days of up to five digits, numbers of the clock of up
    to two; a fraction only for seconds. *)
Definition part_ok (p : part) : Prop :=
  any_case (p_word p) (label_word (p_label p)) /\ Forall digit (p_num p)
  /\ (1 <= length (p_num p) <= match p_label p with Ly | Ld => 5 | _ => 2 end)%nat
  /\ fraction_digits (p_frac p) /\ (p_frac p <> [] -> p_label p = Ls).

(** What has been said so far; the second with its fraction, if one was written. *)
Record said := Said { g_year : option Z; g_month : option Z; g_day : option Z; g_hour : option Z; g_minute : option Z;
  g_second : option (Z * option Z) }.
Definition nothing : said := Said None None None None None None.

(** Saying a thing twice is an error, but m stands for the minute once there is a month and an hour. *)
Definition say (p : part) (g : said) : option said :=
  let v := digits_value (p_num p) in
  let 'Said y m d h mi s := g in
  match p_label p with
  | Ly => match y with None => Some (Said (Some v) m d h mi s) | _ => None end
  | Lm => match m, h, mi with
          | None, _, _ => Some (Said y (Some v) d h mi s)
          | _, Some _, None => Some (Said y m d h (Some v) s)
          | _, _, _ => None
          end
  | Ld => match d with None => Some (Said y m (Some v) h mi s) | _ => None end
  | Lh => match h with None => Some (Said y m d (Some v) mi s) | _ => None end
  | Lmm => match mi with None => Some (Said y m d h (Some v) s) | _ => None end
  | Ls => match s with
          | None => Some (Said y m d h mi (Some (v, match p_frac p with [] => None | f => Some (micros f) end)))
          | _ => None
          end
  end.
Fixpoint say_all (ps : list part) (g : said) : option said :=
  match ps with
  | [] => Some g
  | p :: r => match say p g with Some g' => say_all r g' | None => None end
  end.

Definition or_zero (o : option Z) : Z := match o with Some v => v | None => 0 end.
Definition seconds (g : said) : Z := match g_second g with Some (s, _) => s | None => 0 end.
Definition fraction (g : said) : Z := match g_second g with Some (_, Some us) => us | _ => 0 end.

(** A year with a letter is never a short form: y99 is the year 99. *)
Definition labelled_year (e : era) (y : Z) : option Z :=
  if y <=? 0 then None else Some (match e with MarkedBC => 1 - y | _ => y end).
Definition labelled_day (e : era) (g : said) (n : Z) : Prop :=
  exists y y' m d, g_year g = Some y /\ g_month g = Some m /\ g_day g = Some d /\ labelled_year e y = Some y' /\
    valid_ymd (y', m, d) /\ day_number (y', m, d) n.
