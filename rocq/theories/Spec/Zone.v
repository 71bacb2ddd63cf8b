(** Places in a text where a zone may stand, for C63. *)
From Verif Require Import Model.Common Spec.Text Spec.DateText Spec.Lexing Spec.DateWords Spec.Keywords.
From Coq Require Import String List ZArith.
Import List ListNotations.
Open Scope Z_scope.

(** A time of day such as 10:20 or 10:20:30.5: digits, a colon, then digits, colons and points *)
Definition clock_text (t : list Z) : Prop :=
  exists ds r, t = ds ++ 58 :: r /\ ds <> [] /\ Forall digit ds /\ Forall (fun c => digit c \/ c = 58 \/ c = 46) r.
(** A numeric date such as 1999-01-08 *)
Definition numeric_date (t : list Z) : Prop :=
  exists A B C sep, t = A ++ sep :: B ++ sep :: C /\ separator sep /\ A <> [] /\ B <> []
    /\ Forall digit A /\ Forall digit B /\ Forall digit C.

(** [field_at a b]: in the text [a ++ b] something new begins at [b]: at the start, after white space,
    directly after a time of day, or directly after a numeric date and the letter T. *)
Inductive field_at : list Z -> list Z -> Prop :=
| FA_start b : field_at [] b
| FA_white a w b : white w -> ~ ends_with_sign a -> field_at (a ++ [w]) b
| FA_clock a t b : field_at a (t ++ b) -> clock_text t ->
    match b with c :: _ => ~ digit c /\ c <> 58 /\ c <> 46 | [] => True end -> field_at (a ++ t) b
| FA_date a t T d b : field_at a (t ++ T :: d :: b) -> numeric_date t -> T = 84 \/ T = 116 -> digit d ->
    field_at (a ++ t ++ [T]) (d :: b).

(** An offset from UTC: +08, - 5:30 *)
Definition offset_text (b : list Z) : Prop :=
  exists sg bl d r, b = sg :: bl ++ d :: r /\ (sg = 43 \/ sg = 45) /\ Forall white bl /\ digit d.

(** The words that can have a meaning in a date, a timestamp or a time of day *)
Definition known_words : list bytes :=
  (List.map fst month_words ++ List.map fst weekday_words ++ List.map fst half_words ++ List.map fst era_words
  ++ List.map bs ["at"; "on"; "t"; "j"; "jd"; "julian"; "y"; "mm"; "d"; "h"; "m"; "s"; "dow"; "isodow"; "doy";
                  "allballs"; "infinity"; "epoch"; "invalid"; "undefined"]%string).
(** [w] is a word of letters and none of those. *)
Definition unknown_word (w : list Z) : Prop :=
  w <> [] /\ Forall letter w /\ forall k, In k known_words -> ~ any_case w k.
