(** Decimal text, as a reader understands it. Independent of the model. *)
From Coq Require Export ZArith List Lia.
From Verif Require Import Model.Base Spec.Calendar.
Import ListNotations.
Open Scope Z_scope.

(** An ASCII digit *)
Definition digit (c : Z) : Prop := 48 <= c <= 57.

(** Value of a digit string: each digit times the power of ten of its place. *)
Fixpoint digits_value (ds : list Z) : Z :=
  match ds with
  | [] => 0
  | c :: r => (c - 48) * 10 ^ Z.of_nat (length r) + digits_value r
  end.

(** [ds] is a decimal numeral for [n], possibly with leading zeros. *)
Definition numeral (n : Z) (ds : list Z) : Prop :=
  Forall digit ds /\ ds <> [] /\ digits_value ds = n.

(** [ds] is the usual decimal numeral of [n]: no leading zero unless it is "0". *)
Definition decimal (n : Z) (ds : list Z) : Prop :=
  numeral n ds /\ (length ds = 1%nat \/ hd 0 ds <> 48).

(** The usual text of an integer; '-' = 45. *)
Definition int_text (n : Z) (t : list Z) : Prop :=
  if n <? 0 then exists ds, t = 45 :: ds /\ decimal (- n) ds else decimal n t.

(** Zero padded to at least [w] digits, and not longer than needed. *)
Definition padded (w : nat) (n : Z) (t : list Z) : Prop :=
  numeral n t /\ (length t = w \/ (w < length t)%nat /\ hd 0 t <> 48).

(** The digits [ds] after a decimal point denote [n] / 10^[k], without trailing zeros. *)
Definition fraction (k : nat) (n : Z) (ds : list Z) : Prop :=
  Forall digit ds /\ ds <> [] /\ (length ds <= k)%nat
  /\ digits_value ds * 10 ^ Z.of_nat (k - length ds) = n /\ last ds 48 <> 48.

(** ** Layouts. Separators are ASCII codes: ' ' 32, '-' 45, '.' 46, '/' 47, ':' 58, 'T' 84. *)

(** Seconds with microseconds: "ss" or "ss.f" with as many fraction digits as needed. *)
Definition seconds_text (w : nat) (s us : Z) (t : list Z) : Prop :=
  exists ds, padded w s ds /\
    (us = 0 /\ t = ds \/ us <> 0 /\ exists fr, fraction 6 us fr /\ t = ds ++ 46 :: fr).

(** "hh:mm:ss[.ffffff]", the hour padded to [w] digits *)
Definition clock_text (w : nat) (h mi s us : Z) (t : list Z) : Prop :=
  exists th tmi ts, padded w h th /\ padded 2 mi tmi /\ seconds_text 2 s us ts
    /\ t = th ++ 58 :: tmi ++ 58 :: ts.

(** The year a reader sees for the astronomical year [y], and its era. *)
Definition era_year (y : Z) : Z := if 0 <? y then y else 1 - y.
Definition era_suffix (y : Z) : list Z := if 0 <? y then [] else [32; 66; 67].

(** Three numbers with separators, each padded to its width. *)
Definition three (wa : nat) (a c1 : Z) (wb : nat) (b c2 : Z) (wc : nat) (c : Z) (t : list Z) : Prop :=
  exists ta tb tc, padded wa a ta /\ padded wb b tb /\ padded wc c tc
    /\ t = ta ++ c1 :: tb ++ c2 :: tc.

(** The layout of a date (astronomical year) in each style, without the era. *)
Definition date_layout (style : date_style) (order : date_order) (c : ymd) (t : list Z) : Prop :=
  let '(y, m, d) := c in
  match style with
  | SISO | SXSD => three 4 (era_year y) 45 2 m 45 2 d t
  | SSQL => match order with
            | DMY => three 2 d 47 2 m 47 4 (era_year y) t
            | _ => three 2 m 47 2 d 47 4 (era_year y) t
            end
  | SGerman => three 2 d 46 2 m 46 4 (era_year y) t
  | SPostgres => match order with
                 | DMY => three 2 d 45 2 m 46 4 (era_year y) t
                 | _ => three 2 m 46 2 d 46 4 (era_year y) t
                 end
  end.

(** English abbreviations: Sun Mon Tue Wed Thu Fri Sat *)
Definition wday_abbr (w : Z) : list Z :=
  nth (Z.to_nat w) [[83; 117; 110]; [77; 111; 110]; [84; 117; 101]; [87; 101; 100]; [84; 104; 117]; [70; 114; 105]; [83; 97; 116]] [].
(** Jan Feb Mar Apr May Jun Jul Aug Sep Oct Nov Dec *)
Definition month_abbr (m : Z) : list Z :=
  nth (Z.to_nat (m - 1))
    [[74; 97; 110]; [70; 101; 98]; [77; 97; 114]; [65; 112; 114];
     [77; 97; 121]; [74; 117; 110]; [74; 117; 108];
     [65; 117; 103]; [83; 101; 112]; [79; 99; 116]; [78; 111; 118]; [68; 101; 99]] [].

(** The layout of a timestamp in each style, without the era. 1 January 2000 was a Saturday. *)
Definition ts_layout (style : date_style) (order : date_order) (c : ymd) (h mi s us : Z)
  (t : list Z) : Prop :=
  exists tc, clock_text 2 h mi s us tc /\
  match style with
  | SISO | SSQL | SGerman => exists td, date_layout style order c td /\ t = td ++ 32 :: tc
  | SXSD => exists td, date_layout style order c td /\ t = td ++ 84 :: tc
  | SPostgres =>
      let '(y, m, d) := c in
      exists n td ty, day_number c n /\ padded 2 d td /\ padded 4 (era_year y) ty /\
      t = wday_abbr ((n + 6) mod 7) ++ 32 ::
          (match order with DMY => td ++ 32 :: month_abbr m | _ => month_abbr m ++ 32 :: td end)
          ++ 32 :: tc ++ 32 :: ty
  end.

(** The session date order [ro] can read what [style] writes under the order [po]. *)
Definition date_readable (style : date_style) (po ro : date_order) : Prop :=
  match style with
  | SISO | SXSD => True
  | SSQL => match po with DMY => ro = DMY | _ => ro = MDY end
  | SGerman => ro = DMY
  | SPostgres => po <> DMY /\ ro = MDY
  end.

(** The same for timestamps, where the Postgres style names the month. *)
Definition ts_readable (style : date_style) (po ro : date_order) (c : ymd) : Prop :=
  match style with
  | SPostgres => snd (fst c) <> 2 /\ (po = DMY -> ro <> YMD)
  | _ => date_readable style po ro
  end.
