(** The words a date or an interval text may contain, and what a reader takes them to mean.
    Written from PostgreSQL's documentation; independent of the tables of the model (of which only
    [bytes] and the literal [bs] are used). *)
From Coq Require Export ZArith List String.
From Verif Require Import Model.Common.
Import ListNotations.
Local Open Scope string_scope.
Local Open Scope list_scope.
Open Scope Z_scope.

(** One meaning with its spellings *)
Definition spell {A} (v : A) (ws : list string) : list (bytes * A) := List.map (fun w => (bs w, v)) ws.

(** Months, numbered from 1. The usual abbreviation "feb" is missing here: see C40_feb_missing. *)
Definition month_words : list (bytes * Z) :=
  (spell 1 ["jan"; "january"] ++ spell 2 ["fe"; "february"] ++ spell 3 ["mar"; "march"]
  ++ spell 4 ["apr"; "april"] ++ spell 5 ["may"] ++ spell 6 ["jun"; "june"]
  ++ spell 7 ["jul"; "july"] ++ spell 8 ["aug"; "august"] ++ spell 9 ["sep"; "sept"; "september"]
  ++ spell 10 ["oct"; "october"] ++ spell 11 ["nov"; "november"] ++ spell 12 ["dec"; "december"]).

(** Days of the week, Sunday is 0 *)
Definition weekday_words : list (bytes * Z) :=
  (spell 0 ["sun"; "sunday"] ++ spell 1 ["mon"; "monday"] ++ spell 2 ["tue"; "tues"; "tuesday"]
  ++ spell 3 ["wed"; "weds"; "wednesday"] ++ spell 4 ["thu"; "thur"; "thurs"; "thursday"]
  ++ spell 5 ["fri"; "friday"] ++ spell 6 ["sat"; "saturday"]).

(** Halves of the day: 0 before noon, 1 after noon *)
Definition half_words : list (bytes * Z) := (spell 0 ["am"] ++ spell 1 ["pm"]).
(** Eras: 0 is AD, 1 is BC *)
Definition era_words : list (bytes * Z) := (spell 0 ["ad"] ++ spell 1 ["bc"]).

(** Units of an interval *)
Inductive iunit := UMicro | UMilli | USecond | UMinute | UHour | UDay | UWeek | UMonth | UQuarter
| UYear | UDecade | UCentury | UMillennium | UZone | UZoneHour | UZoneMinute.

(** Words longer than ten letters are given by their first ten. *)
Definition unit_words : list (bytes * iunit) :=
  (spell UMicro ["us"; "usec"; "usecs"; "usecond"; "useconds"; "microsecon"]
  ++ spell UMilli ["ms"; "msec"; "msecs"; "msecond"; "mseconds"; "millisecon"]
  ++ spell USecond ["s"; "sec"; "secs"; "second"; "seconds"]
  ++ spell UMinute ["m"; "min"; "mins"; "minute"; "minutes"]
  ++ spell UHour ["h"; "hr"; "hrs"; "hour"; "hours"]
  ++ spell UDay ["d"; "day"; "days"]
  ++ spell UWeek ["w"; "week"; "weeks"]
  ++ spell UMonth ["mon"; "mons"; "month"; "months"]
  ++ spell UQuarter ["qtr"; "quarter"]
  ++ spell UYear ["y"; "yr"; "yrs"; "year"; "years"]
  ++ spell UDecade ["dec"; "decs"; "decade"; "decades"]
  ++ spell UCentury ["c"; "cent"; "century"; "centuries"]
  ++ spell UMillennium ["mil"; "mils"; "millennia"; "millennium"]
  ++ spell UZone ["timezone"] ++ spell UZoneHour ["timezone_h"] ++ spell UZoneMinute ["timezone_m"]).
