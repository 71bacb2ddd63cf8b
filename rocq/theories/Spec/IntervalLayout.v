(** The text of an interval in each style, as a reader sees it. Used by C74. *)
From Coq Require Import ZArith List.
From Verif Require Import Model.Base Spec.Ranges Spec.Clock Spec.Text.
Import ListNotations.
Open Scope Z_scope.

(** The fields of an interval: years and months of one sign, hours to microseconds of one sign. *)
Record fields := mkFields { f_y : Z; f_mo : Z; f_d : Z; f_h : Z; f_mi : Z; f_s : Z; f_us : Z }.
Definition same_sign (l : list Z) : Prop := Forall (fun v => 0 <= v) l \/ Forall (fun v => v <= 0) l.
Definition fields_of_iv (a : interval) (f : fields) : Prop :=
  iv_month a = 12 * f_y f + f_mo f /\ -12 < f_mo f < 12 /\ same_sign [f_y f; f_mo f]
  /\ iv_day a = f_d f
  /\ iv_time a = clock (f_h f) (f_mi f) (f_s f) (f_us f)
  /\ -60 < f_mi f < 60 /\ -60 < f_s f < 60 /\ -1000000 < f_us f < 1000000
  /\ same_sign [f_h f; f_mi f; f_s f; f_us f].

(** All zero; the first value that is not zero is negative; the last one is. *)
Definition blank (l : list Z) : bool := forallb (Z.eqb 0) l.
Fixpoint lead_neg (l : list Z) : bool :=
  match l with [] => false | v :: r => if v =? 0 then lead_neg r else v <? 0 end.
Definition tail_neg (l : list Z) : bool := lead_neg (rev l).
Definition minus (b : bool) : list Z := if b then [45] else [].

(** Seconds without sign, the whole seconds padded to [w] digits. *)
Definition abs_seconds (w : nat) (f : fields) (t : list Z) : Prop :=
  seconds_text w (Z.abs (f_s f)) (Z.abs (f_us f)) t.
Definition clock_fields (f : fields) : list Z := [f_h f; f_mi f; f_s f; f_us f].
Definition all_fields (f : fields) : list Z := [f_y f; f_mo f; f_d f; f_h f; f_mi f; f_s f; f_us f].

(** *** ISO 8601: "P1Y-2M3DT4H5M6.7S", zero fields left out, "PT0S" for nothing *)
Definition iso_item (v u : Z) (t : list Z) : Prop :=
  v = 0 /\ t = [] \/ v <> 0 /\ exists n, int_text v n /\ t = n ++ [u].
Definition iso_layout (f : fields) (t : list Z) : Prop :=
  exists ty tmo td tt, iso_item (f_y f) 89 ty /\ iso_item (f_mo f) 77 tmo /\ iso_item (f_d f) 68 td
  /\ t = 80 :: ty ++ tmo ++ td ++ tt
  /\ if blank (clock_fields f) && negb (blank (all_fields f)) then tt = []
     else exists th tmi ts, iso_item (f_h f) 72 th /\ iso_item (f_mi f) 77 tmi
       /\ tt = 84 :: th ++ tmi ++ ts
       /\ if blank [f_s f; f_us f] && negb (blank (all_fields f)) then ts = []
          else exists x, abs_seconds 1 f x /\ ts = minus (lead_neg [f_s f; f_us f]) ++ x ++ [83].

(** *** Postgres: "1 year -2 mons +3 days -04:05:06.7". [before] are the fields further left: a
    plus sign is written after a negative field. *)
Definition pg_part (before : list Z) (v : Z) (unit t : list Z) : Prop :=
  v = 0 /\ t = [] \/
  v <> 0 /\ exists n, int_text v n /\
    t = (if blank before then [] else [32]) ++ (if tail_neg before && (0 <? v) then [43] else [])
        ++ n ++ 32 :: unit ++ (if v =? 1 then [] else [115]).
Definition s_year : list Z := [121; 101; 97; 114].
Definition s_mon : list Z := [109; 111; 110].
Definition s_day : list Z := [100; 97; 121].
Definition s_hour : list Z := [104; 111; 117; 114].
Definition s_min : list Z := [109; 105; 110].
Definition s_sec : list Z := [115; 101; 99].
Definition postgres_layout (f : fields) (t : list Z) : Prop :=
  let ymd := [f_y f; f_mo f; f_d f] in
  exists ty tmo td tt, pg_part [] (f_y f) s_year ty /\ pg_part [f_y f] (f_mo f) s_mon tmo
  /\ pg_part [f_y f; f_mo f] (f_d f) s_day td /\ t = ty ++ tmo ++ td ++ tt
  /\ if blank (clock_fields f) && negb (blank ymd) then tt = []
     else exists c, clock_text 2 (Z.abs (f_h f)) (Z.abs (f_mi f)) (Z.abs (f_s f)) (Z.abs (f_us f)) c
       /\ tt = (if blank ymd then [] else [32])
               ++ (if lead_neg (clock_fields f) then [45] else if tail_neg ymd then [43] else []) ++ c.

(** *** Verbose: "@ 1 year 2 mons -3 days 4 hours 5 mins 6.7 secs ago". With "ago" every sign is
    turned around; there is an "ago" when the first field is negative. *)
Definition vb_part (ago : bool) (v : Z) (unit t : list Z) : Prop :=
  v = 0 /\ t = [] \/
  v <> 0 /\ exists n, int_text (if ago then - v else v) n /\
    t = 32 :: n ++ 32 :: unit ++ (if v =? 1 then [] else [115]).
Definition verbose_layout (f : fields) (t : list Z) : Prop :=
  let ago := lead_neg (all_fields f) in
  exists ty tmo td th tmi ts, vb_part ago (f_y f) s_year ty /\ vb_part ago (f_mo f) s_mon tmo
  /\ vb_part ago (f_d f) s_day td /\ vb_part ago (f_h f) s_hour th /\ vb_part ago (f_mi f) s_min tmi
  /\ t = 64 :: ty ++ tmo ++ td ++ th ++ tmi ++ ts
         ++ (if blank (all_fields f) then [32; 48] else []) ++ (if ago then [32; 97; 103; 111] else [])
  /\ if blank [f_s f; f_us f] then ts = []
     else exists x, abs_seconds 1 f x /\
       ts = 32 :: minus (xorb ago (lead_neg [f_s f; f_us f])) ++ x ++ 32 :: s_sec
            ++ (if (Z.abs (f_s f) =? 1) && (f_us f =? 0) then [] else [115]).

(** *** SQL standard: "1-2", "3 4:05:06.7", "4:05:06.7", each with one leading minus if all is
    negative; everything with signs, "+1-2 -3 +4:05:06.7", if signs or kinds are mixed. *)
Definition mixed (f : fields) : Prop :=
  Exists (fun v => v < 0) (all_fields f) /\ Exists (fun v => 0 < v) (all_fields f)
  \/ ~ Forall (fun v => v = 0) [f_y f; f_mo f] /\ ~ Forall (fun v => v = 0) (f_d f :: clock_fields f).
Definition sign_char (l : list Z) : Z := if lead_neg l then 45 else 43.
Definition sql_clock (f : fields) (t : list Z) : Prop :=
  clock_text 1 (Z.abs (f_h f)) (Z.abs (f_mi f)) (Z.abs (f_s f)) (Z.abs (f_us f)) t.
Definition sql_layout (f : fields) (t : list Z) : Prop :=
  exists ty tmo td tc,
    padded 1 (Z.abs (f_y f)) ty /\ padded 1 (Z.abs (f_mo f)) tmo /\ padded 1 (Z.abs (f_d f)) td /\ sql_clock f tc /\
  ( mixed f /\ t = sign_char [f_y f; f_mo f] :: ty ++ 45 :: tmo ++ 32 ::
                   sign_char [f_d f] :: td ++ 32 :: sign_char (clock_fields f) :: tc
  \/ ~ mixed f /\
     t = minus (lead_neg (all_fields f)) ++
         (if blank (all_fields f) then [48]
          else if negb (blank [f_y f; f_mo f]) then ty ++ 45 :: tmo
          else if negb (f_d f =? 0) then td ++ 32 :: tc
          else tc)).

Definition interval_layout (style : interval_style) : fields -> list Z -> Prop :=
  match style with
  | IPostgres => postgres_layout | IPostgresVerbose => verbose_layout
  | ISQLStandard => sql_layout | IISO8601 => iso_layout
  end.
