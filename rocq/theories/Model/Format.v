(** Model of the text output functions: `format` of Date, Time, Timestamp and Interval. *)
From Verif Require Export Model.Common Model.DateTime.

(** ** Shared pieces *)

(** src/token.rs:28-29 EARLY, LATE *)
Definition EARLY : bytes := bs "-infinity".
Definition LATE : bytes := bs "infinity".

(** src/common.rs:642-646 MAX_TIME_PRECISION, MAX_TIMESTAMP_PRECISION,
    MAX_INTERVAL_PRECISION: all 6 *)
Definition MAX_PRECISION : nat := 6.

(** The printed year, e.g. src/date.rs:313: `if tm.year > 0 { tm.year } else { -(tm.year - 1) }` *)
Definition shown_year (md : mode) (year : Z) : res Z :=
  if 0 <? year then Ok year else let* y1 := sub32 md year 1 in neg32 md y1.

(** src/date.rs:359-361, src/timestamp.rs:688-690: the " BC" suffix *)
Definition bc_suffix (year : Z) : bytes := if year <=? 0 then bs " BC" else [].

(** Two zero-padded fields and a zero-padded year with separators [c1] and [c2], as in the SQL,
    German and Postgres branches of src/date.rs:319-356 *)
Definition two_two_year (md : mode) (a c1 b c2 year : Z) : res bytes :=
  let* ta := pg_ltostr_zeropad md a 2 in
  let* tb := pg_ltostr_zeropad md b 2 in
  let* y := shown_year md year in
  let* ty := pg_ltostr_zeropad md y 4 in
  Ok (ta ++ c1 :: tb ++ c2 :: ty).

(** "yyyy-mm-dd" of src/date.rs:311-319 *)
Definition iso_ymd (md : mode) (tm : pgtime) : res bytes :=
  let* y := shown_year md (tm_year tm) in
  let* ty := pg_ltostr_zeropad md y 4 in
  let* tmo := pg_ltostr_zeropad md (tm_mon tm) 2 in
  let* td := pg_ltostr_zeropad md (tm_mday tm) 2 in
  Ok (ty ++ 45 :: tmo ++ 45 :: td).

(** "hh:mm:ss[.ffffff]", src/time.rs:204-209 and the identical pieces of
    src/timestamp.rs:591-596 *)
Definition hms_text (md : mode) (tm : pgtime) (fsec : Z) : res bytes :=
  let* th := pg_ltostr_zeropad md (tm_hour tm) 2 in
  let* tmi := pg_ltostr_zeropad md (tm_min tm) 2 in
  let* tse := append_seconds md (tm_sec tm) fsec MAX_PRECISION true in
  Ok (th ++ 58 :: tmi ++ 58 :: tse).

Definition mon_ok (tm : pgtime) : bool := (1 <=? tm_mon tm) && (tm_mon tm <=? MONTHS_PER_YEAR).

Definition is_dmy (o : date_order) : bool := match o with DMY => true | _ => false end.

(** src/date.rs:298-364 [format_date]; '-' = 45, '.' = 46, '/' = 47 *)
Definition format_date (md : mode) (tm : pgtime) (style : date_style) (order : date_order)
  : res bytes :=
  let* _ := debug_assert md (mon_ok tm) in
  let* t :=
    match style with
    | SISO | SXSD => iso_ymd md tm
    | SSQL =>
        if is_dmy order then two_two_year md (tm_mday tm) 47 (tm_mon tm) 47 (tm_year tm)
        else two_two_year md (tm_mon tm) 47 (tm_mday tm) 47 (tm_year tm)
    | SGerman => two_two_year md (tm_mday tm) 46 (tm_mon tm) 46 (tm_year tm)
    | SPostgres =>
        if is_dmy order then two_two_year md (tm_mday tm) 45 (tm_mon tm) 46 (tm_year tm)
        else two_two_year md (tm_mon tm) 46 (tm_mday tm) 46 (tm_year tm)
    end in
  Ok (t ++ bc_suffix (tm_year tm)).

(** src/date.rs:255-295 [Date::format], [format_special_date] *)
Definition date_format (md : mode) (d : Z) (style : date_style) (order : date_order) : res bytes :=
  if negb (date_is_finite d) then
    if d =? i32_min then Ok EARLY else if d =? i32_max then Ok LATE else Err EInvalid
  else
    let* j := add32 md d POSTGRES_EPOCH_JDATE in
    let* p := julian2date md j in
    let '(y, m, dd) := p in
    let* out := format_date md (set_ymd y m dd tm_new) style order in
    fits out.

(** src/time.rs:134-146 [Time::format], 196-216 [format_time]; the style is ignored *)
Definition time_format (md : mode) (t : Z) : res bytes :=
  let* p := time_to_pgtime md t in
  let* out := hms_text md (fst p) (snd p) in
  fits out.

(** src/timestamp.rs:563-693 [format_date_time]; 32 = ' ', 84 = 'T'. print_tz is always false
    and the time zone code is commented out in the source. *)
Definition format_date_time (md : mode) (tm : pgtime) (order : date_order) (fsec : Z)
  (style : date_style) : res bytes :=
  let* _ := debug_assert md (mon_ok tm) in
  let* t :=
    match style with
    | SISO | SXSD =>
        let* d := iso_ymd md tm in
        let* t := hms_text md tm fsec in
        Ok (d ++ (match style with SISO => 32 | _ => 84 end) :: t)
    | SSQL =>
        let* d := (if is_dmy order then two_two_year md (tm_mday tm) 47 (tm_mon tm) 47 (tm_year tm)
                   else two_two_year md (tm_mon tm) 47 (tm_mday tm) 47 (tm_year tm)) in
        let* t := hms_text md tm fsec in
        Ok (d ++ 32 :: t)
    | SGerman =>
        let* d := two_two_year md (tm_mday tm) 46 (tm_mon tm) 46 (tm_year tm) in
        let* t := hms_text md tm fsec in
        Ok (d ++ 32 :: t)
    | SPostgres =>
        let* day := date2julian md (tm_year tm) (tm_mon tm) (tm_mday tm) in
        let* w := julian_to_week_day md day in
        let* wn := get_wday_name w in
        let* td := pg_ltostr_zeropad md (tm_mday tm) 2 in
        let* mn := get_month_name md (tm_mon tm) in
        let* t := hms_text md tm fsec in
        let* y := shown_year md (tm_year tm) in
        let* ty := pg_ltostr_zeropad md y 4 in
        Ok (wn ++ 32 :: (if is_dmy order then td ++ 32 :: mn else mn ++ 32 :: td)
               ++ 32 :: t ++ 32 :: ty)
    end in
  Ok (t ++ bc_suffix (tm_year tm)).

(** src/timestamp.rs:193-221 [Timestamp::format] and [format_special_timestamp] *)
Definition timestamp_format (md : mode) (t : Z) (style : date_style) (order : date_order)
  : res bytes :=
  if negb (ts_is_finite t) then
    if t =? i64_min then Ok EARLY else if t =? i64_max then Ok LATE else Err EInvalid
  else
    let* p := timestamp2time md t in
    let* out := format_date_time md (fst p) order (snd p) style in
    fits out.

(** ** Intervals *)

(** src/interval.rs:887-897 [add_iso8601_int_part] *)
Definition add_iso8601_int_part (value u : Z) : res bytes :=
  if value =? 0 then Ok []
  else let* t := pg_ltostr value in Ok (t ++ [u]).

(** src/interval.rs:900-932 [add_postgres_int_part]: text and the new (is_zero, is_before);
    43 = '+', 115 = 's' *)
Definition add_postgres_int_part (value : Z) (units : bytes) (zb : bool * bool)
  : res (bytes * (bool * bool)) :=
  let '(is_zero, is_before) := zb in
  if value =? 0 then Ok ([], zb)
  else
    let* t := pg_ltostr value in
    Ok ((if is_zero then [] else [32]) ++ (if is_before && (0 <? value) then [43] else [])
          ++ t ++ 32 :: units ++ (if negb (value =? 1) then [115] else []),
        (false, value <? 0)).

(** src/interval.rs:935-966 [add_verbose_int_part] *)
Definition add_verbose_int_part (md : mode) (value : Z) (units : bytes) (zb : bool * bool)
  : res (bytes * (bool * bool)) :=
  let '(is_zero, is_before) := zb in
  if value =? 0 then Ok ([], zb)
  else
    let is_before' := if is_zero then value <? 0 else is_before in
    let* v := if is_zero then abs32 md value
              else if is_before then neg32 md value else Ok value in
    let* t := pg_ltostr v in
    Ok (32 :: t ++ 32 :: units ++ (if negb (value =? 1) then [115] else []),
        (false, is_before')).

(** The hour:min:sec tails of the SQLStandard branch, src/interval.rs:690-705, 716-727, 730-741:
    hour unpadded. *)
Definition iv_hms (md : mode) (hour min sec fsec : Z) : res bytes :=
  let* th := pg_ltostr hour in
  let* tmi := pg_ltostr_zeropad md min 2 in
  let* tse := append_seconds md sec fsec MAX_PRECISION true in
  Ok (th ++ 58 :: tmi ++ 58 :: tse).

Definition nz (z : Z) : bool := negb (z =? 0).

(** src/interval.rs:643-744, SQLStandard branch of [format_interval] *)
Definition format_sql (md : mode) (tm : pgtime) (fsec : Z) : res bytes :=
  let year := tm_year tm in let mon := tm_mon tm in let mday := tm_mday tm in
  let hour := tm_hour tm in let min := tm_min tm in let sec := tm_sec tm in
  let has_negative :=
    (year <? 0) || (mon <? 0) || (mday <? 0) || (hour <? 0) || (min <? 0) || (sec <? 0)
    || (fsec <? 0) in
  let has_positive :=
    (0 <? year) || (0 <? mon) || (0 <? mday) || (0 <? hour) || (0 <? min) || (0 <? sec)
    || (0 <? fsec) in
  let has_year_month := nz year || nz mon in
  let has_day_time := nz mday || nz hour || nz min || nz sec || nz fsec in
  let has_day := nz mday in
  let sql_standard_value :=
    negb (has_negative && has_positive || has_year_month && has_day_time) in
  let flip := has_negative && sql_standard_value in
  let n32 v := if flip then neg32 md v else Ok v in
  let* year := n32 year in
  let* mon := n32 mon in
  let* mday := n32 mday in
  let* hour := n32 hour in
  let* min := n32 min in
  let* sec := n32 sec in
  let* fsec := (if flip then neg64 md fsec else Ok fsec) in
  let* out :=
    if negb has_negative && negb has_positive then Ok [48]
    else if negb sql_standard_value then
      let year_sign := if (year <? 0) || (mon <? 0) then 45 else 43 in
      let day_sign := if mday <? 0 then 45 else 43 in
      let sec_sign :=
        if (hour <? 0) || (min <? 0) || (sec <? 0) || (fsec <? 0) then 45 else 43 in
      let* ay := abs32 md year in
      let* ty := pg_ltostr ay in
      let* am := abs32 md mon in
      let* tmo := pg_ltostr am in
      let* ad := abs32 md mday in
      let* td := pg_ltostr ad in
      let* ah := abs32 md hour in
      let* ami := abs32 md min in
      let* t := iv_hms md ah ami sec fsec in
      Ok (year_sign :: ty ++ 45 :: tmo ++ 32 :: day_sign :: td ++ 32 :: sec_sign :: t)
    else if has_year_month then
      let* ty := pg_ltostr year in
      let* tmo := pg_ltostr mon in
      Ok (ty ++ 45 :: tmo)
    else if has_day then
      let* td := pg_ltostr mday in
      let* t := iv_hms md hour min sec fsec in
      Ok (td ++ 32 :: t)
    else iv_hms md hour min sec fsec in
  Ok ((if flip then [45] else []) ++ out).

(** src/interval.rs:746-783, ISO8601 branch; 80 = 'P', 89 = 'Y', 77 = 'M', 68 = 'D', 84 = 'T',
    72 = 'H', 83 = 'S' *)
Definition format_iso8601 (md : mode) (tm : pgtime) (fsec : Z) : res bytes :=
  let year := tm_year tm in let mon := tm_mon tm in let mday := tm_mday tm in
  let hour := tm_hour tm in let min := tm_min tm in let sec := tm_sec tm in
  if negb (nz year || nz mon || nz mday || nz hour || nz min || nz sec || nz fsec)
  then Ok (bs "PT0S")
  else
    let* ty := add_iso8601_int_part year 89 in
    let* tmo := add_iso8601_int_part mon 77 in
    let* td := add_iso8601_int_part mday 68 in
    let* th := add_iso8601_int_part hour 72 in
    let* tmi := add_iso8601_int_part min 77 in
    let* ts :=
      if nz sec || nz fsec then
        let* s := append_seconds md sec fsec MAX_PRECISION false in
        Ok ((if (sec <? 0) || (fsec <? 0) then [45] else []) ++ s ++ [83])
      else Ok [] in
    Ok (80 :: ty ++ tmo ++ td
          ++ (if nz hour || nz min || nz sec || nz fsec then [84] else [])
          ++ th ++ tmi ++ ts).

(** src/interval.rs:785-834, Postgres branch *)
Definition format_postgres (md : mode) (tm : pgtime) (fsec : Z) : res bytes :=
  let hour := tm_hour tm in let min := tm_min tm in let sec := tm_sec tm in
  let* p := add_postgres_int_part (tm_year tm) (bs "year") (true, false) in
  let '(ty, zb) := p in
  let* p := add_postgres_int_part (tm_mon tm) (bs "mon") zb in
  let '(tmo, zb) := p in
  let* p := add_postgres_int_part (tm_mday tm) (bs "day") zb in
  let '(td, (is_zero, is_before)) := p in
  let* t :=
    if is_zero || nz hour || nz min || nz sec || nz fsec then
      let minus := (hour <? 0) || (min <? 0) || (sec <? 0) || (fsec <? 0) in
      let* ah := abs32 md hour in
      let* th := pg_ltostr_zeropad md ah 2 in
      let* ami := abs32 md min in
      let* tmi := pg_ltostr_zeropad md ami 2 in
      let* tse := append_seconds md sec fsec MAX_PRECISION true in
      Ok ((if is_zero then [] else [32])
            ++ (if minus then [45] else if is_before then [43] else [])
            ++ th ++ 58 :: tmi ++ 58 :: tse)
    else Ok [] in
  Ok (ty ++ tmo ++ td ++ t).

(** src/interval.rs:836-880, PostgresVerbose branch; 64 = '@' *)
Definition format_verbose (md : mode) (tm : pgtime) (fsec : Z) : res bytes :=
  let sec := tm_sec tm in
  let* p := add_verbose_int_part md (tm_year tm) (bs "year") (true, false) in
  let '(ty, zb) := p in
  let* p := add_verbose_int_part md (tm_mon tm) (bs "mon") zb in
  let '(tmo, zb) := p in
  let* p := add_verbose_int_part md (tm_mday tm) (bs "day") zb in
  let '(td, zb) := p in
  let* p := add_verbose_int_part md (tm_hour tm) (bs "hour") zb in
  let '(th, zb) := p in
  let* p := add_verbose_int_part md (tm_min tm) (bs "min") zb in
  let '(tmi, (is_zero, is_before)) := p in
  let* q :=
    if nz sec || nz fsec then
      let neg := (sec <? 0) || ((sec =? 0) && (fsec <? 0)) in
      let is_before' := if neg && is_zero then true else is_before in
      let sign :=
        if neg then (if is_zero then [] else if negb is_before then [45] else [])
        else if is_before then [45] else [] in
      let* s := append_seconds md sec fsec MAX_PRECISION false in
      let* asec := abs32 md sec in
      Ok (32 :: sign ++ s ++ bs " sec" ++ (if negb (asec =? 1) || nz fsec then [115] else []),
          (false, is_before'))
    else Ok ([], (is_zero, is_before)) in
  let '(ts, (is_zero, is_before)) := q in
  Ok (64 :: ty ++ tmo ++ td ++ th ++ tmi ++ ts
         ++ (if is_zero then bs " 0" else []) ++ (if is_before then bs " ago" else [])).

(** src/interval.rs:623-882 [format_interval] *)
Definition format_interval (md : mode) (tm : pgtime) (fsec : Z) (style : interval_style)
  : res bytes :=
  match style with
  | ISQLStandard => format_sql md tm fsec
  | IISO8601 => format_iso8601 md tm fsec
  | IPostgres => format_postgres md tm fsec
  | IPostgresVerbose => format_verbose md tm fsec
  end.

(** src/interval.rs:589-604 [Interval::format] *)
Definition interval_format (md : mode) (a : interval) (style : interval_style) : res bytes :=
  let* p := interval_to_pgtime md a in
  let* out := format_interval md (fst p) (snd p) style in
  fits out.
