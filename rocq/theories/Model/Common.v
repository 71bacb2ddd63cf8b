(** Model of src/common.rs (calendar, PgTime, decimal output) and the token masks of
    src/token.rs it needs. *)
From Verif Require Export Model.Base Model.F64.

(** ** src/token.rs:86-133 [TokenType] *)
Inductive token_type :=
| RESERV | MONTH | YEAR | DAY | TJULIAN | TZ | DTZ | DYNTZ | IgnoreDtf | AMPM | HOUR | MINUTE
| SECOND | MILLISECOND | MICROSECOND | DOY | DOW | UNITS | ADBC | AGO | AbsBefore | AbsAfter
| ISODATE | ISOTIME | WEEK | DECADE | CENTURY | MILLENNIUM | DTZMOD | UnknownField.

(** src/token.rs:86-133 discriminants *)
Definition tt_code (t : token_type) : Z :=
  match t with
  | RESERV => 0 | MONTH => 1 | YEAR => 2 | DAY => 3 | TJULIAN => 4 | TZ => 5 | DTZ => 6
  | DYNTZ => 7 | IgnoreDtf => 8 | AMPM => 9 | HOUR => 10 | MINUTE => 11 | SECOND => 12
  | MILLISECOND => 13 | MICROSECOND => 14 | DOY => 15 | DOW => 16 | UNITS => 17 | ADBC => 18
  | AGO => 19 | AbsBefore => 20 | AbsAfter => 21 | ISODATE => 22 | ISOTIME => 23 | WEEK => 24
  | DECADE => 25 | CENTURY => 26 | MILLENNIUM => 27 | DTZMOD => 28 | UnknownField => 31
  end.

(** src/token.rs:137 [TokenType::mask]: 1i32 << code (bit 31 is the sign bit). *)
Definition mask (t : token_type) : Z := wrap32 (Z.shiftl 1 (tt_code t)).

(** src/token.rs:159-170 *)
Definition DTK_ALL_SECS_M := Z.lor (Z.lor (mask SECOND) (mask MILLISECOND)) (mask MICROSECOND).
Definition DTK_YEAR_M := mask YEAR.
Definition DTK_MONTH_M := mask MONTH.
Definition DTK_DAY_M := mask DAY.
Definition DTK_YEAR_MONTH_M := Z.lor (mask YEAR) (mask MONTH).
Definition DTK_MONTH_DAY_M := Z.lor (mask MONTH) (mask DAY).
Definition DTK_DATE_M := Z.lor (Z.lor (mask YEAR) (mask MONTH)) (mask DAY).
Definition DTK_TIME_M := Z.lor (Z.lor (mask HOUR) (mask MINUTE)) DTK_ALL_SECS_M.

(** [f_mask & m != 0] *)
Definition has (f m : Z) : bool := negb (Z.land f m =? 0).

(** ** Constants, src/common.rs:559-646 *)
Definition MONTHS_PER_YEAR := 12.
Definition DAYS_PER_MONTH := 30.
Definition HOURS_PER_DAY := 24.
Definition SECS_PER_DAY := 86400.
Definition SECS_PER_HOUR := 3600.
Definition SECS_PER_MINUTE := 60.
Definition MINS_PER_HOUR := 60.
Definition USECS_PER_DAY := 86400000000.
Definition USECS_PER_HOUR := 3600000000.
Definition USECS_PER_MINUTE := 60000000.
Definition USECS_PER_SEC := 1000000.
Definition MAX_DATE_LEN := 128.
Definition JULIAN_MIN_YEAR := -4713.
Definition JULIAN_MIN_MONTH := 11.
Definition JULIAN_MAX_YEAR := 5874898.
Definition JULIAN_MAX_MONTH := 6.
Definition POSTGRES_EPOCH_JDATE := 2451545.
(** src/timestamp.rs:29-32 *)
Definition MIN_TIMESTAMP := -211813488000000000.
Definition END_TIMESTAMP := 9223371331200000000.
Definition TIMESTAMP_END_JULIAN := 109203528.

(** ** Julian day arithmetic *)

(** src/common.rs:53-67 [date2julian] (i32 arithmetic) *)
Definition date2julian (md : mode) (y m d : Z) : res Z :=
  let* ym :=
    if 2 <? m
    then let* y1 := add32 md y 4800 in let* m1 := add32 md m 1 in Ok (y1, m1)
    else let* y1 := add32 md y 4799 in let* m1 := add32 md m 13 in Ok (y1, m1) in
  let '(y, m) := ym in
  let century := Z.quot y 100 in
  let* y365 := mul32 md y 365 in
  let* julian := sub32 md y365 32167 in
  let* a := sub32 md (Z.quot y 4) century in
  let* a := add32 md a (Z.quot century 4) in
  let* julian := add32 md julian a in
  let* m7834 := mul32 md 7834 m in
  let* c := add32 md (Z.quot m7834 256) d in
  add32 md julian c.

(** src/common.rs:71-92 [julian2date] (u32 arithmetic; `as u32`/`as i32` wrap) *)
Definition julian2date (md : mode) (jd : Z) : res (Z * Z * Z) :=
  let* julian := addu32 md (wrapu32 jd) 32044 in
  let quad := Z.quot julian 146097 in
  let* q := mulu32 md quad 146097 in
  let* e := subu32 md julian q in
  let* e := mulu32 md e 4 in
  let* extra := addu32 md e 3 in
  let* q3 := mulu32 md quad 3 in
  let* t := addu32 md 60 q3 in
  let* t := addu32 md t (Z.quot extra 146097) in
  let* julian := addu32 md julian t in
  let quad := Z.quot julian 1461 in
  let* q := mulu32 md quad 1461 in
  let* julian := subu32 md julian q in
  let* j4 := mulu32 md julian 4 in
  let y := wrap32 (Z.quot j4 1461) in
  let* julian :=
    if negb (y =? 0)
    then let* j := addu32 md julian 305 in addu32 md (Z.rem j 365) 123
    else let* j := addu32 md julian 306 in addu32 md (Z.rem j 366) 123 in
  let* q4 := mulu32 md quad 4 in
  let* y := add32 md y (wrap32 q4) in
  let* year := sub32 md y 4800 in
  let* j2141 := mulu32 md julian 2141 in
  let quad := Z.quot j2141 65536 in
  let* q7834 := mulu32 md 7834 quad in
  let* day := subu32 md julian (Z.quot q7834 256) in
  let* q10 := addu32 md quad 10 in
  let* month := addu32 md (Z.rem q10 (wrapu32 MONTHS_PER_YEAR)) 1 in
  Ok (year, wrap32 month, wrap32 day).

(** src/common.rs:523 [year_is_leap] *)
Definition year_is_leap (y : Z) : bool :=
  (Z.rem y 4 =? 0) && (negb (Z.rem y 100 =? 0) || (Z.rem y 400 =? 0)).

(** src/common.rs:529-532 DAY_TABLE *)
Definition DAY_TABLE (leap : bool) : list Z :=
  if leap then [31; 29; 31; 30; 31; 30; 31; 31; 30; 31; 30; 31; 0]
  else [31; 28; 31; 30; 31; 30; 31; 31; 30; 31; 30; 31; 0].

(** `m as usize - 1` used as an index (src/common.rs:534, 600): for m = 0 the subtraction
    overflows (panic in debug builds, huge index in release builds); negative m becomes a huge
    index. *)
Definition index_minus1 {A} (md : mode) (l : list A) (m : Z) : res A :=
  if m =? 0 then match md with Debug => Fault FArith | Release => Fault FIndex end
  else index l (m - 1).

(** src/common.rs:528-535 [days_of_month] *)
Definition days_of_month (md : mode) (y m : Z) : res Z :=
  index_minus1 md (DAY_TABLE (year_is_leap y)) m.

(** src/common.rs:568-571 [is_valid_julian] *)
Definition is_valid_julian (y m : Z) : bool :=
  ((JULIAN_MIN_YEAR <? y) || ((y =? JULIAN_MIN_YEAR) && (JULIAN_MIN_MONTH <=? m)))
  && ((y <? JULIAN_MAX_YEAR) || ((y =? JULIAN_MAX_YEAR) && (m <? JULIAN_MAX_MONTH))).

(** src/timestamp.rs:528 [is_valid_timestamp] *)
Definition is_valid_timestamp (t : Z) : bool := (MIN_TIMESTAMP <=? t) && (t <? END_TIMESTAMP).

(** src/common.rs:574-582 [time_modulo]; unit is a positive constant in all uses *)
Definition time_modulo (md : mode) (t unit : Z) : res (Z * Z) :=
  let q := Z.quot t unit in
  if negb (q =? 0)
  then let* qu := mul64 md q unit in let* rest := sub64 md t qu in Ok (rest, q)
  else Ok (t, q).

(** src/common.rs:585-591 [timestamp_round] *)
Definition timestamp_round (t : f64) : f64 :=
  fdiv (fround (fmul t (f64_of_Z 1000000))) (f64_of_Z 1000000).

(** src/common.rs:407-415 [julian_to_week_day] *)
Definition julian_to_week_day (md : mode) (date : Z) : res Z :=
  let* d := add32 md date 1 in
  let d := Z.rem d 7 in
  if d <? 0 then add32 md d 7 else Ok d.

(** Monday of the week containing 4 January, as computed at src/common.rs:424-427 and again at
    432-435, 443-446, 462-465, 488-491: returns (day4, day0). *)
Definition day4_day0 (md : mode) (year : Z) : res (Z * Z) :=
  let* day4 := date2julian md year 1 4 in
  let* p := sub32 md day4 1 in
  let* day0 := julian_to_week_day md p in
  Ok (day4, day0).

(** src/common.rs:419-454 [date_to_iso_week] *)
Definition date_to_iso_week (md : mode) (year mon mday : Z) : res Z :=
  let* dayn := date2julian md year mon mday in
  let* p := day4_day0 md year in
  let '(day4, day0) := p in
  let* s := sub32 md day4 day0 in
  let* p :=
    if dayn <? s
    then let* y1 := sub32 md year 1 in day4_day0 md y1
    else Ok (day4, day0) in
  let '(day4, day0) := p in
  let* s := sub32 md day4 day0 in
  let* n := sub32 md dayn s in
  let* result := add32 md (Z.quot n 7) 1 in
  if 52 <=? result
  then
    let* y1 := add32 md year 1 in
    let* p := day4_day0 md y1 in
    let '(day4, day0) := p in
    let* s := sub32 md day4 day0 in
    if s <=? dayn
    then let* n := sub32 md dayn s in add32 md (Z.quot n 7) 1
    else Ok result
  else Ok result.

(** src/common.rs:460-468 [iso_week_to_julian] *)
Definition iso_week_to_julian (md : mode) (year week : Z) : res Z :=
  let* p := day4_day0 md year in
  let '(day4, day0) := p in
  let* w := sub32 md week 1 in
  let* w7 := mul32 md w 7 in
  let* s := sub32 md day4 day0 in
  add32 md w7 s.

(** src/common.rs:474-478 [iso_week_to_date] *)
Definition iso_week_to_date (md : mode) (woy : Z) (tm : pgtime) : res pgtime :=
  let* wj := iso_week_to_julian md (tm_year tm) woy in
  let* p := julian2date md wj in
  let '(y, m, d) := p in
  Ok (set_ymd y m d tm).

(** src/common.rs:482-520 [date_to_iso_year] *)
Definition date_to_iso_year (md : mode) (year mon mday : Z) : res Z :=
  let* dayn := date2julian md year mon mday in
  let* p := day4_day0 md year in
  let '(day4, day0) := p in
  let* s := sub32 md day4 day0 in
  let* p :=
    if dayn <? s
    then
      let* y1 := sub32 md year 1 in
      let* q := day4_day0 md y1 in
      Ok (q, y1)
    else Ok ((day4, day0), year) in
  let '((day4, day0), year) := p in
  let* s := sub32 md day4 day0 in
  let* n := sub32 md dayn s in
  let* result := add32 md (Z.quot n 7) 1 in
  if 52 <=? result
  then
    let* y1 := add32 md year 1 in
    let* p := day4_day0 md y1 in
    let '(day4, day0) := p in
    let* s := sub32 md day4 day0 in
    if s <=? dayn then add32 md year 1 else Ok year
  else Ok year.

(** ** PgTime methods. `fsec: &mut i64` is threaded as the second component. *)
Definition tmf : Type := (pgtime * Z)%type.

(** src/common.rs:160 *)
Definition truncate_micro_sec (x : tmf) : tmf := x.
(** src/common.rs:163-166. `(fsec / 1000) * 1000` cannot overflow. *)
Definition truncate_milli_sec (x : tmf) : tmf :=
  truncate_micro_sec (fst x, Z.quot (snd x) 1000 * 1000).
(** src/common.rs:169-172 *)
Definition truncate_sec (x : tmf) : tmf := truncate_milli_sec (fst x, 0).
(** src/common.rs:175-178 *)
Definition truncate_minute (x : tmf) : tmf := truncate_sec (set_sec 0 (fst x), snd x).
(** src/common.rs:181-184 *)
Definition truncate_hour (x : tmf) : tmf := truncate_minute (set_min 0 (fst x), snd x).
(** src/common.rs:187-190 *)
Definition truncate_day (x : tmf) : tmf := truncate_hour (set_hour 0 (fst x), snd x).
(** src/common.rs:193-196 *)
Definition truncate_interval_month (x : tmf) : tmf := truncate_day (set_mday 0 (fst x), snd x).
(** src/common.rs:199-202 *)
Definition truncate_timestamp_month (x : tmf) : tmf := truncate_day (set_mday 1 (fst x), snd x).
(** src/common.rs:205-208; 3 * (mon / 3) cannot overflow *)
Definition truncate_interval_quarter (x : tmf) : tmf :=
  truncate_interval_month (set_mon (3 * Z.quot (tm_mon (fst x)) 3) (fst x), snd x).
(** src/common.rs:211-214 *)
Definition truncate_timestamp_quarter (md : mode) (x : tmf) : res tmf :=
  let* m1 := sub32 md (tm_mon (fst x)) 1 in
  let* m := add32 md (3 * Z.quot m1 3) 1 in
  Ok (truncate_timestamp_month (set_mon m (fst x), snd x)).
(** src/common.rs:217-220 *)
Definition truncate_interval_year (x : tmf) : tmf :=
  truncate_interval_quarter (set_mon 0 (fst x), snd x).
(** src/common.rs:223-226 *)
Definition truncate_timestamp_year (md : mode) (x : tmf) : res tmf :=
  truncate_timestamp_quarter md (set_mon 1 (fst x), snd x).
(** src/common.rs:229-232 *)
Definition truncate_interval_decade (x : tmf) : tmf :=
  truncate_interval_year (set_year (Z.quot (tm_year (fst x)) 10 * 10) (fst x), snd x).
(** -((k - (year - 1)) / n) * n as at src/common.rs:241, 258, 277 *)
Definition bc_floor (md : mode) (k n year : Z) : res Z :=
  let* y1 := sub32 md year 1 in
  let* d := sub32 md k y1 in
  let* q := neg32 md (Z.quot d n) in
  mul32 md q n.
(** src/common.rs:235-244 *)
Definition truncate_timestamp_decade (md : mode) (x : tmf) : res tmf :=
  let* y :=
    if 0 <? tm_year (fst x) then Ok (Z.quot (tm_year (fst x)) 10 * 10)
    else bc_floor md 8 10 (tm_year (fst x)) in
  truncate_timestamp_year md (set_year y (fst x), snd x).
(** src/common.rs:247-250 *)
Definition truncate_interval_century (x : tmf) : tmf :=
  truncate_interval_decade (set_year (Z.quot (tm_year (fst x)) 100 * 100) (fst x), snd x).
(** src/common.rs:253-261 *)
Definition truncate_timestamp_century (md : mode) (x : tmf) : res tmf :=
  let* y :=
    if 0 <? tm_year (fst x) then
      let* a := add32 md (tm_year (fst x)) 99 in
      let* b := mul32 md (Z.quot a 100) 100 in
      sub32 md b 99
    else
      let* b := bc_floor md 99 100 (tm_year (fst x)) in
      add32 md b 1 in
  truncate_timestamp_year md (set_year y (fst x), snd x).
(** src/common.rs:264-267 *)
Definition truncate_interval_millennium (x : tmf) : tmf :=
  truncate_interval_century (set_year (Z.quot (tm_year (fst x)) 1000 * 1000) (fst x), snd x).
(** src/common.rs:270-280 *)
Definition truncate_timestamp_millennium (md : mode) (x : tmf) : res tmf :=
  let* y :=
    if 0 <? tm_year (fst x) then
      let* a := add32 md (tm_year (fst x)) 999 in
      let* b := mul32 md (Z.quot a 1000) 1000 in
      sub32 md b 999
    else
      let* b := bc_floor md 999 1000 (tm_year (fst x)) in
      add32 md b 1 in
  truncate_timestamp_century md (set_year y (fst x), snd x).
(** src/common.rs:141-157 [truncate_timestamp_week] *)
Definition truncate_timestamp_week (md : mode) (x : tmf) : res tmf :=
  let tm := fst x in
  let* woy := date_to_iso_week md (tm_year tm) (tm_mon tm) (tm_mday tm) in
  let* tm :=
    if (52 <=? woy) && (tm_mon tm =? 1)
    then let* y := sub32 md (tm_year tm) 1 in Ok (set_year y tm) else Ok tm in
  let* tm :=
    if (woy <=? 1) && (tm_mon tm =? MONTHS_PER_YEAR)
    then let* y := sub32 md (tm_year tm) 1 in Ok (set_year y tm) else Ok tm in
  let* tm := iso_week_to_date md woy tm in
  Ok (set_sec 0 (set_min 0 (set_hour 0 tm)), 0).

(** src/common.rs:285-345 [validate_date]: returns the updated PgTime. *)
Definition validate_date (md : mode) (f_mask : Z) (is_julian is2digits bc : bool) (tm : pgtime)
  : res pgtime :=
  let* tm :=
    if has f_mask (mask YEAR) then
      if is_julian then Ok tm
      else if bc then
        if tm_year tm <=? 0 then Err EOverflow
        else let* y1 := sub32 md (tm_year tm) 1 in
             let* y := neg32 md y1 in Ok (set_year y tm)
      else if is2digits then
        if tm_year tm <? 0 then Err EOverflow
        else if tm_year tm <? 70 then let* y := add32 md (tm_year tm) 2000 in Ok (set_year y tm)
        else if tm_year tm <? 100 then let* y := add32 md (tm_year tm) 1900 in Ok (set_year y tm)
        else Ok tm
      else if tm_year tm <=? 0 then Err EOverflow else Ok tm
    else Ok tm in
  let* tm :=
    if has f_mask (mask DOY) then
      let* j := date2julian md (tm_year tm) 1 1 in
      let* j := add32 md j (tm_yday tm) in
      let* j := sub32 md j 1 in
      let* p := julian2date md j in
      let '(y, m, d) := p in Ok (set_ymd y m d tm)
    else Ok tm in
  if has f_mask (mask MONTH) && ((tm_mon tm <? 1) || (MONTHS_PER_YEAR <? tm_mon tm))
  then Err EOverflow
  else if has f_mask (mask DAY) && ((tm_mday tm <? 1) || (31 <? tm_mday tm))
  then Err EOverflow
  else if Z.land f_mask DTK_DATE_M =? DTK_DATE_M then
    let* dom := days_of_month md (tm_year tm) (tm_mon tm) in
    if dom <? tm_mday tm then Err EOverflow else Ok tm
  else Ok tm.

(** src/common.rs:390-394 [time2t]: i32 products, then i64 *)
Definition time2t (md : mode) (hour min sec fsec : Z) : res Z :=
  let* h := mul32 md hour MINS_PER_HOUR in
  let* h := add32 md h min in
  let* h := mul32 md h SECS_PER_MINUTE in
  let* s := add64 md h sec in
  let* s := mul64 md s USECS_PER_SEC in
  add64 md s fsec.

(** src/common.rs:350-386 [to_timestamp]. All callers pass tz = None, so the
    `datetime2local` step (397-399) is not modelled. *)
Definition to_timestamp (md : mode) (tm : pgtime) (fsec : Z) : res Z :=
  if negb (is_valid_julian (tm_year tm) (tm_mon tm)) then Err EInvalid
  else
    let* j := date2julian md (tm_year tm) (tm_mon tm) (tm_mday tm) in
    let* e := date2julian md 2000 1 1 in
    let* date := sub32 md j e in
    let* time := time2t md (tm_hour tm) (tm_min tm) (tm_sec tm) fsec in
    let* r := ok_or (chk64 (date * USECS_PER_DAY)) EOverflow in
    let* r := ok_or (chk64 (r + time)) EOverflow in
    if negb (is_valid_timestamp r) then Err EInvalid else Ok r.

(** ** Text output. Bytes are integers 0..255. *)
Definition bytes := list Z.

(** The writers below produce the list of bytes appended to the output buffer. The real code
    writes into a 128 byte slice at a running offset; offsets only grow and nothing is written
    beyond the final offset, so running off the buffer is exactly the final length exceeding
    128. [fits] is applied by each `format` function. *)
Definition fits (out : bytes) : res bytes :=
  if Z.of_nat (length out) <=? 128 then Ok out else Fault FIndex.

(** Digits of [value] produced least significant first by the loops at src/common.rs:677-687
    (value < 0, remainders are <= 0 and are negated) and 690-699. [fuel] bounds the number of
    iterations: an i32 has at most 10 digits. *)
Fixpoint ltostr_rev (fuel : nat) (value : Z) : res bytes :=
  match fuel with
  | O => Fault FFuel
  | S f =>
      let v := Z.quot value 10 in
      let r := value - v * 10 in
      let c := 48 + Z.abs r in
      if v =? 0 then Ok [c]
      else let* rest := ltostr_rev f v in Ok (c :: rest)
  end.

(** src/common.rs:664-711 [pg_ltostr]; the reversal loop 705-709 is [rev] *)
Definition pg_ltostr (value : Z) : res bytes :=
  let* ds := ltostr_rev 11 value in
  Ok (if value <? 0 then 45 :: rev ds else rev ds).

(** Fill loop of src/common.rs:750-756 / 759-765: fills [w] positions from the right; returns
    the text and what is left of the number. For negative numbers line 755 computes
    b'0' - (remainder as u8), which underflows u8 unless the remainder is 0. *)
Fixpoint zeropad_fill (md : mode) (w : nat) (num : Z) (acc : bytes) : res (bytes * Z) :=
  match w with
  | O => Ok (acc, num)
  | S w' =>
      let n := Z.quot num 10 in
      let r := num - n * 10 in
      let* c := (if num <? 0 then aru8 md (48 - wrapu8 r) else Ok (48 + r)) in
      zeropad_fill md w' n (c :: acc)
  end.

(** src/common.rs:733-777 [pg_ltostr_zeropad], min_width >= 1 in all uses.
    Simplification: within the negative loop the test "num < 0" of the original is done once
    before the loop; when num has become 0 both give '0'. *)
Definition pg_ltostr_zeropad (md : mode) (value : Z) (min_width : nat) : res bytes :=
  let* p :=
    if value <? 0
    then let* p := zeropad_fill md (min_width - 1) value [] in Ok (45 :: fst p, snd p)
    else zeropad_fill md min_width value [] in
  let '(out, num) := p in
  if negb (num =? 0) then pg_ltostr value else Ok out.

(** Fraction loop of src/common.rs:814-828: digits from the right, trailing zeros skipped. *)
Fixpoint frac_digits (precision : nat) (value : Z) (got_nonzero : bool) (acc : bytes) : bytes * Z :=
  match precision with
  | O => (acc, value)
  | S p =>
      let v := Z.quot value 10 in
      let r := value - v * 10 in
      let g := got_nonzero || negb (r =? 0) in
      frac_digits p v g (if g then (48 + r) :: acc else acc)
  end.

(** src/common.rs:788-841 [append_seconds]. In the branch 833-835 (fsec too large for the
    precision) the real code returns a too small length; that cut is modelled with [firstn]. *)
Definition append_seconds (md : mode) (sec fsec : Z) (precision : nat) (fill_zeros : bool)
  : res bytes :=
  let* asec := abs32 md sec in
  let* s := if fill_zeros then pg_ltostr_zeropad md asec 2 else pg_ltostr asec in
  if negb (fsec =? 0) then
    let* value := abs64 md fsec in
    let '(ds, value') := frac_digits precision value false [] in
    if negb (value' =? 0) then
      let* t := pg_ltostr (wrap32 value) in
      Ok (firstn (length t) (s ++ 46 :: t))
    else Ok (s ++ 46 :: ds)
  else Ok s.

(** Byte string literals b"..." *)
Fixpoint bs (s : String.string) : bytes :=
  match s with
  | String.EmptyString => []
  | String.String c r => Z.of_N (Ascii.N_of_ascii c) :: bs r
  end.

(** src/common.rs:594-601 [get_month_name] *)
Definition MONTH_NAMES : list bytes :=
  List.map bs ["Jan"; "Feb"; "Mar"; "Apr"; "May"; "Jun"; "Jul"; "Aug"; "Sep"; "Oct"; "Nov"; "Dec";
          "Unknow"]%string.
Definition get_month_name (md : mode) (month : Z) : res bytes := index_minus1 md MONTH_NAMES month.

(** src/common.rs:604-610 [get_wday_name] *)
Definition WDAY_NAMES : list bytes :=
  List.map bs ["Sun"; "Mon"; "Tue"; "Wed"; "Thu"; "Fri"; "Sat"; "unknow"]%string.
Definition get_wday_name (wday : Z) : res bytes := index WDAY_NAMES wday.
