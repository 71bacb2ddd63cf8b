(** Model of the arithmetic API: src/date.rs, src/time.rs, src/timestamp.rs, src/interval.rs and
    the timestamp break-down of src/parse.rs. A Date is its i32 value, Time and Timestamp are
    their i64 value; infinities are the extreme values. *)
From Verif Require Export Model.Common.

(** ** Timestamp break-down *)

(** src/parse.rs:1050-1058 [date2time] -> (hour, min, sec, fsec). `as i32` wraps. *)
Definition date2time (md : mode) (jd : Z) : res (Z * Z * Z * Z) :=
  let hour := wrap32 (Z.quot jd USECS_PER_HOUR) in
  let* h := mul64 md hour USECS_PER_HOUR in
  let* time := sub64 md jd h in
  let min := wrap32 (Z.quot time USECS_PER_MINUTE) in
  let* m := mul64 md min USECS_PER_MINUTE in
  let* time := sub64 md time m in
  let sec := wrap32 (Z.quot time USECS_PER_SEC) in
  let* s := mul64 md sec USECS_PER_SEC in
  let* fsec := sub64 md time s in
  Ok (hour, min, sec, fsec).

(** src/parse.rs:1064-1068 [timestamp_modulo] -> (remainder, quotient) *)
Definition timestamp_modulo (md : mode) (t per_unit : Z) : res (Z * Z) :=
  let q := Z.quot t per_unit in
  let* v :=
    if negb (q =? 0)
    then let* qu := mul64 md q per_unit in sub64 md t qu
    else Ok t in
  Ok (v, q).

(** src/parse.rs:1076-1113 [timestamp2time] with tz = None (all callers); on success the
    date/time fields of a fresh PgTime are set. *)
Definition timestamp2time (md : mode) (dt : Z) : res (pgtime * Z) :=
  let* p := timestamp_modulo md dt USECS_PER_DAY in
  let '(time, date) := p in
  let* p :=
    if time <? 0
    then let* t := add64 md time USECS_PER_DAY in
         let* d := sub64 md date 1 in Ok (t, d)
    else Ok (time, date) in
  let '(time, date) := p in
  let* date := add64 md date POSTGRES_EPOCH_JDATE in
  if (date <? 0) || (i32_max <? date) then Err EOverflow
  else
    let* p := julian2date md (wrap32 date) in
    let '(y, m, d) := p in
    let* q := date2time md time in
    let '(hour, min, sec, fsec) := q in
    Ok (set_isdst (-1) (set_sec sec (set_min min (set_hour hour (set_ymd y m d tm_new)))), fsec).

(** ** Interval, src/interval.rs *)

(** src/interval.rs:118-142 [try_from_ymwd_hms] *)
Definition interval_try_from_ymwd_hms (years months weeks days hours minutes : Z) (seconds : f64)
  : res interval :=
  if is_inf seconds || is_nan seconds then Err EOverflow
  else
    let months := wrap32 (wrap32 (years * MONTHS_PER_YEAR) + months) in
    let days := wrap32 (wrap32 (weeks * 7) + days) in
    let secs := f64_to_i64 (fround (fmul seconds (f64_of_Z USECS_PER_SEC))) in
    let time :=
      wrap64 (wrap64 (wrap64 (hours * (SECS_PER_HOUR * USECS_PER_SEC))
                      + wrap64 (minutes * (SECS_PER_MINUTE * USECS_PER_SEC))) + secs) in
    Ok (from_mdt months days time).

(** src/interval.rs:146-165 [add_interval] *)
Definition interval_add (a b : interval) : res interval :=
  let* m := ok_or (chk32 (iv_month a + iv_month b)) EOverflow in
  let* d := ok_or (chk32 (iv_day a + iv_day b)) EOverflow in
  let* t := ok_or (chk64 (iv_time a + iv_time b)) EOverflow in
  Ok (from_mdt m d t).

(** src/interval.rs:169-189 [negate] *)
Definition interval_negate (a : interval) : res interval :=
  let* t := ok_or (chk64 (- iv_time a)) EOverflow in
  let* d := ok_or (chk32 (- iv_day a)) EOverflow in
  let* m := ok_or (chk32 (- iv_month a)) EOverflow in
  Ok (from_mdt m d t).

(** src/interval.rs:193-212 [sub_interval] *)
Definition interval_sub (a b : interval) : res interval :=
  let* m := ok_or (chk32 (iv_month a - iv_month b)) EOverflow in
  let* d := ok_or (chk32 (iv_day a - iv_day b)) EOverflow in
  let* t := ok_or (chk64 (iv_time a - iv_time b)) EOverflow in
  Ok (from_mdt m d t).

(** src/interval.rs:985-992 operator + *)
Definition interval_op_add (a b : interval) : res interval :=
  match interval_add a b with Ok r => Ok r | _ => Fault FUnwrap end.

(** The final sign adjustment of day/time at src/interval.rs:224-230 and 277-283 *)
Definition fix_day_time (md : mode) (day time : Z) : res (Z * Z) :=
  if (0 <? day) && (time <? 0) then
    let* t := add64 md time USECS_PER_DAY in
    let* d := sub32 md day 1 in Ok (d, t)
  else if (day <? 0) && (0 <? time) then
    let* t := sub64 md time USECS_PER_DAY in
    let* d := add32 md day 1 in Ok (d, t)
  else Ok (day, time).

(** src/interval.rs:219-232 [justify_hours]. `whole_day as i32` cannot lose bits. *)
Definition justify_hours (md : mode) (a : interval) : res interval :=
  let* p := time_modulo md (iv_time a) USECS_PER_DAY in
  let '(time, whole_day) := p in
  let day := wrap32 (iv_day a + wrap32 whole_day) in
  let* q := fix_day_time md day time in
  let '(day, time) := q in
  Ok (from_mdt (iv_month a) day time).

(** src/interval.rs:237-251 [justify_days] *)
Definition justify_days (md : mode) (a : interval) : res interval :=
  let whole_month := Z.quot (iv_day a) DAYS_PER_MONTH in
  let* w := mul32 md whole_month DAYS_PER_MONTH in
  let* day := sub32 md (iv_day a) w in
  let month := wrap32 (iv_month a + whole_month) in
  if (0 <? month) && (day <? 0) then
    let* d := add32 md day DAYS_PER_MONTH in
    let* m := sub32 md month 1 in Ok (from_mdt m d (iv_time a))
  else if (month <? 0) && (0 <? day) then
    let* d := sub32 md day DAYS_PER_MONTH in
    let* m := add32 md month 1 in Ok (from_mdt m d (iv_time a))
  else Ok (from_mdt month day (iv_time a)).

(** src/interval.rs:260-285 [justify_interval] *)
Definition justify_interval (md : mode) (a : interval) : res interval :=
  let* p := time_modulo md (iv_time a) USECS_PER_DAY in
  let '(time, whole_day) := p in
  let day := wrap32 (iv_day a + wrap32 whole_day) in
  let whole_month := Z.quot day DAYS_PER_MONTH in
  let* w := mul32 md whole_month DAYS_PER_MONTH in
  let day := wrap32 (day - w) in
  let month := wrap32 (iv_month a + whole_month) in
  let* p :=
    if (0 <? month) && ((day <? 0) || ((day =? 0) && (time <? 0))) then
      let* d := add32 md day DAYS_PER_MONTH in
      let* m := sub32 md month 1 in Ok (m, d)
    else if (month <? 0) && ((0 <? day) || ((day =? 0) && (0 <? time))) then
      let* d := sub32 md day DAYS_PER_MONTH in
      let* m := add32 md month 1 in Ok (m, d)
    else Ok (month, day) in
  let '(month, day) := p in
  let* q := fix_day_time md day time in
  let '(day, time) := q in
  Ok (from_mdt month day time).

(** The part of mul_f64/div_f64 after the products are known (src/interval.rs:324-343 and
    370-386): [fm], [fd], [ft] are month, day and time as f64 after scaling; [month], [day] their
    truncations. *)
Definition cascade_days (md : mode) (fm fd : f64) (month day : Z) : res (Z * f64) :=
  let mrd := timestamp_round (fmul (fsub fm (f64_of_Z month)) (f64_of_Z DAYS_PER_MONTH)) in
  let mrd_i := f64_to_i32 mrd in
  let sr := timestamp_round
              (fmul (fsub (fadd (fsub fd (f64_of_Z day)) mrd) (f64_of_Z mrd_i))
                    (f64_of_Z SECS_PER_DAY)) in
  let* p :=
    if fge (fabs sr) (f64_of_Z SECS_PER_DAY) then
      let q := f64_to_i32 (fdiv sr (f64_of_Z SECS_PER_DAY)) in
      let* day := add32 md day q in
      let* qs := mul32 md q SECS_PER_DAY in
      Ok (day, fsub sr (f64_of_Z qs))
    else Ok (day, sr) in
  let '(day, sr) := p in
  let* day := add32 md day mrd_i in
  Ok (day, sr).

(** src/interval.rs:289-351 [mul_f64] *)
Definition interval_mul_f64 (md : mode) (a : interval) (factor : f64) : res interval :=
  let fm := fmul (f64_of_Z (iv_month a)) factor in
  if is_nan fm || fgt fm (f64_of_Z i32_max) || flt fm (f64_of_Z i32_min) then Err EOverflow
  else
    let fd := fmul (f64_of_Z (iv_day a)) factor in
    if is_nan fd || fgt fd (f64_of_Z i32_max) || flt fd (f64_of_Z i32_min) then Err EOverflow
    else
      let month := f64_to_i32 fm in
      let* p := cascade_days md fm fd month (f64_to_i32 fd) in
      let '(day, sr) := p in
      let rt := fround (fadd (fmul (f64_of_Z (iv_time a)) factor)
                             (fmul sr (f64_of_Z USECS_PER_SEC))) in
      if fgt rt (f64_of_Z i64_max) || flt rt (f64_of_Z i64_min) then Err EOverflow
      else Ok (from_mdt month day (f64_to_i64 rt)).

(** src/interval.rs:355-388 [div_f64] *)
Definition interval_div_f64 (md : mode) (a : interval) (factor : f64) : res interval :=
  if feq factor f0 then Err EInvalid
  else
    let fm := fdiv (f64_of_Z (iv_month a)) factor in
    let fd := fdiv (f64_of_Z (iv_day a)) factor in
    let month := f64_to_i32 fm in
    let* p := cascade_days md fm fd month (f64_to_i32 fd) in
    let '(day, sr) := p in
    let rt := fround (fadd (fdiv (f64_of_Z (iv_time a)) factor)
                           (fmul sr (f64_of_Z USECS_PER_SEC))) in
    Ok (from_mdt month day (f64_to_i64 rt)).

(** src/interval.rs:392-403 [from_pgtime]: months through f64, hours*60 in i32 *)
Definition interval_from_pgtime (md : mode) (tm : pgtime) (fsec : Z) : res interval :=
  let total := fadd (fmul (f64_of_Z (tm_year tm)) (f64_of_Z MONTHS_PER_YEAR))
                    (f64_of_Z (tm_mon tm)) in
  if fgt total (f64_of_Z i32_max) || flt total (f64_of_Z i32_min) then Err EOverflow
  else
    let month := f64_to_i32 total in
    let* h := mul32 md (tm_hour tm) 60 in
    let* hm := add32 md h (tm_min tm) in
    let* s := mul64 md hm 60 in
    let* s := add64 md s (tm_sec tm) in
    let* s := mul64 md s USECS_PER_SEC in
    let* time := add64 md s fsec in
    Ok (from_mdt month (tm_mday tm) time).

(** src/interval.rs:407-426 [to_pgtime] on a fresh PgTime *)
Definition interval_to_pgtime (md : mode) (a : interval) : res (pgtime * Z) :=
  let tm := set_mday (iv_day a)
             (set_mon (Z.rem (iv_month a) MONTHS_PER_YEAR)
               (set_year (Z.quot (iv_month a) MONTHS_PER_YEAR) tm_new)) in
  let tfrac := Z.quot (iv_time a) USECS_PER_HOUR in
  let* x := mul64 md tfrac USECS_PER_HOUR in
  let* time := sub64 md (iv_time a) x in
  if (tfrac <? i32_min) || (i32_max <? tfrac) then Err EOverflow
  else
    let hour := wrap32 tfrac in
    let tfrac := Z.quot time USECS_PER_MINUTE in
    let* x := mul64 md tfrac USECS_PER_MINUTE in
    let* time := sub64 md time x in
    let min := wrap32 tfrac in
    let tfrac := Z.quot time USECS_PER_SEC in
    let* x := mul64 md tfrac USECS_PER_SEC in
    let* fsec := sub64 md time x in
    let sec := wrap32 tfrac in
    Ok (set_sec sec (set_min min (set_hour hour tm)), fsec).

(** Round a microsecond count to a multiple of scale.(p): src/time.rs:88-95,
    src/timestamp.rs:234-244, src/interval.rs:518-526. Tables at src/time.rs:26-29,
    src/timestamp.rs:35-46, src/interval.rs:51-54. *)
Definition SCALES : list Z := [1000000; 100000; 10000; 1000; 100; 10; 1].
Definition OFFSETS : list Z := [500000; 50000; 5000; 500; 50; 5; 0].
Definition round_scale (md : mode) (v p : Z) : res Z :=
  let* off := index OFFSETS p in
  let* sc := index SCALES p in
  if 0 <=? v then
    let* a := add64 md v off in
    mul64 md (Z.quot a sc) sc
  else
    let* nv := neg64 md v in
    let* a := add64 md nv off in
    let* b := mul64 md (Z.quot a sc) sc in
    neg64 md b.

(** src/interval.rs:26-49, 57-70 *)
Definition INTERVAL_FULL_RANGE := 32767.
Definition INTERVAL_FULL_PRECISION := 65535.
Definition interval_range (t : Z) : Z := Z.land (Z.shiftr t 16) 32767.
Definition interval_precision (t : Z) : Z := Z.land t 65535.
Definition INTERVAL_MASK_Y := mask YEAR.
Definition INTERVAL_MASK_M := mask MONTH.
Definition INTERVAL_MASK_YM := Z.lor (mask YEAR) (mask MONTH).
Definition INTERVAL_MASK_D := mask DAY.
Definition INTERVAL_MASK_H := mask HOUR.
Definition INTERVAL_MASK_DH := Z.lor (mask DAY) (mask HOUR).
Definition INTERVAL_MASK_MIN := mask MINUTE.
Definition INTERVAL_MASK_HM := Z.lor (mask HOUR) (mask MINUTE).
Definition INTERVAL_MASK_DHM := Z.lor (Z.lor (mask DAY) (mask HOUR)) (mask MINUTE).
Definition INTERVAL_MASK_S := mask SECOND.
Definition INTERVAL_MASK_MS := Z.lor (mask MINUTE) (mask SECOND).
Definition INTERVAL_MASK_HMS := Z.lor (Z.lor (mask HOUR) (mask MINUTE)) (mask SECOND).
Definition INTERVAL_MASK_DHMS :=
  Z.lor (Z.lor (Z.lor (mask DAY) (mask HOUR)) (mask MINUTE)) (mask SECOND).

(** Truncate toward zero to a multiple: cannot overflow *)
Definition trunc_to (v unit : Z) : Z := Z.quot v unit * unit.

(** src/interval.rs:429-531 [adjust_by_typmod] *)
Definition interval_adjust_by_typmod (md : mode) (a : interval) (typmod : Z) : res interval :=
  if 0 <=? typmod then
    let range := interval_range typmod in
    let precision := interval_precision typmod in
    let* a :=
      if range =? INTERVAL_FULL_RANGE then Ok a
      else if range =? INTERVAL_MASK_Y then
        Ok (from_mdt (trunc_to (iv_month a) MONTHS_PER_YEAR) 0 0)
      else if (range =? INTERVAL_MASK_M) || (range =? INTERVAL_MASK_YM) then
        Ok (from_mdt (iv_month a) 0 0)
      else if range =? INTERVAL_MASK_D then Ok (from_mdt (iv_month a) (iv_day a) 0)
      else if range =? INTERVAL_MASK_H then
        Ok (from_mdt (iv_month a) (iv_day a) (trunc_to (iv_time a) USECS_PER_HOUR))
      else if range =? INTERVAL_MASK_MIN then
        Ok (from_mdt (iv_month a) (iv_day a) (trunc_to (iv_time a) USECS_PER_MINUTE))
      else if range =? INTERVAL_MASK_S then Ok a
      else if range =? INTERVAL_MASK_DH then
        Ok (from_mdt (iv_month a) (iv_day a) (trunc_to (iv_time a) USECS_PER_HOUR))
      else if range =? INTERVAL_MASK_DHM then
        Ok (from_mdt (iv_month a) (iv_day a) (trunc_to (iv_time a) USECS_PER_MINUTE))
      else if range =? INTERVAL_MASK_DHMS then Ok a
      else if range =? INTERVAL_MASK_HM then
        Ok (from_mdt (iv_month a) (iv_day a) (trunc_to (iv_time a) USECS_PER_MINUTE))
      else if (range =? INTERVAL_MASK_HMS) || (range =? INTERVAL_MASK_MS) then Ok a
      else Err EInvalid in
    if negb (precision =? INTERVAL_FULL_PRECISION) then
      if (precision <? 0) || (6 <? precision) then Err EOverflow
      else let* t := round_scale md (iv_time a) precision in
           Ok (from_mdt (iv_month a) (iv_day a) t)
    else Ok a
  else Ok a.

(** src/interval.rs:974-982 `i128::from(Interval)`; i128 never overflows here *)
Definition interval_to_i128 (a : interval) : Z :=
  iv_time a + iv_day a * USECS_PER_DAY + iv_month a * DAYS_PER_MONTH * USECS_PER_DAY.

(** src/interval.rs:994-1010 [cmp] / [partial_cmp] *)
Definition interval_cmp (a b : interval) : comparison :=
  Z.compare (interval_to_i128 a) (interval_to_i128 b).

(** src/interval.rs:73 derived PartialEq *)
Definition interval_eqb (a b : interval) : bool :=
  (iv_time a =? iv_time b) && (iv_day a =? iv_day b) && (iv_month a =? iv_month b).

(** src/interval.rs:1067-1098 [truncate] *)
Definition interval_truncate (md : mode) (a : interval) (ty : field_type) (unit : date_unit)
  : res interval :=
  match ty with
  | FTEpoch => Err EInvalid
  | FTUnit =>
      let* x := interval_to_pgtime md a in
      let* y :=
        match unit with
        | Millennium => Ok (truncate_interval_millennium x)
        | Century => Ok (truncate_interval_century x)
        | Decade => Ok (truncate_interval_decade x)
        | Year => Ok (truncate_interval_year x)
        | Quarter => Ok (truncate_interval_quarter x)
        | Month => Ok (truncate_interval_month x)
        | Day => Ok (truncate_day x)
        | Hour => Ok (truncate_hour x)
        | Minute => Ok (truncate_minute x)
        | Second => Ok (truncate_sec x)
        | MilliSec => Ok (truncate_milli_sec x)
        | MicroSec => Ok (truncate_micro_sec x)
        | _ => Err EInvalid
        end in
      interval_from_pgtime md (fst y) (snd y)
  end.

(** Seconds with fraction as f64, src/interval.rs:1022-1024, src/time.rs:287-289,
    src/timestamp.rs:763-765 *)
Definition sec_micro (tm : pgtime) (fsec : Z) : f64 :=
  fadd (fmul (f64_of_Z (tm_sec tm)) (f64_of_Z 1000000)) (f64_of_Z fsec).
Definition sec_milli (tm : pgtime) (fsec : Z) : f64 :=
  fadd (fmul (f64_of_Z (tm_sec tm)) (f64_of_Z 1000)) (fdiv (f64_of_Z fsec) (f64_of_Z 1000)).
Definition sec_sec (tm : pgtime) (fsec : Z) : f64 :=
  fadd (f64_of_Z (tm_sec tm)) (fdiv (f64_of_Z fsec) (f64_of_Z 1000000)).

(** src/common.rs:613 DAYS_PER_YEAR = 365.25 (exact in binary) *)
Definition f_days_per_year : f64 := fdiv (f64_of_Z 1461) (f64_of_Z 4).

(** src/interval.rs:1015-1057 [date_part] *)
Definition interval_date_part (md : mode) (a : interval) (ty : field_type) (unit : date_unit)
  : res f64 :=
  match ty with
  | FTUnit =>
      let* x := interval_to_pgtime md a in
      let '(tm, fsec) := x in
      match unit with
      | MicroSec => Ok (sec_micro tm fsec)
      | MilliSec => Ok (sec_milli tm fsec)
      | Second => Ok (sec_sec tm fsec)
      | Minute => Ok (f64_of_Z (tm_min tm))
      | Hour => Ok (f64_of_Z (tm_hour tm))
      | Day => Ok (f64_of_Z (tm_mday tm))
      | Month => Ok (f64_of_Z (tm_mon tm))
      | Quarter => let* q := add32 md (Z.quot (tm_mon tm) 3) 1 in Ok (f64_of_Z q)
      | Year => Ok (f64_of_Z (tm_year tm))
      | Decade => Ok (f64_of_Z (Z.quot (tm_year tm) 10))
      | Century => Ok (f64_of_Z (Z.quot (tm_year tm) 100))
      | Millennium => Ok (f64_of_Z (Z.quot (tm_year tm) 1000))
      | _ => Err EInvalid
      end
  | FTEpoch =>
      match unit with
      | Epoch =>
          let r := fdiv (f64_of_Z (iv_time a)) (f64_of_Z 1000000) in
          let r := fadd r (fmul (fmul f_days_per_year (f64_of_Z SECS_PER_DAY))
                                (f64_of_Z (Z.quot (iv_month a) MONTHS_PER_YEAR))) in
          let r := fadd r (fmul (fmul (f64_of_Z DAYS_PER_MONTH) (f64_of_Z SECS_PER_DAY))
                                (f64_of_Z (Z.rem (iv_month a) MONTHS_PER_YEAR))) in
          let r := fadd r (fmul (f64_of_Z SECS_PER_DAY) (f64_of_Z (iv_day a))) in
          Ok r
      | _ => Err EInvalid
      end
  end.

(** ** Date, src/date.rs *)
Definition DATE_END_JULIAN := 2147483494.
(** src/date.rs:44-47 [is_valid_date] *)
Definition is_valid_date (d : Z) : bool :=
  (0 - POSTGRES_EPOCH_JDATE <=? d) && (d <? DATE_END_JULIAN - POSTGRES_EPOCH_JDATE).

(** src/date.rs:99-106, 417-419 *)
Definition date_is_finite (d : Z) : bool := negb (d =? i32_min) && negb (d =? i32_max).

(** src/date.rs:69-96 [try_from_ymd] *)
Definition date_try_from_ymd (md : mode) (y m d : Z) : res Z :=
  let tm := set_mday d (set_mon m (set_year y tm_new)) in
  let* p :=
    if tm_year tm <? 0
    then let* ny := neg32 md (tm_year tm) in Ok (set_year ny tm, true)
    else Ok (tm, false) in
  let '(tm, bc) := p in
  let* tm := validate_date md DTK_DATE_M false false bc tm in
  if negb (is_valid_julian (tm_year tm) (tm_mon tm)) then Err EOverflow
  else
    let* j := date2julian md (tm_year tm) (tm_mon tm) (tm_mday tm) in
    let* date := sub32 md j POSTGRES_EPOCH_JDATE in
    if negb (is_valid_date date) then Err EOverflow else Ok date.

(** src/date.rs:115-132 [add_days] *)
Definition date_add_days (d days : Z) : res Z :=
  if negb (date_is_finite d) then Ok d
  else
    let* r := ok_or (chk32 (d + days)) EOverflow in
    if is_valid_date r then Ok r else Err EOverflow.

(** src/date.rs:170-190 [sub_days] *)
Definition date_sub_days (d days : Z) : res Z :=
  if negb (date_is_finite d) then Ok d
  else
    match chk32 (d - days) with
    | Some r => if is_valid_date r then Ok r else Err EInvalid
    | None => Err EOverflow
    end.

(** src/date.rs:157-166 [sub_date] *)
Definition date_sub_date (md : mode) (a b : Z) : res Z :=
  if negb (date_is_finite a) || negb (date_is_finite b) then Err EInvalid
  else sub32 md a b.

(** src/date.rs:383-401 TryFrom<Timestamp> for Date *)
Definition date_of_timestamp (md : mode) (t : Z) : res Z :=
  if t =? i64_min then Ok i32_min
  else if t =? i64_max then Ok i32_max
  else
    let* x := timestamp2time md t in
    let '(tm, _) := x in
    let* j := date2julian md (tm_year tm) (tm_mon tm) (tm_mday tm) in
    sub32 md j POSTGRES_EPOCH_JDATE.

(** ** Timestamp, src/timestamp.rs *)

(** src/timestamp.rs:870-872 *)
Definition ts_is_finite (t : Z) : bool := negb (t =? i64_min) && negb (t =? i64_max).

(** src/timestamp.rs:721-743 TryFrom<Date> for Timestamp *)
Definition timestamp_of_date (md : mode) (d : Z) : res Z :=
  if d =? i32_min then Ok i64_min
  else if d =? i32_max then Ok i64_max
  else
    let* lim := sub32 md TIMESTAMP_END_JULIAN POSTGRES_EPOCH_JDATE in
    if lim <=? d then Err EOverflow
    else mul64 md d USECS_PER_DAY.

(** Clock reading check common to src/time.rs:55-62 and src/timestamp.rs:110-118 (without the
    NaN test) *)
Definition bad_clock (h m : Z) (s : f64) : bool :=
  (h <? 0) || (m <? 0) || (MINS_PER_HOUR - 1 <? m) || flt s f0
  || fgt s (f64_of_Z SECS_PER_MINUTE) || (HOURS_PER_DAY <? h)
  || ((h =? HOURS_PER_DAY) && ((0 <? m) || fgt s f0)).

(** src/time.rs:67-68, src/timestamp.rs:124-125 *)
Definition clock_usecs (md : mode) (h m : Z) (s : f64) : res Z :=
  let* a := mul32 md h MINS_PER_HOUR in
  let* a := add32 md a m in
  let* a := mul32 md a SECS_PER_MINUTE in
  let* a := mul64 md a USECS_PER_SEC in
  add64 md a (f64_to_i64 (fround (fmul s (f64_of_Z USECS_PER_SEC)))).

(** src/timestamp.rs:83-147 [try_from_ymd_hms] *)
Definition timestamp_try_from_ymd_hms (md : mode) (year month day hour minute : Z) (second : f64)
  : res Z :=
  let tm := set_mday day (set_mon month (set_year year tm_new)) in
  let* tm := validate_date md DTK_DATE_M false false false tm in
  if negb (is_valid_julian (tm_year tm) (tm_mon tm)) then Err EOverflow
  else
    let* j := date2julian md (tm_year tm) (tm_mon tm) (tm_mday tm) in
    let* date := sub32 md j POSTGRES_EPOCH_JDATE in
    if is_nan second || bad_clock hour minute second then Err EOverflow
    else
      let* time := clock_usecs md hour minute second in
      let* r := ok_or (chk64 (date * USECS_PER_DAY)) EOverflow in
      let* r := ok_or (chk64 (r + time)) EOverflow in
      if ((r <? 0) && (0 <? date)) || ((0 <? r) && (date <? -1)) then Err EOverflow
      else if negb (is_valid_timestamp r) then Err EOverflow else Ok r.

(** src/timestamp.rs:225-248 [adjust_by_typmod] *)
Definition timestamp_adjust_by_typmod (md : mode) (t typmod : Z) : res Z :=
  if ts_is_finite t && negb (typmod =? -1) && negb (typmod =? 6) then
    if (typmod <? 0) || (6 <? typmod) then Err EInvalid
    else round_scale md t typmod
  else Ok t.

(** src/timestamp.rs:258-308 [add_interval] *)
Definition timestamp_add_interval (md : mode) (t : Z) (span : interval) : res Z :=
  if negb (ts_is_finite t) then Ok t
  else
    let* ts :=
      if negb (iv_month span =? 0) then
        let* x := timestamp2time md t in
        let '(tm, fsec) := x in
        let mon := wrap32 (tm_mon tm + iv_month span) in
        let* p :=
          if MONTHS_PER_YEAR <? mon then
            let* m1 := sub32 md mon 1 in
            let year := wrap32 (tm_year tm + Z.quot m1 MONTHS_PER_YEAR) in
            let* m := add32 md (Z.rem m1 MONTHS_PER_YEAR) 1 in
            Ok (year, m)
          else if mon <? 1 then
            let* q := sub32 md (Z.quot mon MONTHS_PER_YEAR) 1 in
            let year := wrap32 (tm_year tm + q) in
            let* m := add32 md (Z.rem mon MONTHS_PER_YEAR) MONTHS_PER_YEAR in
            Ok (year, m)
          else Ok (tm_year tm, mon) in
        let '(year, mon) := p in
        let* mx := days_of_month md year mon in
        let mday := if mx <? tm_mday tm then mx else tm_mday tm in
        to_timestamp md (set_mday mday (set_mon mon (set_year year tm))) fsec
      else Ok t in
    let* ts :=
      if negb (iv_day span =? 0) then
        let* x := timestamp2time md ts in
        let '(tm, fsec) := x in
        let* j := date2julian md (tm_year tm) (tm_mon tm) (tm_mday tm) in
        let julian := wrap32 (j + iv_day span) in
        let* p := julian2date md julian in
        let '(y, m, d) := p in
        to_timestamp md (set_ymd y m d tm) fsec
      else Ok ts in
    let ts := wrap64 (ts + iv_time span) in
    if negb (is_valid_timestamp ts) then Err EInvalid else Ok ts.

(** src/interval.rs:967-972 From<Time> for Interval *)
Definition interval_of_time (t : Z) : interval := from_mdt 0 0 t.

(** src/timestamp.rs:312-315 [add_time] *)
Definition timestamp_add_time (md : mode) (t time : Z) : res Z :=
  timestamp_add_interval md t (interval_of_time time).

(** src/timestamp.rs:319-322 [sub_interval] *)
Definition timestamp_sub_interval (md : mode) (t : Z) (span : interval) : res Z :=
  let* n := interval_negate span in timestamp_add_interval md t n.

(** src/timestamp.rs:333-336 [sub_time] *)
Definition timestamp_sub_time (md : mode) (t time : Z) : res Z :=
  timestamp_sub_interval md t (interval_of_time time).

(** src/timestamp.rs:340-377 [sub_timestamp] *)
Definition timestamp_sub_timestamp (md : mode) (a b : Z) : res interval :=
  if negb (ts_is_finite a) || negb (ts_is_finite b) then Err EInvalid
  else
    let* time := sub64 md a b in
    justify_hours md (from_mdt 0 0 time).

(** src/timestamp.rs:326-329 [sub_date] *)
Definition timestamp_sub_date (md : mode) (t d : Z) : res interval :=
  let* x := timestamp_of_date md d in timestamp_sub_timestamp md t x.

(** The borrow loop `while lo < 0 { lo += unit; hi -= 1 }` of src/timestamp.rs:422-455, with
    fuel; [wide] selects i64 for the low field (fsec). *)
Fixpoint borrow (md : mode) (wide : bool) (fuel : nat) (unit lo hi : Z) : res (Z * Z) :=
  if lo <? 0 then
    match fuel with
    | O => Fault FFuel
    | S f =>
        let* lo := (if wide then add64 md lo unit else add32 md lo unit) in
        let* hi := sub32 md hi 1 in
        borrow md wide f unit lo hi
    end
  else Ok (lo, hi).

(** src/timestamp.rs:420-457, the borrow chain of [age]; [ey], [em] are year and month of the
    earlier timestamp. *)
Definition age_borrow (md : mode) (ey em fsec sec min hour mday mon year : Z)
  : res (Z * Z * Z * Z * Z * Z * Z) :=
  let* p := borrow md true 3 USECS_PER_SEC fsec sec in
  let '(fsec, sec) := p in
  let* p := borrow md false 3 SECS_PER_MINUTE sec min in
  let '(sec, min) := p in
  let* p := borrow md false 3 MINS_PER_HOUR min hour in
  let '(min, hour) := p in
  let* p := borrow md false 3 HOURS_PER_DAY hour mday in
  let '(hour, mday) := p in
  let* p :=
    if mday <? 0 then
      let* dom := days_of_month md ey em in
      borrow md false 3 dom mday mon
    else Ok (mday, mon) in
  let '(mday, mon) := p in
  let* p := borrow md false 3 MONTHS_PER_YEAR mon year in
  let '(mon, year) := p in
  Ok (fsec, sec, min, hour, mday, mon, year).

(** src/timestamp.rs:384-470 [age] *)
Definition timestamp_age (md : mode) (a b : Z) : res interval :=
  let* x1 := timestamp2time md a in
  let '(tm1, fsec1) := x1 in
  let* x2 := timestamp2time md b in
  let '(tm2, fsec2) := x2 in
  let* fsec := sub64 md fsec1 fsec2 in
  let* sec := sub32 md (tm_sec tm1) (tm_sec tm2) in
  let* min := sub32 md (tm_min tm1) (tm_min tm2) in
  let* hour := sub32 md (tm_hour tm1) (tm_hour tm2) in
  let* mday := sub32 md (tm_mday tm1) (tm_mday tm2) in
  let* mon := sub32 md (tm_mon tm1) (tm_mon tm2) in
  let* year := sub32 md (tm_year tm1) (tm_year tm2) in
  let flip := a <? b in
  let sg32 v := if flip then neg32 md v else Ok v in
  let sg64 v := if flip then neg64 md v else Ok v in
  let* fsec := sg64 fsec in
  let* sec := sg32 sec in
  let* min := sg32 min in
  let* hour := sg32 hour in
  let* mday := sg32 mday in
  let* mon := sg32 mon in
  let* year := sg32 year in
  let* p := age_borrow md (tm_year (if flip then tm1 else tm2)) (tm_mon (if flip then tm1 else tm2))
                       fsec sec min hour mday mon year in
  let '(fsec, sec, min, hour, mday, mon, year) := p in
  let* fsec := sg64 fsec in
  let* sec := sg32 sec in
  let* min := sg32 min in
  let* hour := sg32 hour in
  let* mday := sg32 mday in
  let* mon := sg32 mon in
  let* year := sg32 year in
  interval_from_pgtime md
    (set_year year (set_mon mon (set_mday mday (set_hour hour (set_min min (set_sec sec tm_new))))))
    fsec.

(** src/timestamp.rs:480-524 [infinite_part] *)
Definition infinite_part (unit : date_unit) (is_negative : bool) : res f64 :=
  match unit with
  | MicroSec | MilliSec | Second | Minute | Hour | Day | Month | Quarter | Week | Dow | IsoDow
  | Doy | Tz | TzMinute | TzHour => Ok f0
  | Year | Decade | Century | Millennium | JULIAN | IsoYear | Epoch =>
      if is_negative then Ok f64_neg_inf else Ok f64_inf
  | _ => Err EInvalid
  end.

(** src/timestamp.rs:753-866 [date_part] *)
Definition timestamp_date_part (md : mode) (t : Z) (ty : field_type) (unit : date_unit) : res f64 :=
  if negb (ts_is_finite t) then infinite_part unit (t =? i64_min)
  else
    match ty with
    | FTEpoch => Err EInvalid
    | FTUnit =>
        let* x := timestamp2time md t in
        let '(tm, fsec) := x in
        let y := tm_year tm in
        let bc k n :=
          let* y1 := sub32 md y 1 in
          let* d := sub32 md k y1 in
          let* q := neg32 md (Z.quot d n) in Ok (f64_of_Z q) in
        match unit with
        | MicroSec => Ok (sec_micro tm fsec)
        | MilliSec => Ok (sec_milli tm fsec)
        | Second => Ok (sec_sec tm fsec)
        | Minute => Ok (f64_of_Z (tm_min tm))
        | Hour => Ok (f64_of_Z (tm_hour tm))
        | Day => Ok (f64_of_Z (tm_mday tm))
        | Month => Ok (f64_of_Z (tm_mon tm))
        | Quarter =>
            let* m1 := sub32 md (tm_mon tm) 1 in
            let* q := add32 md (Z.quot m1 3) 1 in Ok (f64_of_Z q)
        | Week => let* w := date_to_iso_week md y (tm_mon tm) (tm_mday tm) in Ok (f64_of_Z w)
        | Year =>
            if 0 <? y then Ok (f64_of_Z y)
            else let* y1 := sub32 md y 1 in Ok (f64_of_Z y1)
        | Decade => if 0 <=? y then Ok (f64_of_Z (Z.quot y 10)) else bc 8 10
        | Century =>
            if 0 <? y then let* a := add32 md y 99 in Ok (f64_of_Z (Z.quot a 100))
            else bc 99 100
        | Millennium =>
            if 0 <? y then let* a := add32 md y 999 in Ok (f64_of_Z (Z.quot a 1000))
            else bc 999 1000
        | JULIAN =>
            let* date := date2julian md y (tm_mon tm) (tm_mday tm) in
            let* hm := mul64 md (tm_hour tm) MINS_PER_HOUR in
            let* hm := add64 md hm (tm_min tm) in
            let* hm := mul64 md hm SECS_PER_MINUTE in
            Ok (fadd (f64_of_Z date)
                  (fdiv (fadd (fadd (f64_of_Z hm) (f64_of_Z (tm_sec tm)))
                              (fdiv (f64_of_Z fsec) (f64_of_Z 1000000)))
                        (f64_of_Z SECS_PER_DAY)))
        | IsoYear => let* w := date_to_iso_year md y (tm_mon tm) (tm_mday tm) in Ok (f64_of_Z w)
        | Dow =>
            let* date := date2julian md y (tm_mon tm) (tm_mday tm) in
            let* day := julian_to_week_day md date in Ok (f64_of_Z day)
        | IsoDow =>
            let* date := date2julian md y (tm_mon tm) (tm_mday tm) in
            let* day := julian_to_week_day md date in
            if day =? 0 then Ok (f64_of_Z 7) else Ok (f64_of_Z day)
        | Doy =>
            let* a := date2julian md y (tm_mon tm) (tm_mday tm) in
            let* b := date2julian md y 1 1 in
            let* c := sub32 md a b in
            let* d := add32 md c 1 in Ok (f64_of_Z d)
        | _ => Err EInvalid
        end
    end.

(** src/timestamp.rs:876-913 [truncate] *)
Definition timestamp_truncate (md : mode) (t : Z) (ty : field_type) (unit : date_unit) : res Z :=
  match ty with
  | FTEpoch => Err EInvalid
  | FTUnit =>
      let* x := timestamp2time md t in
      let* y :=
        match unit with
        | Week => truncate_timestamp_week md x
        | Millennium => truncate_timestamp_millennium md x
        | Century => truncate_timestamp_century md x
        | Decade => truncate_timestamp_decade md x
        | Year => truncate_timestamp_year md x
        | Quarter => truncate_timestamp_quarter md x
        | Month => Ok (truncate_timestamp_month x)
        | Day => Ok (truncate_day x)
        | Hour => Ok (truncate_hour x)
        | Minute => Ok (truncate_minute x)
        | Second => Ok (truncate_sec x)
        | MilliSec => Ok (truncate_milli_sec x)
        | MicroSec => Ok (truncate_micro_sec x)
        | _ => Err EInvalid
        end in
      to_timestamp md (fst y) (snd y)
  end.

(** ** Date operations that go through Timestamp *)

(** src/date.rs:136-139 [add_interval] *)
Definition date_add_interval (md : mode) (d : Z) (span : interval) : res Z :=
  let* t := timestamp_of_date md d in timestamp_add_interval md t span.

(** src/date.rs:194-197 [sub_interval] *)
Definition date_sub_interval (md : mode) (d : Z) (span : interval) : res Z :=
  let* t := timestamp_of_date md d in timestamp_sub_interval md t span.

(** src/date.rs:143-153 [add_time] *)
Definition date_add_time (md : mode) (d time : Z) : res Z :=
  let* t := timestamp_of_date md d in
  if ts_is_finite t then
    let* r := timestamp_add_time md t time in
    if negb (is_valid_timestamp r) then Err EOverflow else Ok r
  else Ok t.

(** src/date.rs:410-413 [date_part] *)
Definition date_date_part (md : mode) (d : Z) (ty : field_type) (unit : date_unit) : res f64 :=
  let* t := timestamp_of_date md d in timestamp_date_part md t ty unit.

(** src/date.rs:423-427 [truncate] *)
Definition date_truncate (md : mode) (d : Z) (ty : field_type) (unit : date_unit) : res Z :=
  let* t := timestamp_of_date md d in
  let* r := timestamp_truncate md t ty unit in
  date_of_timestamp md r.

(** ** Time, src/time.rs *)

(** src/time.rs:52-70 [try_from_hms] *)
Definition time_try_from_hms (md : mode) (h m : Z) (s : f64) : res Z :=
  if bad_clock h m s then Err EOverflow else clock_usecs md h m s.

(** src/time.rs:74-78 [from_pgtime] *)
Definition time_from_pgtime (md : mode) (tm : pgtime) (fsec : Z) : res Z :=
  let* a := mul32 md (tm_hour tm) MINS_PER_HOUR in
  let* a := add32 md a (tm_min tm) in
  let* a := mul32 md a SECS_PER_MINUTE in
  let* a := add64 md a (tm_sec tm) in
  let* a := mul64 md a USECS_PER_SEC in
  add64 md a fsec.

(** src/time.rs:86-101 [adjust_by_typmod] *)
Definition time_adjust_by_typmod (md : mode) (t typmod : Z) : res Z :=
  if (0 <=? typmod) && (typmod <=? 6) then round_scale md t typmod else Ok t.

(** src/time.rs:150-155 and 168-173: reduce modulo a day into [0, day) *)
Definition day_modulo (md : mode) (r : Z) : res Z :=
  let* x := mul64 md (Z.quot r USECS_PER_DAY) USECS_PER_DAY in
  let* r := sub64 md r x in
  if r <? 0 then add64 md r USECS_PER_DAY else Ok r.

(** src/time.rs:149-156 [add_interval] *)
Definition time_add_interval (md : mode) (t : Z) (span : interval) : res Z :=
  day_modulo md (wrap64 (t + iv_time span)).

(** src/time.rs:167-174 [sub_interval] *)
Definition time_sub_interval (md : mode) (t : Z) (span : interval) : res Z :=
  day_modulo md (wrap64 (t - iv_time span)).

(** src/time.rs:160-163 [sub_time] *)
Definition time_sub_time (a b : Z) : interval := from_mdt 0 0 (wrap64 (a - b)).

(** src/time.rs:178-187 [to_pgtime] on a fresh PgTime *)
Definition time_to_pgtime (md : mode) (t : Z) : res (pgtime * Z) :=
  let* q := date2time md t in
  let '(hour, min, sec, fsec) := q in
  Ok (set_sec sec (set_min min (set_hour hour tm_new)), fsec).

(** src/time.rs:234-255 TryFrom<Timestamp> for Option<Time> *)
Definition time_of_timestamp (md : mode) (t : Z) : res (option Z) :=
  if negb (ts_is_finite t) then Ok None
  else
    let* x := timestamp2time md t in
    let '(tm, fsec) := x in
    let* a := mul32 md (tm_hour tm) MINS_PER_HOUR in
    let* a := add32 md a (tm_min tm) in
    let* a := mul32 md a SECS_PER_MINUTE in
    let* a := add64 md a (tm_sec tm) in
    let* a := mul64 md a USECS_PER_SEC in
    let* a := add64 md a fsec in
    Ok (Some a).

(** src/time.rs:262-275 From<Interval> for Time *)
Definition time_of_interval (md : mode) (a : interval) : res Z :=
  let r := iv_time a in
  if USECS_PER_DAY <=? r then
    let days := Z.quot r USECS_PER_DAY in
    let* x := mul64 md days USECS_PER_DAY in
    sub64 md r x
  else if r <? 0 then
    let* n := neg64 md r in
    let* n := add64 md n USECS_PER_DAY in
    let* n := sub64 md n 1 in
    let days := Z.quot n USECS_PER_DAY in
    let* x := mul64 md days USECS_PER_DAY in
    add64 md r x
  else Ok r.

(** src/time.rs:280-306 [date_part] *)
Definition time_date_part (md : mode) (t : Z) (ty : field_type) (unit : date_unit) : res f64 :=
  match ty with
  | FTUnit =>
      let* x := time_to_pgtime md t in
      let '(tm, fsec) := x in
      match unit with
      | MicroSec => Ok (sec_micro tm fsec)
      | MilliSec => Ok (sec_milli tm fsec)
      | Second => Ok (sec_sec tm fsec)
      | Minute => Ok (f64_of_Z (tm_min tm))
      | Hour => Ok (f64_of_Z (tm_hour tm))
      | _ => Err EInvalid
      end
  | FTEpoch =>
      match unit with
      | Epoch => Ok (fdiv (f64_of_Z t) (f64_of_Z 1000000))
      | _ => Err EInvalid
      end
  end.

(** src/time.rs:316-320 [truncate] *)
Definition time_truncate (md : mode) (t : Z) (ty : field_type) (unit : date_unit) : res Z :=
  let* it := interval_truncate md (interval_of_time t) ty unit in
  time_of_interval md it.
