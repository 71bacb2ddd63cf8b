{"id": "C01", "title": "Calendar dates are numbered exactly", "statement": "Date::try_from_ymd(y,m,d) followed by i32::from gives the number of days from 2000-01-01 to the calendar day (y,m,d) of the proleptic Gregorian calendar (years < 0 mean BC, no year 0): it is the number of 'next calendar day' steps, so the value grows by exactly one for every successive day, across all month ends, leap days, centuries and the BC/AD boundary.", "quantifier": "every (year, month, day) triple of i32 that is a real calendar day in the supported range", "why_tests_cant": "There are about 2.1 billion days; a closed-form formula with integer divisions can be wrong on isolated days (leap centuries, negative years) that samples miss.", "anchors": ["src/common.rs: date2julian, days_of_month, year_is_leap", "src/date.rs: Date::try_from_ymd"]}
{"id": "C02", "title": "Day numbers convert back to the calendar exactly", "statement": "For every valid day number the year/month/day the library derives from it (what format and date_part show) is the unique real calendar day with that number: number->calendar and calendar->number are mutually inverse.", "quantifier": "every valid Date value (all Julian days 0 .. 2147483493)", "why_tests_cant": "julian2date is unsigned 32-bit arithmetic with magic constants; correctness must hold on each of two billion inputs without overflow.", "anchors": ["src/common.rs: julian2date, date2julian", "src/date.rs: Date::format", "src/parse.rs: timestamp2time"]}
{"id": "C03", "title": "Date construction accepts exactly the real dates in range", "statement": "Date::try_from_ymd returns Ok iff the year is non-zero, the month is 1..12, the day exists in that month of that year (leap rules applied to the astronomical year for BC), and the day lies between 24 Nov 4714 BC and 31 Dec 5874897 AD; otherwise it returns an Overflow error; it never panics for any year above i32::MIN. Later calendar dates get larger values (order isomorphism).", "quantifier": "all i32 triples (y,m,d)", "why_tests_cant": "2^96 inputs; acceptance must be exact at every boundary and the only panicking input must be pinned down.", "anchors": ["src/date.rs: Date::try_from_ymd, is_valid_date", "src/common.rs: PgTime::validate_date, is_valid_julian, days_of_month"]}
{"id": "C04", "title": "Date +/- days is exact integer arithmetic with range check", "statement": "Date::add_days(n)/sub_days(n) on a finite date return exactly the date n days later/earlier when that is in the supported range and an error otherwise, never panicking or wrapping; +/-infinity absorb any n; sub_days(n) undoes add_days(n) and vice versa.", "quantifier": "every Date value (also raw i32) and every i32 n", "why_tests_cant": "overflow behaviour depends on 2^64 input pairs.", "anchors": ["src/date.rs: add_days, sub_days, is_valid_date"]}
{"id": "C05", "title": "Date difference agrees with day addition", "statement": "For finite dates a.sub_date(b) is the exact signed number of days between them, is antisymmetric, and b.add_days(a.sub_date(b)) == a; it errs when either side is infinite; for valid dates it never overflows (for raw i32 values built with From<i32> it can).", "quantifier": "all pairs of Date values", "why_tests_cant": "pairs of 32-bit values; overflow corner cases.", "anchors": ["src/date.rs: sub_date, add_days"]}
{"id": "C06", "title": "Date <-> Timestamp conversion is lossless and order preserving", "statement": "Timestamp::try_from(Date) maps a valid date to midnight of that day, maps infinities to infinities, errs exactly for dates from 294277-01-01 on, is strictly monotone, and Date::try_from of the result gives the original date back.", "quantifier": "every Date value", "why_tests_cant": "the range check and microsecond scaling must agree for all days, including the boundary.", "anchors": ["src/timestamp.rs: TryFrom<Date> for Timestamp", "src/date.rs: TryFrom<Timestamp> for Date"]}
{"id": "C07", "title": "Timestamp decomposes into valid calendar and clock fields and recomposes", "statement": "Every valid finite Timestamp breaks down into a real calendar date and a clock time with 0<=hour<24, 0<=min<60, 0<=sec<60, 0<=usec<1e6, and putting those fields together again yields the identical timestamp.", "quantifier": "every i64 in the valid timestamp range", "why_tests_cant": "1.8e19 values; negative values need floor rather than truncated division.", "anchors": ["src/parse.rs: timestamp2time, timestamp_modulo, date2time", "src/common.rs: PgTime::to_timestamp, time2t"]}
{"id": "C08", "title": "Splitting a timestamp into date and time loses nothing", "statement": "For every valid finite timestamp t, Date::try_from(t) is the day containing t (floor, also before 2000), Option<Time>::try_from(t) is the time since that midnight (in [0,24h)), and date.add_time(time) == t; infinite timestamps convert to infinite dates and to None.", "quantifier": "every valid Timestamp, plus both infinities", "why_tests_cant": "must hold for each of 1.8e19 values and on both sides of the epoch.", "anchors": ["src/date.rs: TryFrom<Timestamp> for Date, add_time", "src/time.rs: TryFrom<Timestamp> for Option<Time>"]}
{"id": "C09", "title": "Timestamp + Interval follows calendar semantics and never leaves the valid range", "statement": "t.add_interval(i): months move the calendar month keeping the day of month clamped to the length of the target month, then days move the calendar day, then microseconds are added; an Ok result of a finite timestamp is always a valid finite timestamp; +/-infinity is returned unchanged.", "quantifier": "every valid timestamp and every interval whose intermediate dates stay in the supported range; range closure for every i64/i32 combination", "why_tests_cant": "product of three unbounded inputs, each step with its own overflow behaviour.", "anchors": ["src/timestamp.rs: add_interval", "src/common.rs: days_of_month, to_timestamp"]}
{"id": "C10", "title": "Subtracting an interval is adding its negation", "statement": "t.sub_interval(i) equals t.add_interval(-i) whenever -i exists, and is an Overflow error when a component of i has no negation; the same for Date::sub_interval; sub_time(x) undoes add_time(x) for finite timestamps when both are in range.", "quantifier": "all timestamps/dates and intervals", "why_tests_cant": "needs equality of two code paths on the full product space.", "anchors": ["src/timestamp.rs: sub_interval, sub_time, add_time", "src/date.rs: sub_interval, add_interval"]}
{"id": "C11", "title": "Timestamp difference is exact and can be added back", "statement": "a.sub_timestamp(b) for finite a, b is a days+time interval with zero months, |time| < 24h, day and time of the same sign and day*24h+time exactly a-b, so b.add_interval(a.sub_timestamp(b)) == a; it errs if either is infinite. (Finding: the subtraction is unchecked, so the claim fails for valid timestamps more than i64::MAX microseconds apart.)", "quantifier": "all pairs of valid timestamps", "why_tests_cant": "overflow of the raw subtraction happens only for far apart valid values, which example tests never use.", "anchors": ["src/timestamp.rs: sub_timestamp, add_interval", "src/interval.rs: justify_hours"]}
{"id": "C12", "title": "age() is antisymmetric, bounded and sign-consistent", "statement": "For valid finite a >= b, a.age(b) has months>=0, 0<=days<=30, 0<=time<24h; age(a,a) is zero; b.age(a) is the exact negation of a.age(b); the call never panics for valid timestamps and errs on infinities.", "quantifier": "all pairs of valid timestamps", "why_tests_cant": "the symbolic borrow loops must terminate and stay bounded for every pair of calendar positions.", "anchors": ["src/timestamp.rs: age", "src/interval.rs: from_pgtime"]}
{"id": "C13", "title": "Timestamp truncation is the floor to the unit", "statement": "For every unit from microseconds to millennium except week, t.truncate(unit) is the latest boundary of that unit that is not after t (first instant of that second/.../month/quarter/year/decade/century/millennium, with centuries and millennia starting in years 1, 101, ...; BC handled), hence it is <= t, monotone and idempotent.", "quantifier": "every valid finite timestamp and each unit, when the boundary itself is a valid timestamp", "why_tests_cant": "must be exact at each unit boundary in both eras.", "anchors": ["src/timestamp.rs: truncate", "src/common.rs: truncate_timestamp_*"]}
{"id": "C14", "title": "Week truncation yields the Monday of the ISO week", "statement": "t.truncate(Week) is 00:00 on the Monday of the ISO week containing t. (Finding: violated for the December days that belong to ISO week 1 of the following year - the year is decremented instead of incremented.)", "quantifier": "every valid finite timestamp", "why_tests_cant": "only the last 1-3 days of some years are affected.", "anchors": ["src/common.rs: truncate_timestamp_week, date_to_iso_week, iso_week_to_date"]}
{"id": "C15", "title": "ISO week, ISO year, weekday and day-of-year are right", "statement": "date_part Week/IsoYear/Dow/IsoDow/Doy of a valid timestamp agree with ISO 8601: the ISO year is the calendar year of that week's Thursday, the week number counts weeks from the week containing 4 January, Dow is 0..6 from Sunday and advances by one each day, Doy counts from 1 January.", "quantifier": "every valid finite timestamp", "why_tests_cant": "year-end weeks are irregular; each of 294k+4714 years can differ.", "anchors": ["src/timestamp.rs: date_part", "src/common.rs: date_to_iso_week, date_to_iso_year, julian_to_week_day"]}
{"id": "C16", "title": "Year, decade, century and millennium numbering has no year zero", "statement": "date_part Year/Decade/Century/Millennium follow the AD/BC convention: there is no year 0, century c>0 covers years 100(c-1)+1..100c, BC mirrored, and each is constant exactly on the spans that truncate uses and is monotone in t.", "quantifier": "every valid finite timestamp", "why_tests_cant": "C-style division of negative years must round correctly for all years.", "anchors": ["src/timestamp.rs: date_part", "src/common.rs: truncate_timestamp_decade/century/millennium"]}
{"id": "C17", "title": "Parts of infinite timestamps", "statement": "date_part of +/-infinity returns 0 for oscillating units, +/-infinity for monotone units and an error for the rest, for Date and Timestamp alike, never panicking.", "quantifier": "both infinities x all DateUnit x all FieldType", "why_tests_cant": "enumerable, but depends on agreement of two types' code paths.", "anchors": ["src/timestamp.rs: infinite_part, date_part", "src/date.rs: date_part"]}
{"id": "C18", "title": "Time of day arithmetic is modulo 24 hours", "statement": "Time::add_interval/sub_interval always give a time in [0,24h); the result equals (time +/- interval.time) modulo one day whenever the 64-bit sum does not wrap; months and days of the interval are ignored; sub_interval undoes add_interval for in-range times.", "quantifier": "every Time and every Interval", "why_tests_cant": "negative and huge interval times exercise truncated division; 2^128 combinations.", "anchors": ["src/time.rs: add_interval, sub_interval"]}
{"id": "C19", "title": "Time difference is exact", "statement": "Time::sub_time gives the interval of exactly the signed microsecond difference with no months/days, and adding it back returns the first time (for times in [0,24h)).", "quantifier": "all pairs of times", "why_tests_cant": "2^128 pairs; wrapping subtraction.", "anchors": ["src/time.rs: sub_time, add_interval"]}
{"id": "C20", "title": "Interval -> Time keeps the fraction of a day", "statement": "Time::from(interval) is interval.time reduced modulo 24h into [0,24h) with floor semantics for negatives; it ignores months and days. (Finding: overflows within one day of i64::MIN.)", "quantifier": "every Interval", "why_tests_cant": "only the extreme 86,400,000,000 negative values fail.", "anchors": ["src/time.rs: From<Interval> for Time"]}
{"id": "C21", "title": "Clock construction accepts exactly valid clock readings", "statement": "Time::try_from_hms accepts exactly 0<=h, 0<=m<=59, 0<=s<=60, not after 24:00:00, and yields (h*3600+m*60)*1e6 + round(s*1e6) microseconds, in [0,24h+ 60s]; other input is an Overflow error; never a panic. (Finding: a NaN number of seconds is accepted as 0.)", "quantifier": "all i32 x i32 x f64", "why_tests_cant": "f64 rounding and NaN; 2^128 inputs.", "anchors": ["src/time.rs: try_from_hms"]}
{"id": "C22", "title": "Timestamp construction accepts exactly valid readings", "statement": "Timestamp::try_from_ymd_hms accepts exactly an AD calendar date with a clock reading as in try_from_hms (NaN rejected) whose instant is in range, and gives days*86400e6+clock; the result is always a valid timestamp; 24:00:00 is midnight of the next day.", "quantifier": "all i32^5 x f64", "why_tests_cant": "2^224 inputs.", "anchors": ["src/timestamp.rs: try_from_ymd_hms"]}
{"id": "C23", "title": "Interval addition, subtraction and negation are exact or refused", "statement": "add_interval/sub_interval/negate act componentwise with exact integers and return an Overflow error iff some component does not fit; hence commutativity, associativity when defined, x-y = x+(-y) when defined, x-x = 0, -(-x) = x. The + operator panics exactly when add_interval errs.", "quantifier": "all intervals", "why_tests_cant": "2^256 pairs.", "anchors": ["src/interval.rs: add_interval, sub_interval, negate, Add"]}
{"id": "C24", "title": "Interval ordering is a total preorder by 30-day months", "statement": "cmp/partial_cmp compare months*30 days + days + time exactly (no overflow), and so are total, transitive and antisymmetric up to the total. (Finding: Ord says Equal for values that == says differ, e.g. 1 month vs 30 days, so Ord is inconsistent with Eq.)", "quantifier": "all pairs and triples of intervals", "why_tests_cant": "order laws quantify over triples.", "anchors": ["src/interval.rs: PartialOrd, Ord, From<Interval> for i128, derive(Eq)"]}
{"id": "C25", "title": "justify_hours keeps the span and normalises time", "statement": "justify_hours leaves months alone, preserves days*24h+time exactly whenever the day count does not overflow, makes |time| < 24h, and makes the signs of days and time agree; it is idempotent and never panics.", "quantifier": "every interval", "why_tests_cant": "sign case analysis over 2^96 values with 32-bit wrap.", "anchors": ["src/interval.rs: justify_hours", "src/common.rs: time_modulo"]}
{"id": "C26", "title": "justify_days keeps the span and normalises days", "statement": "justify_days leaves time alone, preserves months*30+days whenever months do not overflow, makes |days| < 30 and the signs of months and days agree; idempotent; never panics.", "quantifier": "every interval", "why_tests_cant": "sign case analysis with 32-bit wrap.", "anchors": ["src/interval.rs: justify_days"]}
{"id": "C27", "title": "justify_interval normalises all fields with equal signs", "statement": "justify_interval preserves the 30-day-month total, makes |time|<24h, |days|<30 and all three fields share a sign, when no 32-bit overflow occurs; idempotent.", "quantifier": "every interval within the no-overflow region", "why_tests_cant": "three-field sign cascade.", "anchors": ["src/interval.rs: justify_interval"]}
{"id": "C28", "title": "Interval truncation drops lower fields toward zero", "statement": "Interval::truncate(unit) keeps the fields at and above the unit (toward zero) and zeroes those below; it is idempotent and MicroSec truncation is the identity. (Finding: from about 35.8 million hours on, an unchecked 32-bit product panics in debug builds / corrupts the value in release builds, even for MicroSec.)", "quantifier": "every interval and every unit", "why_tests_cant": "overflow only beyond 4083 years of hours.", "anchors": ["src/interval.rs: truncate, to_pgtime, from_pgtime", "src/common.rs: truncate_interval_*"]}
{"id": "C29", "title": "Precision rounding is round-half-away to the digit", "statement": "Parsing with a typmod p in 0..6 rounds the Time/Timestamp/Interval microseconds to the nearest multiple of 10^(6-p), ties away from zero; the rounding moves the value by at most half a unit, is idempotent and monotone. (Finding: Timestamp rounding can produce a value outside the valid range.)", "quantifier": "every value and every precision", "why_tests_cant": "all residues and both signs.", "anchors": ["src/time.rs: adjust_by_typmod", "src/timestamp.rs: adjust_by_typmod", "src/interval.rs: adjust_by_typmod"]}
{"id": "C30", "title": "Interval range typmod keeps exactly the requested fields", "statement": "With a range typmod (YEAR, YEAR TO MONTH, DAY, DAY TO HOUR, ... SECOND) fields below the last requested one are zeroed or truncated toward zero, higher fields are untouched, and unknown ranges are an Invalid error.", "quantifier": "every interval and every i32 typmod", "why_tests_cant": "all 2^15 range codes times all intervals.", "anchors": ["src/interval.rs: adjust_by_typmod, interval_range, interval_precision"]}
{"id": "C31", "title": "Integers print as their shortest (or zero padded) decimal", "statement": "Number fields in formatted output are the exact decimal representation of the number: reading the digits back gives the number, no superfluous leading zero for unpadded numbers, and padded numbers have exactly the requested width unless the number needs more; i32::MIN included.", "quantifier": "every i32", "why_tests_cant": "2^32 values and widths.", "anchors": ["src/common.rs: pg_ltostr, pg_ltostr_zeropad, append_seconds"]}
{"id": "C32", "title": "ISO date text round-trips", "statement": "For every valid Date, including BC years and +/-infinity, Date::try_from_str(d.format(ISO or XSD, o), o') == d for all date orders o, o'.", "quantifier": "every Date value, all DateOrder pairs", "why_tests_cant": "two billion dates through formatter, tokenizer and field decoder.", "anchors": ["src/date.rs: format, format_date, try_from_str", "src/parse.rs: parse_date_time, decode_date_time", "src/serde.rs"]}
{"id": "C33", "title": "SQL, German and Postgres date text round-trips with the matching date order", "statement": "For every valid Date, SQL output re-parses under the same DMY or MDY order, German output under DMY, Postgres output under MDY. (Findings: Postgres/DMY output mixes '-' and '.', so it never re-parses; SQL/German/Postgres output does not re-parse under YMD.)", "quantifier": "every Date value, style and order", "why_tests_cant": "two billion dates per style.", "anchors": ["src/date.rs: format_date", "src/parse.rs: decode_date, decode_number"]}
{"id": "C34", "title": "Time text round-trips", "statement": "For every Time in [0,24h], Time::try_from_str(t.format(style), -1, order) == t, to the microsecond.", "quantifier": "every in-range Time, style and order", "why_tests_cant": "86.4 billion values; the fraction goes through f64 division and rounding.", "anchors": ["src/time.rs: format, format_time, try_from_str", "src/parse.rs: decode_time_only, decode_time, parse_fractional_second, str2d"]}
{"id": "C35", "title": "Timestamp text round-trips", "statement": "For every valid Timestamp and both infinities, try_from_str(t.format(ISO or XSD, o), -1, o') == t; SQL/German/Postgres output round-trips with the matching order. (Finding: Postgres-style output of every February timestamp is unparseable because the keyword table has 'fe' instead of 'feb'.)", "quantifier": "every valid timestamp", "why_tests_cant": "1.8e19 values through formatter, tokenizer and decoder incl. f64 fraction parsing.", "anchors": ["src/timestamp.rs: format, format_date_time, try_from_str", "src/parse.rs", "src/token.rs: DATE_TOKEN_TABLE"]}
{"id": "C36", "title": "SQL-standard interval text round-trips", "statement": "Interval::try_from_str(i.format(SQLStandard), -1, SQLStandard) == i for every interval whose whole minutes fit 32 bits (35791394 hours) and whose day count is not i32::MIN (the human-readable serde format). The limit is exact: beyond it the text is still written, up to 2147483647 hours, but reading it panics in debug builds and gives another clock part, with the same months and days, in release builds; with more hours format returns an Overflow error.", "quantifier": "every interval in that domain, all sign combinations", "why_tests_cant": "the output has six different shapes depending on signs; leading-sign rules make it easy to flip a sign.", "anchors": ["src/interval.rs: format_interval, try_from_str", "src/parse.rs: decode_interval, decode_interval_number_field", "src/serde.rs"]}
{"id": "C37", "title": "Postgres-style interval text round-trips", "statement": "Interval::try_from_str(i.format(Postgres or PostgresVerbose), -1, same style) == i for every interval in the same domain, and for no other one that can be written.", "quantifier": "every interval in that domain", "why_tests_cant": "sign of each field depends on the previous field.", "anchors": ["src/interval.rs: add_postgres_int_part, add_verbose_int_part, format_interval", "src/parse.rs: decode_interval"]}
{"id": "C38", "title": "ISO 8601 interval text round-trips exactly for the intervals without negative fields", "statement": "Interval::try_from_str(i.format(ISO8601), -1, ISO8601) == i for every interval with non-negative fields in the domain, and for no other one that can be written; the text of every interval with a negative field is refused with an Invalid error in all styles, and never read as another interval. (Finding: negative fields print as e.g. P-1Y, which the parser rejects.)", "quantifier": "every interval in that domain", "why_tests_cant": "values times field-presence combinations; fallback from the general parser.", "anchors": ["src/interval.rs: add_iso8601_int_part, format_interval", "src/parse.rs: decode_iso8601_interval, parse_iso8601_number"]}
{"id": "C39", "title": "Serde preserves values", "statement": "Deserialising what was serialised returns the same Date/Time/Timestamp/Interval, in binary formats for every value (raw numbers, struct with fields in any order) and in human-readable formats for every valid value of the round-trip domains; duplicate, missing or unknown Interval fields are errors.", "quantifier": "every value; every permutation of map entries", "why_tests_cant": "value space times field orders.", "anchors": ["src/serde.rs"]}
{"id": "C40", "title": "Keyword lookup finds exactly the listed keywords", "statement": "A word in a date or interval string is recognised iff its first ten lower-case letters are a keyword of the table, with that keyword's meaning: the binary search never misses or confuses an entry.", "quantifier": "every byte string", "why_tests_cant": "binary search is only correct if both tables are strictly sorted; unbounded key space.", "anchors": ["src/token.rs: DATE_TOKEN_TABLE, DELTA_TOKEN_TABLE, date_token_binary_search"]}
{"id": "C41", "title": "Earlier parses never influence later ones", "statement": "The per-thread keyword caches are invisible: for any sequence of parse calls the result of each call is the same as when made first on a fresh thread.", "quantifier": "every finite history of parse calls on a thread", "why_tests_cant": "state left by arbitrary earlier inputs.", "anchors": ["src/parse.rs: DATE_CACHE, DELTA_CACHE, decode_special, decode_units"]}
{"id": "C42", "title": "Parsing arbitrary text is safe", "statement": "try_from_str of Date, Time, Timestamp and Interval returns Ok or Err on every string - no panic, out-of-bounds access or use of uninitialised memory. (Findings: strings with more than 128 significant bytes panic; a trailing lone sign reads an uninitialised field type; '... t' at the end of a date panics while building the error; unchecked 32-bit sums panic in debug builds.)", "quantifier": "every byte string, both build modes", "why_tests_cant": "the crash inputs are isolated points of an unbounded input space.", "anchors": ["src/parse.rs", "src/common.rs: copy_slice", "src/date.rs, src/time.rs, src/timestamp.rs, src/interval.rs: try_from_str"]}
{"id": "C43", "title": "Parsed values are in range", "statement": "Whenever try_from_str succeeds, the Date is valid or +/-infinity, the Timestamp (typmod -1) is valid or +/-infinity, and the Time lies in [0, 24h + 1 min]; the date always comes from a real calendar day.", "quantifier": "every byte string, every order and typmod", "why_tests_cant": "soundness over all accepted strings, however strange.", "anchors": ["src/parse.rs: decode_date_time, decode_time_only", "src/common.rs: validate_date, to_timestamp"]}
{"id": "C44", "title": "Parsing ignores letter case and extra white space", "statement": "Changing the case of ASCII letters or adding white space around tokens does not change the value try_from_str returns for dates, times and timestamps made of separate tokens.", "quantifier": "every input string", "why_tests_cant": "relates two runs on unbounded inputs.", "anchors": ["src/parse.rs: parse_date_time, eat_whitespaces"]}
{"id": "C45", "title": "Field count is bounded", "statement": "Input with more than 25 fields is refused with an Invalid error rather than overrunning the field arrays; with at most 25 fields and 128 significant bytes tokenizing never goes out of bounds.", "quantifier": "every byte string", "why_tests_cant": "unbounded number of tokens.", "anchors": ["src/parse.rs: parse_date_time", "src/token.rs: MAX_DATE_FIELDS", "src/common.rs: MAX_DATE_LEN"]}
{"id": "C46", "title": "Two-digit years and BC years are windowed correctly", "statement": "A one or two digit year yy in a date string means 2000+yy for yy<70 and 1900+yy for 70..99; a BC suffix with year y>0 means astronomical year 1-y; year 0 without two-digit form is refused.", "quantifier": "all years and date strings of the supported layouts", "why_tests_cant": "all two-digit and BC years.", "anchors": ["src/common.rs: validate_date", "src/parse.rs: decode_number"]}
{"id": "C47", "title": "Interval scaling behaves like multiplication", "statement": "mul_f64(1.0) and div_f64(1.0) return the interval unchanged while |time| is exactly representable; mul_f64(0.0) is zero; integer factors multiply months and days exactly or are refused; division by zero is an error; NaN factors are refused by mul_f64.", "quantifier": "every interval and factor of the stated kinds", "why_tests_cant": "f64 rounding over the whole range.", "anchors": ["src/interval.rs: mul_f64, div_f64", "src/common.rs: timestamp_round"]}
{"id": "C48", "title": "Interval construction from fields", "statement": "try_from_ymwd_hms gives months = 12y+m, days = 7w+d, time = h:m:s exactly (seconds rounded to the microsecond) whenever these fit, rejects infinite and NaN seconds, and never panics.", "quantifier": "all i32^6 x f64", "why_tests_cant": "wrapping arithmetic on large inputs.", "anchors": ["src/interval.rs: try_from_ymwd_hms"]}
{"id": "C49", "title": "Date arithmetic with Interval and Time agrees with Timestamp arithmetic", "statement": "date.add_interval(i) / sub_interval(i) / add_time(t) equal the Timestamp operation on midnight of that date; Timestamp::sub_date(d) equals subtracting midnight of d.", "quantifier": "all dates, intervals, times", "why_tests_cant": "agreement of two API surfaces on all inputs.", "anchors": ["src/date.rs: add_interval, sub_interval, add_time", "src/timestamp.rs: sub_date"]}
{"id": "C50", "title": "Formatted text fits the fixed 128 byte buffer", "statement": "Formatting any valid Date, Time, Timestamp or any Interval with in-range fields writes at most 128 bytes and never indexes outside the buffer.", "quantifier": "every value and style", "why_tests_cant": "maximum length over all values and styles.", "anchors": ["src/date.rs: format", "src/time.rs: format", "src/timestamp.rs: format", "src/interval.rs: format"]}
{"id": "C51", "title": "Truncation and parts of a Date agree with its Timestamp", "statement": "date.truncate(unit) and date.date_part(unit) equal those of midnight of the date, and truncate returns a date not after the original (weeks excepted, see C14).", "quantifier": "every valid date below the timestamp limit and every unit", "why_tests_cant": "agreement of two types.", "anchors": ["src/date.rs: date_part, truncate"]}
{"id": "C52", "title": "Time truncation", "statement": "Time::truncate(unit) for units up to hour rounds a time in [0,24h) down to the unit; coarser units give midnight; it never changes a time already on the boundary. (Finding: 24:00:00 truncates to 00:00:00.)", "quantifier": "every in-range time and unit", "why_tests_cant": "conversion through Interval and back.", "anchors": ["src/time.rs: truncate", "src/interval.rs: truncate"]}
{"id": "C53", "title": "Clock and calendar parts of timestamps and times", "statement": "For a timestamp whose calendar reading is y-m-d h:mi:s.us, date_part gives exactly h, mi, d, m, the quarter of m and s*10^6+us microseconds; Second, MilliSec and JULIAN are within 1e-14, 1e-11 and 2e-8 of the exact value, so Second tells every two microseconds apart; units that make no sense are refused. Likewise for Time (hour 24 at 24:00:00), whose epoch is its number of seconds.", "quantifier": "every valid timestamp and time, every unit, both build modes", "why_tests_cant": "exactness of floating point results over the whole range of instants.", "anchors": ["src/timestamp.rs: date_part", "src/time.rs: date_part"]}
{"id": "C54", "title": "Parts and epoch of an interval", "statement": "Year/Month, Day and Hour/Minute/MicroSec of an interval carry its sign and recombine to the interval exactly; Decade, Century, Millennium are the truncated quotients; the epoch counts 365.25 days to a year and 30 days to a left-over month, exactly for whole seconds and to fifteen digits otherwise; intervals of more than i32::MAX hours are refused.", "quantifier": "every interval with in-range fields, every unit", "why_tests_cant": "floating point error over the whole range; sign conventions of division.", "anchors": ["src/interval.rs: date_part"]}
{"id": "C55", "title": "Times of day written by people mean what they say", "statement": "Time::try_from_str reads h:m, h:m:s, h:m:s.f and m:s.f, alone or followed by AM or PM with or without a blank, as exactly that time (12 AM is midnight, 12 PM noon, 24:00:00 the end of the day, second 60 allowed) and refuses every such text that names no time; a precision only rounds the time meant.", "quantifier": "all digit runs of 1 to 9 digits and fractions of up to 6 digits, every order, typmod and build mode", "why_tests_cant": "unbounded family of texts; the meaning of every accepted text, not only of samples.", "anchors": ["src/time.rs: try_from_str", "src/parse.rs: decode_time, decode_time_only"]}
{"id": "C56", "title": "Dates written by people mean what they say", "statement": "Date::try_from_str reads numeric dates, 19990108, 8-Jan-1999, Jan-8-1999, January 8, 1999 and 8 January 1999 (any letter case, any of the three orders), with or without a time of day and an AD or BC mark, as exactly the day meant and refuses every such text that names no day or no time.", "quantifier": "all digit runs, month names, separators, orders, eras and times of the stated layouts", "why_tests_cant": "unbounded family of texts under three orders; acceptance and meaning must agree on all of them.", "anchors": ["src/date.rs: try_from_str", "src/parse.rs: parse_date_time, decode_date_time, decode_date, decode_number"]}
{"id": "C57", "title": "Timestamps written by people mean what they say", "statement": "Timestamp::try_from_str reads any of those dates followed by a blank or T and a time of day as exactly that many microseconds after the start of the day meant, 24:00:00 and second 60 carrying over, and refuses texts naming no such instant or one out of range; a precision only rounds the instant meant.", "quantifier": "all texts made of such a date, time and era, every order, typmod and build mode", "why_tests_cant": "unbounded family of texts and the whole range of instants.", "anchors": ["src/timestamp.rs: try_from_str", "src/parse.rs: decode_date_time, decode_time", "src/common.rs: to_timestamp"]}
{"id": "C58", "title": "Intervals written as quantities with units mean their sum", "statement": "Interval::try_from_str reads any sequence of numbers with units (microseconds to millennia, every spelling, any letter case, signs, fractions of up to six digits where they are exact), followed by an optional signed clock and an optional 'ago', as the sum of its parts: years and above count months, weeks count days, a fraction of a year goes to months, of a month or week to days and time; a number without a unit takes the unit implied by the type modifier or by what follows. Giving one part twice is refused, months outside i32 are refused, and the type modifier is applied last. (Findings: fractions of decades and above are off by a month, a clock before a fractional quantity swallows the fraction, a lone SQL minus acts on sums.)", "quantifier": "all such texts within the token buffer, every style (SQL style unless the only sign is a leading minus), every qualifier and precision, both build modes", "why_tests_cant": "unbounded family of texts; exactness of floating point fractions for all digits.", "anchors": ["src/interval.rs: try_from_str, from_pgtime", "src/parse.rs: decode_interval, decode_interval_number_field, adjust_fract_seconds, adjust_fract_days, decode_units"]}
{"id": "C59", "title": "Intervals in ISO 8601 notation mean their sum", "statement": "Interval::try_from_str reads 'P' with designated amounts (years, months, weeks, days; after 'T' hours, minutes, seconds; each at most once, in any order, with fractions of up to six digits) or with the alternative formats (y-m-d, y-m, y, yyyymmdd; h:m:s, h:m, h, hhmmss, with a fraction of the second) as the sum of its parts, in every style and under every qualifier; months outside i32 are refused and the type modifier is applied last. (Findings: a fraction of months that is a whole number of days can come out a day short with 24 hours instead, as in P1.9M; a repeated designator is summed instead of refused; 'PT' is zero.)", "quantifier": "all such texts within the token buffer, every style, qualifier and precision, both build modes", "why_tests_cant": "unbounded family of texts; rounding of floating point numbers for all digits.", "anchors": ["src/interval.rs: try_from_str", "src/parse.rs: decode_iso8601_interval, parse_iso8601_number, iso8601_integer_width"]}
{"id": "C60", "title": "A single word means infinity or is refused", "statement": "A text of one word, with white space around it and perhaps a sign before it, is a date or timestamp only if it says infinity (any letter case; -infinity is the earliest value, +infinity is refused); every other word is refused with an invalid-format error, so no word depends on the current time; no word is an interval, whatever style or type modifier. (Findings: 'allballs' alone is a date, 30 November of 2 BC, and marks such as 'am', 'bc', 'julian' or 'y' alone are the time midnight, 'pm' noon.)", "quantifier": "every word of up to 127 letters, every sign, white space, order, style, type modifier and build mode", "why_tests_cant": "unbounded family of words; refusing all of them cannot be sampled.", "anchors": ["src/date.rs: try_from_str", "src/timestamp.rs: try_from_str", "src/time.rs: try_from_str", "src/interval.rs: try_from_str", "src/parse.rs: decode_special, decode_units"]}
{"id": "C61", "title": "A precision only rounds what a text means", "statement": "For every text whatsoever: parsing with a precision p in 0..6 succeeds exactly when parsing without one does and gives the same value rounded to the nearest multiple of 10^(6-p) microseconds, ties away from zero (infinite timestamps unchanged); a text refused without a precision is refused with the same error. Any other precision is ignored by Time and refused by Timestamp for finite values.", "quantifier": "every byte string, order, style, precision and build mode (intervals: time within half a second of the i64 limits excluded)", "why_tests_cant": "all strings and all residues.", "anchors": ["src/time.rs: try_from_str", "src/timestamp.rs: try_from_str", "src/interval.rs: try_from_str"]}
{"id": "C62", "title": "Dates given by a count of days mean that day", "statement": "Date and Timestamp::try_from_str read 'J', 'JD' or 'Julian' with a number of up to ten digits as that many days after 24 November 4714 BC, and a year with three digits (joined by '-', '/', '.' or a blank) as that day of the year counted from 1 January, each possibly followed by a time of day and an era; days outside the supported range, day 000, days above 366 and year 0 are refused without a panic. (Findings: day 366 of a year of 365 days is 1 January of the next year; years above 5874897 or days before 24 November 4714 BC overflow: a panic in debug builds and possibly a wrong instant in release builds.)", "quantifier": "all such texts, every letter case, white space, order, time, era, precision and build mode", "why_tests_cant": "two billion days in unbounded families of texts; correspondence with the calendar.", "anchors": ["src/date.rs: try_from_str", "src/timestamp.rs: try_from_str", "src/parse.rs: decode_number_token, decode_number", "src/common.rs: validate_date, julian2date"]}
{"id": "C63", "title": "A time zone or an unknown word is never silently ignored", "statement": "Date, Timestamp and Time::try_from_str never accept a text in which an offset such as +08 stands at the start, after white space, directly after a time of day, or after the T form of a date and time; nor a text with a word (at such a place, in any letter case, followed by anything but a letter) outside a fixed list of about seventy known words: zone names and abbreviations such as UTC, Z or America/New_York, words relative to the clock such as now or today, and misspelt words.", "quantifier": "all byte strings before and after the zone or word, every order, precision and build mode", "why_tests_cant": "quantifies over arbitrary surrounding texts and all words outside a finite list.", "anchors": ["src/parse.rs: parse_date_time, decode_date_time, decode_time_only, decode_timezone, decode_string_and_special_token, decode_date"]}
{"id": "C64", "title": "A weekday or filler word at the end never changes the value", "statement": "For every text, if it followed by white space and the name of a weekday (any spelling and letter case) or 'at' or 'on' is accepted as a Date or Timestamp, then the text alone is accepted with the same value; and after every date, time and era text of the documented forms such a word is accepted. (Findings: the weekday is not compared with the date, and a weekday in front of a date like 1999-01-08 is refused.)", "quantifier": "all byte strings before the word (not ending in a point or sign), every order, precision and build mode", "why_tests_cant": "arbitrary texts before the word.", "anchors": ["src/date.rs: try_from_str", "src/timestamp.rs: try_from_str", "src/parse.rs: parse_date_time, decode_string_and_special_token, decode_date", "src/common.rs: validate_date"]}
{"id": "C65", "title": "Years and months written y-m mean what they say", "statement": "Interval::try_from_str reads 'y-m' (sign for both, months 0..11) followed by any quantities with units, a clock and 'ago' as 12*y+m months plus the other parts, each with its own sign; in the SQL standard's style one leading minus and no other sign makes every part of 'y-m d h:m:s' negative. Months of 12 and above and months given twice are refused. The type modifier is applied last.", "quantifier": "all digits, signs, quantities, clocks, styles, qualifiers, precisions and build modes (within the token buffer, up to 10^8 months)", "why_tests_cant": "unbounded family of texts; the sign rule depends on the whole text and the style.", "anchors": ["src/interval.rs: try_from_str", "src/parse.rs: decode_interval, decode_interval_number_field"]}
{"id": "C66", "title": "Debug and release builds never give different results", "statement": "For every public operation (parsing, formatting, construction, conversion, arithmetic, age, parts, truncation, justification, scaling, serde) and every input, the debug build either panics or returns exactly what the release build returns: the same value or the same error. So whatever a debug build was seen to return is what production returns.", "quantifier": "every operation and every input", "why_tests_cant": "would need every input in both builds.", "anchors": ["src/date.rs", "src/time.rs", "src/timestamp.rs", "src/interval.rs", "src/parse.rs", "src/serde.rs"]}
{"id": "C67", "title": "No operation outside the parsers panics in a release build", "statement": "Formatting, construction, rounding to a type modifier, conversion, arithmetic, age, parts, truncation, justification, scaling and serialisation return a value or an error in a release build for every machine value, also for values outside the valid range as unchecked binary deserialisation can produce; a debug build can panic only for arithmetic overflow. The one exception is the operator + on intervals, which panics exactly where add_interval reports an error.", "quantifier": "every operation but parsing (see C42) and every 32- and 64-bit content of the values", "why_tests_cant": "the extreme values are 2^64 and more per argument; table indices, buffer sizes and loops must be right for all of them.", "anchors": ["src/date.rs", "src/time.rs", "src/timestamp.rs", "src/interval.rs", "src/common.rs", "src/serde.rs"]}
{"id": "C68", "title": "ISO text sorts in order of time", "statement": "For dates and timestamps with years 1 to 9999 (ISO and XSD styles) and for all times of day, sorting the formatted texts byte by byte puts them in chronological order: a is earlier than b iff the text of a sorts before the text of b, fractions of seconds of different lengths included. Outside these years this is false.", "quantifier": "all pairs of dates, of timestamps with years 1..9999, of times of day; both build modes", "why_tests_cant": "pairs of values; the varying length of the fraction and the padding matter at every boundary.", "anchors": ["src/date.rs: format_date", "src/time.rs: format_time", "src/timestamp.rs: format_date_time", "src/common.rs: append_seconds, pg_ltostr_zeropad"]}
{"id": "C69", "title": "Adding intervals keeps order", "statement": "Adding one interval to two timestamps with the same time of day, or to two dates, keeps their order; without months it keeps their distance; in general the order can be reversed only by less than a day, which does happen. Adding an interval with larger fields never gives an earlier timestamp. Up to day 28 of a month, adding months in two steps equals adding their sum, and subtracting undoes adding; beyond it need not.", "quantifier": "all pairs of timestamps or dates and all intervals whose sums stay in the supported range; both build modes", "why_tests_cant": "relations between runs on unbounded pairs of inputs.", "anchors": ["src/timestamp.rs: add_interval, sub_interval", "src/date.rs: add_interval"]}
{"id": "C70", "title": "Truncations nest and agree with the parts", "statement": "Where every coarse unit consists of whole fine units (microseconds up to years, years in decades, years in centuries, centuries in millennia), truncating a timestamp to the fine and then to the coarse unit equals truncating to the coarse unit at once. Truncation leaves the parts from its unit upwards unchanged, and two timestamps truncate to the same value iff all these parts are equal. Decades are not parts of centuries.", "quantifier": "all valid timestamps, pairs of them, and pairs of units; both build modes", "why_tests_cant": "relations between several results over unbounded inputs.", "anchors": ["src/timestamp.rs: truncate, date_part", "src/common.rs: truncate"]}
{"id": "C71", "title": "Scaling an interval by any factor is accurate", "statement": "Multiplying an interval by a finite double x (mul_f64), or dividing it by a non-zero x (div_f64), when the scaled fields stay inside the ranges of their types, succeeds, and the result has x times (one x-th of) the length of the interval, counting months as 30 days and days as 24 hours, up to 43.22 milliseconds plus one part in 2*10^15 of the size; the month field is within one of the exact product, and the day field within 37, so fractions only move downwards. Dividing by x and multiplying by 1/x agree within twice that error. An error bound of 43 milliseconds would be false.", "quantifier": "every interval, every finite double whose products stay in range, debug and release builds", "why_tests_cant": "The result goes through six roundings, two truncations, a rounding to six decimals and a carry, and the error of each depends on the factor; tests try a few friendly factors and cannot bound the worst one.", "anchors": ["src/interval.rs: Interval::mul_f64, Interval::div_f64"]}
{"id": "C72", "title": "Texts without long numbers never panic in any build", "statement": "try_from_str of Date, Time, Timestamp and Interval on a text with at most 128 bytes that are not white space, no more than six digits in a row, no sign at the end, no lone \"t\" at the end (Date and Timestamp), without the word \"bc\" (but for Interval) and (Timestamp) without the word \"h\" returns Ok or Err, and the same one in debug and release builds. (Each condition is needed: \"9999999-123\", \"9999999 mil\", \"4714-123 bc\" and \"2020-01-01 h999999\" overflow.)", "quantifier": "every byte string meeting the conditions, every date order, interval style and type modifier, both build modes", "why_tests_cant": "it is a statement about every text; overflow needs particular combinations of fields that random tests do not meet.", "anchors": ["src/parse.rs", "src/date.rs, src/time.rs, src/timestamp.rs, src/interval.rs: try_from_str"]}
{"id": "C73", "title": "Taking an age off again leads back", "statement": "For timestamps a and b with a not before b, a.sub_interval(a.age(b)) is exactly b whenever a lies on one of the first 28 days of a month. On any dates and in either order, a.sub_interval(a.age(b)) differs from b, and b.add_interval(a.age(b)) from a, by at most three whole days, with the time of day exact.", "quantifier": "all pairs of finite timestamps (at least three days inside the range for the approximate part), both build modes", "why_tests_cant": "Age borrows the length of the earlier timestamp's month while interval arithmetic clamps days to the reached month; whether the two agree depends on the combination of both months, both days and both times of day.", "anchors": ["src/timestamp.rs: age, sub_interval, add_interval", "src/interval.rs: negate"]}
{"id": "C74", "title": "Different values have different texts", "statement": "Two dates, two timestamps, two times or two intervals whose texts in one style and order are equal are the same value, infinities included. The text of an interval in each of the four styles is its years, months, days, hours, minutes, seconds and microseconds in the layout of that style, and these fields are unique.", "quantifier": "all pairs of finite and infinite dates and timestamps, all pairs of times, all pairs of intervals whose hours fit 32 bits and whose day field is not the smallest; every style and order; any combination of build modes", "why_tests_cant": "A collision needs two values whose padding, separators, sign handling and omitted fields happen to coincide; no test compares all pairs.", "anchors": ["src/date.rs: format_date", "src/timestamp.rs: format_timestamp", "src/time.rs: format_time", "src/interval.rs: format_interval, add_iso8601_int_part, add_postgres_int_part, add_verbose_int_part"]}
{"id": "C75", "title": "Ages grow with time", "statement": "Over one timestamp, a later timestamp never has fewer months of age than an earlier one. The months are the number of anniversaries passed: k months added to the earlier timestamp is not after the later one whenever the age has k months, and only then when the earlier one lies in the first 28 days of its month. Over a timestamp in a month of 31 days the age grows field by field. In every case an age falls behind an earlier one by less than three days when months count 30 days.", "quantifier": "all valid timestamps in any order and all month counts", "why_tests_cant": "the age depends on the length of the month of the earlier timestamp and on where both lie in their months; dips occur only at particular month ends, so samples neither find nor exclude them", "anchors": ["src/timestamp.rs: Timestamp::age", "src/timestamp.rs: Timestamp::add_interval", "src/interval.rs: Ord for Interval"]}
{"id": "C76", "title": "Times written without colons", "statement": "The texts hhmm, hhmmss and hhmmss.f, with or without a leading T and with or without AM or PM, are read by Time::try_from_str as that time of day, and refused if there is no such time. After a date and a blank, or a T after a date that allows one, they give the timestamp at that time of that day; Date::try_from_str gives the day. After a date only the hour of an AM or PM is checked: other numbers carry over into the following hours and days.", "quantifier": "all two digit hours, minutes and seconds, all fractions of up to six digits, all written dates, eras and orders, both build modes", "why_tests_cant": "a run of digits can be a date, a time or a year depending on its length, on what came before it and on its place among the fields; every combination has to be right", "anchors": ["src/parse.rs: decode_number, decode_number_field", "src/parse.rs: decode_date_time, decode_time_only", "src/time.rs: Time::try_from_str", "src/timestamp.rs: Timestamp::try_from_str", "src/date.rs: Date::try_from_str"]}
{"id": "C77", "title": "Fields written with letters mean what they say in any order", "statement": "Texts such as 'y1999 m1 d8 h4 mm5 s6.5' - numbers with y, m, d, h, mm or s in front, in either letter case, with or without blanks, possibly followed by AM, PM and an era - are read as that time of that day. With at most one m the order of the fields does not change the result, not even the error; an m stands for minutes once a month and an hour are given. A field given twice is refused, and so is an incomplete date. A year with a letter is never a two digit short form. Time::try_from_str reads any selection of h, mm and s as a time of day and refuses times that do not exist.", "quantifier": "all sequences of up to seven labelled numbers in every order, letter case and spacing, every era, AM or PM, precision, order and build mode", "why_tests_cant": "every order and selection of fields has to be tried against every state of the decoder; the meaning of m depends on what came before", "anchors": ["src/parse.rs: parse_date_time", "src/parse.rs: DecodeDateTimeCtx::decode_number_token", "src/parse.rs: DecodeTimeOnlyCtx::decode_number_token", "src/timestamp.rs: Timestamp::try_from_str", "src/date.rs: Date::try_from_str", "src/time.rs: Time::try_from_str"]}
{"id": "C78", "title": "All spellings of a moment agree and none has two meanings", "statement": "Every text that says a day and a time of day in one of the supported ways (numeric dates, month names, compact digits, Julian days, days of the year, fields with letters, compact times, AM/PM, BC/AD, any letter case and white space) is read as that day and time at any precision. A text that can be taken in two of these ways means the same in both. Two spellings of one moment give the same value under any two orders and builds, and swapping day and month is the same as swapping the orders DMY and MDY.", "quantifier": "all texts generated by the inductive relation of spellings, closed under letter case and re-spacing; all orders, precisions and builds; all days and times in range", "why_tests_cant": "The spellings overlap (19990108 is a compact date, 1999-008 could be a month) and combine freely; a test can compare only a few pairs.", "anchors": ["src/parse.rs: parse_date_time, decode_date_time, decode_number, decode_number_field, decode_date", "src/timestamp.rs: Timestamp::try_from_str", "src/date.rs: Date::try_from_str"]}
{"id": "C79", "title": "Whatever text was accepted, the value can be written out and read back", "statement": "If any text at all is accepted as a date, timestamp or time, the value can be written out, and reading that text gives the same value again under any order and build; with a precision, reading again with the same or a finer one changes nothing. Two accepted texts mean the same exactly if they are written out alike. Every field of an interval read from any text fits its type and the interval is written and read back in every style but ISO 8601. Exceptions: times after 24:00:00 from a leap second, and the moment after the last one of the range that rounding can reach, are written but never read.", "quantifier": "all byte strings the parsers accept, all orders, precisions, ranges, styles and builds", "why_tests_cant": "The set of accepted texts has no simple description; a test tries only the texts somebody thought of.", "anchors": ["src/date.rs: Date::try_from_str, Date::format", "src/timestamp.rs: Timestamp::try_from_str, Timestamp::format", "src/time.rs: Time::try_from_str, Time::format", "src/interval.rs: Interval::try_from_str, Interval::format, adjust_by_typmod", "src/parse.rs: decode_interval, decode_iso8601_interval"]}
{"id": "C80", "title": "Whatever sequence of calls is made, every value stays in range", "statement": "Take any value produced by any number of calls of the API in any order, starting from constructors and texts: parsing, construction, day and interval arithmetic, conversion, truncation, age, differences, justification, scaling. A date is in the supported range or infinite; a timestamp is in the supported range, infinite, or the one moment right after its end; a time of day is at least 0 and at most 24:00:01 in debug builds and below 48:00:00 in release builds; the fields of an interval fit their types. Both exceptions are reached. Hence, whatever was called before, the conversions between dates, timestamps and times, day arithmetic, date and timestamp formatting, adding an interval to a time, interval sums and justification, and the parts, ages and truncations of finite timestamps (except to the week), of times of day and the parts of intervals do not panic in any build, and the values can be serialised and read back.", "quantifier": "all finite sequences of API calls with all arguments, in debug and release builds", "why_tests_cant": "The property ranges over histories of calls of any length; a test runs a few of them.", "anchors": ["src/date.rs: Date", "src/time.rs: Time, From<Interval> for Time", "src/timestamp.rs: Timestamp", "src/interval.rs: Interval", "src/lib.rs: DateTime"]}
{"id": "C81", "title": "Operations on a timestamp act on its date and its time of day separately", "statement": "For every timestamp t with date d and time of day c: adding n days gives the date d plus n days and keeps c; adding months gives the same date as adding them to d and keeps c; adding a clock time changes c exactly as adding it to c alone does (modulo 24 hours), provided c plus it fits the number range - and not otherwise, which is shown by a witness. The difference of two timestamps is the difference of their dates in days together with the difference of their times of day, brought to one sign. A date combined with a time of day has that date and that time; with 24:00:00 it is midnight of the next day. Truncating to the hour or finer keeps the date and truncates c as a time; truncating to the day or coarser, the week included, gives the date that truncating d gives. Extracting hour, minute, second, millisecond or microsecond from t equals extracting it from c, and extracting a calendar field from t equals extracting it from d.", "quantifier": "all valid timestamps, all day and month counts of 32 bits, all clock times of 64 bits, all clock units, all calendar units and both builds", "why_tests_cant": "The date and the time of day go through different code than the timestamp (own addition, own modulo, own truncation through Interval), so agreement can fail at midnight, at month ends, before 2000 or near the limits only; no set of sample timestamps covers all combinations.", "anchors": ["src/timestamp.rs: add_interval, sub_timestamp, truncate, date_part", "src/date.rs: add_days, add_interval, add_time, truncate, date_part", "src/time.rs: add_interval, sub_time, truncate, date_part, TryFrom<Timestamp>"]}
{"id": "C82", "title": "Seconds finer than a microsecond are rounded to the nearest or refused", "statement": "A time of day h:m:s.f or m:s.f with seven digits after the point, alone or with AM or PM, or after any written date and before any era, is read exactly like the same text with the six digits nearest to the seven, for Time, Timestamp and Date; a seventh digit 5 may go either way. With eight to sixty digits it is refused everywhere and never silently cut.", "quantifier": "all runs of seven digits below 9999995 and all runs of 8 to 60 digits after the point, all hours, minutes and seconds of 1 to 9 digits, all written dates, eras, precisions, orders and both builds", "why_tests_cant": "the fraction goes through a floating point division and multiplication; whether that rounds every one of the ten million fractions to the nearest microsecond cannot be sampled", "anchors": ["src/parse.rs: parse_fractional_second, str2d, decode_time", "src/time.rs: try_from_str", "src/timestamp.rs: try_from_str", "src/date.rs: try_from_str"]}
{"id": "C83", "title": "A text without any digit names almost nothing", "statement": "When a text contains no decimal digit, each text constructor either refuses it or returns one of a handful of fixed values: an interval text gives the empty interval; a time text gives midnight or noon; a date text gives one of the two infinities, Julian day 0, or the last day of one of the thirteen months from November 2 BC to November 1 BC (day 0 of a month of the year 1 BC or of the month before it); a timestamp text gives an infinity or midnight or noon of such a day, whatever precision is requested. The stronger expectation, that a date text naming no day is refused unless it is an infinity, is false.", "quantifier": "Every byte string without a byte in '0'..'9', of any length and with any words, punctuation and blanks, every requested precision or range, every date order and interval style, and both build modes.", "why_tests_cant": "There are infinitely many texts without digits, and which words may follow each other depends on the whole keyword table and on the masks collected so far; examples such as 'pm' or 'allballs' cannot show that no other text produces, say, an arbitrary date.", "anchors": ["src/parse.rs: parse_date_time, decode_date_time, decode_time_only, decode_interval, decode_iso8601_interval", "src/date.rs: Date::try_from_str", "src/timestamp.rs: Timestamp::try_from_str", "src/time.rs: Time::try_from_str", "src/interval.rs: Interval::try_from_str"]}
{"id": "C84", "title": "Interval numbers with too many decimals are refused, never cut", "statement": "An interval text in which, anywhere, a digit is followed by a decimal point and eight or more digits is refused: it is never read with the extra digits dropped or misplaced. This holds for quantities, clocks, signed numbers, year-month pairs and ISO 8601 texts alike, whatever else the text contains. Seven digits are accepted. Without a digit in front of the point the claim is false: in ',.12345678 days' the comma takes the point along and the text means 12345678 days.", "quantifier": "Every byte string with such a number at any place, with any bytes before and after it, every type modifier, every interval style and both build modes.", "why_tests_cant": "The number may stand in any of a dozen syntactic positions, in front of and behind arbitrary other text, and the fields are split and decoded by different routines; tests can sample positions but not all texts.", "anchors": ["src/parse.rs: str2d, str2i32, parse_date_time, decode_interval, decode_time, parse_iso8601_number, decode_iso8601_interval", "src/interval.rs: Interval::try_from_str"]}
