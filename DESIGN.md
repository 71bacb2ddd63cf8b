# Formal model of wlooong/pgdatetime

The model is a Rocq (Coq 8.16.1) transcription of `/repo/src`, function by function. The theorems about it are listed in
`MANIFEST.json`; `properties.jsonl` has the properties in words.

## Layout

* `rocq/theories/Model/*.v` - the model. Only definitions, no proofs. Each definition cites the lines of `/repo/src` it transcribes.
* `rocq/theories/Spec/*.v` - small independent specifications: the Gregorian calendar by successor days, clocks, ISO weeks, decimal
  numerals, rounding, the layouts of date, time and interval texts. They do not use the model's functions (only its byte strings and records).
* `rocq/theories/Proofs/*.v` - lemmas.
* `rocq/theories/Props/*.v` - the theorems named in `MANIFEST.json`, each with `Print Assumptions` and an `Example` meeting its hypotheses.
* `rocq/theories/Tests/Replay.v` - the crate's unit tests evaluated on the model.
* `seeded/LOG.jsonl` - wrong programs (edits of the model) that the theorems were tried on.

A theorem whose name ends in `_refuted` shows that a natural, stronger form of the property is false of the code; it comes with a
witness that can be run against the crate. A name ending in `_partial` marks a proof of part of a property.

## Trusted base

1. The Coq 8.16.1 kernel, including its `vm_compute` machine (used for closed computations: keyword tables, witnesses, examples). `coqchk`
   rechecks every file without it.
2. Axioms. No axiom is added by this development. `Print Assumptions` reports either "Closed under the global context" or exactly some of the
   following four axioms of Coq's standard library, which enter through the construction of the real numbers `Coq.Reals` (used by Flocq in
   proofs about `f64`):
   * `ClassicalDedekindReals.sig_not_dec`
   * `ClassicalDedekindReals.sig_forall_dec`
   * `FunctionalExtensionality.functional_extensionality_dep`
   * `Classical_Prop.classic`

   `coqchk -o` adds, for files that load `Reals` or ssreflect, the opaque constants of `Coq.Reals.Rdefinitions` (`RbaseSymbolsImpl.*`) and
   `Coq.ssr.ssrunder.Under_rel`, which are the module-type parameters of those libraries, with implementations.
   See the table "Assumptions per theorem" below.
3. Libraries: Coq's standard library; Flocq (only in `Proofs/` and in the proofs of `Props/`, never in the model). The model's floats are
   `SpecFloat` of the standard library.
4. The reading of the code. Nothing here ran the crate; each definition was written from the cited lines and re-read against them.
5. The meaning given to Rust in `Model/Base.v` and `Model/F64.v` (next section).

## Modelling decisions

* Integers are `Z`. Every Rust arithmetic operation that can overflow is a function `add32 md a b : res Z` etc. `md` is the build
  mode: in `Debug` an overflow is the explicit outcome `Fault FArith` (a panic); in `Release` the value wraps. Operations written
  `wrapping_*`, `checked_*`, and `as` casts are modelled by their own functions. `/` and `%` are `Z.quot`/`Z.rem`. Theorems quantify over `md`.
* `res A = Ok a | Err kind | Fault f`. `Err` carries the error kind (Empty / Invalid / Overflow); messages are not modelled (but an
  out-of-bounds index evaluated while building a message is). `Fault` covers overflow panics, index panics, failed
  assertions, reads of uninitialised memory, invalid enum values made by `transmute`, `unwrap` of an error, and exhausted loop fuel of the model.
  No theorem takes `Fault FFuel` for a normal result; the totality theorems (C42, C45) exclude it.
* `f64` is `SpecFloat.spec_float` with binary64 parameters (53, 1024), i.e. exact IEEE semantics with round to nearest even, not reals.
  Casts to integers saturate and NaN goes to 0, as in Rust. `round` is half away from zero. Decimal digits are converted (`str::parse::<f64>` on
  digit strings) with correct rounding. No primitive floats.
* Byte strings are `list Z` with values 0..255; the 128 byte work buffer of the tokenizer and the 25 entry field arrays are modelled by their
  capacities (copying past the end is `Fault FIndex`).
* A `&mut` argument becomes a returned value. `PgTime` is a record; `gmtoff` and `zone` are never observable and are omitted.
* The keyword caches (thread-local in the crate) are explicit state in `Model/ParseCached.v`, which repeats the decoders with the cache threaded through;
  `Model/Parse.v` uses the pure lookup. C41 proves that both agree from every reachable cache.
* `while` loops use structural recursion over the input or explicit fuel with out-of-fuel as `Fault FFuel`.
* Serde formats are abstract: the model has what the crate's `Serialize`/`Visitor` code sees (numbers, strings, sequences, maps with key strings),
  not a particular format.

## What is modelled and what is not

| source | modelled | not modelled |
|--------|----------|--------------|
| `common.rs` | everything except the right column: calendar and Julian day functions, ISO weeks, truncation of `PgTime`, `to_timestamp`, rounding, number formatting | `datetime2local` (line 397: only reached with a time zone, which `decode_timezone` refuses) |
| `date.rs`, `time.rs`, `timestamp.rs` | all methods, conversions, `date_part`, `truncate`, parsing and formatting | `Display`/`Debug` derives, the `generic format buffer` type parameter (any `fmt::Write`): the model returns the bytes written |
| `interval.rs` | all methods, operators, order, `mul_f64`, `div_f64`, typmods, parsing, four formats | same |
| `parse.rs` | the tokenizer, all decoders for dates, times, intervals, ISO 8601, the special words | bodies that are "todo" in the crate: `decode_timezone` (always `Err`), `decode_timezone_abbrev` (always unknown), `pg_time_zone_set` (always none) are modelled as those constants |
| `token.rs` | keyword tables (every row), binary search, the type and field codes | - |
| `serde.rs` | the serialisers and visitors of the four types | concrete serde formats |
| `lib.rs` | the enums, `DateUnit` dispatch | - |
| `error.rs` | error kinds | messages, `Display` |
| `timezone.rs` | nothing: the types are never used by any result | whole file |
| - | - | memory layout, performance, thread scheduling (the caches are thread-local, so histories of one thread suffice) |

## Properties and method of proof

| id | what is modelled | proof |
|----|------------------|-------|
| C01 | date2julian, days_of_month, try_from_ymd | induction over the number of next-day steps; month/leap case split with div/mod arithmetic |
| C02 | julian2date (u32) | closed form shown inverse of date2julian, range side conditions for u32 |
| C03 | try_from_ymd, validate_date, is_valid_julian | case analysis on both modes; monotonicity from C01 |
| C04, C05 | add_days, sub_days, sub_date | linear arithmetic over saturating/checked operations |
| C06, C08 | TryFrom conversions | floor division lemmas |
| C07 | timestamp2time, to_timestamp | C02 + division |
| C09, C10, C11 | add_interval, sub_interval, sub_timestamp | C01/C02/C07, independent month arithmetic spec; witnesses for the overflow findings |
| C12 | age | invariants of the borrow steps, uniqueness of the distance |
| C13-C17 | truncate, date_part, ISO week functions | spec by boundaries / Thursday rule |
| C18-C22 | Time and Timestamp constructors and arithmetic | modular arithmetic; floats through SpecFloat/Flocq |
| C23-C30 | Interval operations, typmods | linear/nonlinear integer arithmetic |
| C31 | pg_ltostr, zeropad, append_seconds | induction on digits |
| C32-C38 | formatters, tokenizer, field decoders | symbolic execution of the tokenizer on digit blocks + decimal lemmas + float fraction error analysis |
| C39 | serde visitors | permutations of fields, composition with the round trips |
| C40, C41 | keyword tables, caches | sortedness by computation, then induction for the search; invariant over histories of parse calls |
| C42, C43, C45 | whole parser | invariants over tokenizer and decode loops; witnesses for the crash findings |
| C44 | whole parser | simulation between the token lists of two texts |
| C46, C55-C59 | whole parser | symbolic execution for whole families of texts given by `Spec/*Text.v`, `Spec/*Words.v`; fractions by error bounds on binary64 |
| C61 | `try_from_str` with a precision | the precision is applied last, to the value read without one |
| C62 | parser on Julian days and days of the year | symbolic execution over `Spec/DayCount.v`, calendar bijection |
| C63 | parser on texts with a zone or an unknown word | splitting is compositional at white space (`Proofs/CutP.v`), a refused field stays refused in every state |
| C64 | parser on texts with a weekday or filler at the end | splitting is compositional; a weekday only sets `tm_wday` and its mask bit, which nothing reads |
| C65 | parser on intervals with `y-m` | as C58, one more field; force_negative on the exact state for a lone minus |
| C66 | every operation that depends on the build mode | relation "debug panics or equals release", closed under binding and branching, for all 170 functions in turn |
| C67 | every operation outside the parsers, on raw machine values | table indices, output length (128-byte buffer) and loop fuel bounded for every 64-bit content |
| C68 | text of dates, times, timestamps | fixed-width numerals order as their values, trimmed fractions by induction; lexicographic composition |
| C69 | add_interval of timestamps and dates | monotonicity of clamped month arithmetic, on top of C09 |
| C70 | truncate and date_part of timestamps | inclusion of the sets of unit starts, uniqueness of the floor; exactness of the parts |
| C71 | Scaling an interval by any double gives the right length within 43.22 ms and 2 ulp | Standard-model error bounds for every rounding of the cascade (Flocq), summed |
| C72 | Texts without long numbers never panic | bounds on every field collected so far, by induction over the fields; floats by rounding bounds (Flocq) |
| C73 | age against interval addition and subtraction | months counted from year 0, telescoping of month lengths |
| C74 | texts of dates, times, timestamps and intervals | layouts of the four interval styles stated independently; unique decomposition of each layout |
| C75 | Timestamp::age in both arguments | month number, day and clock as a lexicographic order; anniversary as a Galois connection with adding months |
| C76 | digit-only times in all three decoders | token, field and decoder level lemmas over an inductive grammar |
| C77 | unit prefixes in all three decoders | induction over the list of fields with an explicit decoder state; permutations by induction |
| C78 | one relation of all spellings of a moment | induction over the relation, using C44, C56, C57, C62, C76, C77 |
| C79 | parsers and formatters of all four types | ranges of parsed values (C43, invariant of the day field) composed with the round trips |
| C80 | all public operations that return a value | induction over the calls, with one range lemma per operation |
| C81 | a timestamp's operations agree with those of its date and its time of day | both sides expressed by the day number and the microseconds of the day; truncation by the latest start of the unit |
| C82 | texts with seven digits of a second equal the nearest with six, more are refused | error bounds of both roundings (Flocq), then equal fields give equal values |
| C83 | texts without digits | invariants of the three decoders over all token lists |
| C84 | too many decimals in intervals | a long fraction survives splitting into fields and every number reader |
| C60 | parser on one word | reduction of the lookup to the finite keyword table, then evaluation of each entry |
| C47, C48 | mul_f64, div_f64, try_from_ymwd_hms | SpecFloat/Flocq |
| C49-C52 | cross-type operations, buffer sizes, time truncation | composition of the above |
| C53, C54 | date_part of timestamps, times, intervals | error bounds on binary64 |

C14 is the only partial property: the theorem covers every day except the December days of the next year's ISO week 1, where the code is
wrong (`C14_week_refuted`, `C14_week_panic_refuted`).

## Findings

Behaviour of the code that breaks a property one would expect. Those with a theorem name are proved.

Values and arithmetic
* Year `i32::MIN` panics in debug builds (`C03_min_year`).
* `sub_date` on raw `Date::from(i32)` values overflows (`C05_raw_refuted`).
* `Timestamp::add_interval`: a day step to before 4714 BC panics in debug builds and can return a wrong but valid timestamp in release builds
  (`C09_early_days_refuted`); the final 64 bit addition wraps, so a huge positive interval can move time back (`C09_wrap_refuted`).
* `sub_timestamp` of valid timestamps further apart than i64 microseconds overflows (`C11_far_apart_refuted`).
* `age` takes +infinity for the finite instant 294277-01-09 04:00:54.775807 (`C12_plus_infinity_refuted`). Adding an age back need not give the
  first timestamp, as with PostgreSQL (`C12_add_back_refuted`).
* Ages over one timestamp can fall in the order of intervals while time passes, by up to three days less a microsecond (`C75_grow_refuted`, `C75_order_refuted`).
* `truncate` of +infinity gives finite values for the three largest units and an error for the others; -infinity is always an error (`C13_infinity_refuted`).
* Week truncation on December days of the next year's ISO week 1 gives the Monday of the first week of the previous ISO year (`C14_week_refuted`), and
  panics in debug builds for 29-31 December 4714 BC (`C14_week_panic_refuted`).
* `IsoYear` counts 1 BC as year 0 while `Year` counts it as -1 (`C15_isoyear_bc_refuted`).
* `Time::from(Interval)` overflows within a day of i64::MIN (`C20_near_min_refuted`).
* A clock time within a day of i64::MAX moves a time of day differently from the time of day of a timestamp (`C81_clock_refuted`).
* `Time::try_from_hms` accepts NaN seconds as 0 (`C21_nan_refuted`).
* `Interval`: `Ord` says Equal where `Eq` says different (`C24_eq_inconsistent_refuted`).
* `Interval::truncate` panics or returns a wrong value as soon as the whole minutes kept do not fit 32 bits (35791394 hours), even for MicroSec (`C28_limit`, `C28_long_refuted`); texts of such intervals are written
  but reading them panics or returns another clock part (`C36_limit`, `C37_limit`, `C38_limit`, `C36_long_refuted`); intervals of more than i32::MAX hours have no parts at all, not even their years (`C54_big`).
* Rounding to a precision can leave the valid timestamps and is not checked again (`C29_out_of_range_refuted`, `C43_timestamp_typmod_refuted`).
* `mul_f64` saturates for a time product of exactly 2^63; `div_f64` refuses neither NaN nor results out of range
  (`C47_mul_saturates_refuted`, `C47_div_nan_refuted`, `C47_div_range_refuted`).
* Scaling an interval rounds the days to six decimals, so a result can be off by 43 milliseconds: a month divided by 60240964 is zero (`C71_exact_refuted`).
* The operator `+` on intervals panics in all builds where `add_interval` returns an error (`C67_plus_refuted`).
* Fields of `try_from_ymwd_hms` wrap instead of being refused (`C48_overflow_refuted`).
* `Time::truncate` of 24:00:00 is 00:00:00 (`C52_midnight_refuted`).
* `Timestamp::date_part` refuses the field type Epoch for every unit, even Epoch (`C53_refused`).

Text
* The verbose interval style chooses the plural by the field and not by the number it writes: minus one year is "@ 1 years ago" (`C74_ex_neg`).
* The Postgres style under DMY writes "dd-mm.yyyy", which no order reads; under YMD the SQL, German and Postgres styles are refused or read as another day
  (`C33_postgres_dmy_refuted`, `C33_ymd_refuted`, `C33_ymd_other_day_refuted`).
* The keyword table has "fe" instead of "feb", so no February timestamp in Postgres style is read back (`C35_february_refuted`, `C40_feb_missing_refuted`).
* An interval with day i32::MIN panics when formatted in debug builds and prints two minus signs in release builds (`C36_day_min_refuted`,
  `C50_interval_min_refuted`).
* ISO 8601 intervals with negative fields are written but not read (`C38_negative_refuted`, for all of them `C38_negative`): the number parser compares with `b'c'` where `b'-'` is meant
  (parse.rs:2905).
* Texts with more than 128 token bytes panic (`C42_long_refuted`, `C45_long_refuted`); a sign at the end reads a field type that was never written
  (`C42_sign_refuted`); "2020-01-01 t" panics while the error is made (`C42_t_refuted`, parse.rs:1764-1768); unchecked 32 bit sums and products panic in debug
  builds, e.g. "2147483647 weeks", "-2147483648 days ago", "P2147483647Y2147483647Y", "2147483647-123", "h2147483647" (`C42_overflow_refuted`).
* A year and a day of the year followed by "bc" overflow in debug builds from 4714 BC back: "4714-123 bc" (`C72_bc_refuted`).
* A text with a time and no date is accepted as year 0, month 0, day 0: `Date::try_from_str` and `Timestamp::try_from_str` ignore the decoder's "no date" result
  (`C43_calendar_refuted`).
* After a "." a space changes the field from a number into a date; the empty text is refused but white space alone is the time 00:00:00; letter case
  can change the kind of an error; an ISO 8601 interval is refused in small letters
  (`C44_dot_refuted`, `C44_empty_refuted`, `C44_case_errors_refuted`, `C44_case_iso_refuted`).
* Fractions of decades, centuries and millennia are not exact: 0.7 decades are not 84 months (`C58_decades_refuted`). A clock before a fractional
  quantity swallows the fraction (`C58_order_refuted`). In the SQL style a lone leading minus acts on sums: days after weeks keep their sign
  (`C58_sql_minus_refuted`).
* "P1.9M" is 1 month 26 days 24:00:00, repeated ISO 8601 designators are added, "PT" is zero (`C59_month_fraction_refuted`, `C59_repeat_refuted`).
* "allballs" alone is the date 30 November 2 BC; "am", "bc", "julian", "y" ... alone are times of day (`C60_words_refuted`).
* Texts without any digit are accepted: "," and "am" are the time 00:00:00, "pm" is 12:00:00, ". day" is the empty interval, "jan allballs" is 31 December 2 BC and "julian ." is Julian day 0. C83 lists all values such texts can have (`C83_no_day_refuted`).
* Punctuation swallows a decimal point behind it: ",.5 days" are 5 days (`C84_no_digit_refuted`).
* Day 366 of a common year is 1 January of the next year: "1999-366" is 2000-01-01 (`C62_year_length_refuted`).
* A day of the year in a year above 5874897 or before 24 November 4714 BC overflows `i32`: "9999999-001" panics in debug builds, and "11768000-001" is a timestamp in 8778 in release builds (`C62_year_bound_refuted`).
* A weekday is not compared with the date: "1999-01-08 monday" is accepted, and that day was a Friday (`C64_checked_refuted`).
* A weekday in front of a date in one piece is refused, "Friday 1999-01-08", because its mask bit is counted as an unexpected part of the date (`C64_leading_refuted`).
* Without colons the time after a date is not checked: "2020-01-01 256199" is 02:02:39 of the next day (`C76_no_such_time_refuted`).
* After a date the hours of "h99" are not checked (`C77_no_such_time_refuted`); `Time::try_from_str` takes the "m5" of "h4 m5" for a month and drops it
  (`C77_minutes_refuted`).
* Eight or more digits of a second are refused, so times with nanoseconds are (`C82_refused`); a seventh digit 5 is rounded up or down (`C82_ties_refuted`).
* Some accepted values are written as texts that are not accepted: the second after 23:59:60 as "24:00:00.5" (`C79_leap_refuted`) and the
  timestamp right after the range as "294277-01-01 00:00:00" (`C79_timestamp_refuted`).
* Over all histories of calls only two kinds of value leave the documented range: that timestamp, and times of day after 24:00:00, which in
  release builds come close to 48:00:00 when an interval near the smallest 64-bit number is made a time (`C80_exceptions`).

Noticed while reading, not stated as theorems
* More than 10 integral digits are an Overflow error. Years of six and more digits after a month name are misread.
* `TokenField::try_from` tests a range that is never left and transmutes.

## Agreement with the crate's own tests

`rocq/theories/Tests/Replay.v` replays on the model every assertion of the unit tests of `date.rs`, `time.rs`, `timestamp.rs` and `interval.rs` (about 520), and
the tests of modelled internal functions in `parse.rs` and `common.rs`, in both builds. These are tests of the model, not proofs of a property, and
nothing else depends on them. Two assertions differ, both for reasons outside the model:
* `Date::try_from_str(" +")` is expected to be an error; the code reads a field type that was never written, which the model reports as a fault.
* `try_from_ymwd_hms` with `f64::MAX` seconds is expected to cast infinity to `i64::MIN`; that was the result on x86-64 before Rust 1.45, when the cast was
  undefined. The model has the saturating casts of all later compilers.

## Checking

`make` in `rocq/` builds everything from source; `coqchk -o` accepts every module. The mutations in `seeded/LOG.jsonl` were run in a copy outside
`/verif`: edit one model definition, recheck the proofs that mention it, replace each proof that stops by an admitted one and go on.
`proofs_that_stopped` is what was observed. `theorems_failed` is derived from it: the theorems, among those that existed when the edit
was tried, that are such a proof or use one through other lemmas (found by name). So it says that the proof is lost, not that each
statement is false. Proofs that ran into the time limit are listed apart and not counted as failures; the edits p20, p21, p29 and p33
only ran into it and are marked inconclusive. The edits were tried as the model grew, most of them before the last properties were
added, and were not all repeated. A last batch of 42 prepared edits was not run and is not in the log.

## Assumptions per theorem

Generated from the output of the `Print Assumptions` commands in `Props/*.v`.

Closed under the global context (324):
C01_day_number, C01_successive, C02_calendar_of_number, C02_roundtrip, C02_unique_day, C02_unique_number, C03_accepts_iff, C03_min_year, C03_order, C03_refuses, C04_add_days, C04_add_days_calendar, C04_add_then_sub, C04_infinite, C04_sub_days, C04_sub_days_calendar, C04_sub_then_add, C05_add_back, C05_infinite, C05_raw_refuted, C05_sub_date_exact, C06_infinite, C06_limit, C06_midnight, C06_monotone, C06_roundtrip, C06_too_late, C07_decompose, C07_reading_fun, C07_reading_unique, C07_recompose, C08_infinite, C08_split, C09_add_interval, C09_add_interval_err, C09_early_days_refuted, C09_infinite, C09_range, C09_wrap_refuted, C10_negation, C10_no_negation, C10_sub_interval, C10_sub_undoes_add_time, C11_far_apart_refuted, C11_infinite, C11_sub_timestamp, C12_add_back_refuted, C12_distance_unique, C12_minus_infinity, C12_plus_infinity_refuted, C13_bad_unit, C13_below, C13_idempotent, C13_infinity_refuted, C13_monotone, C13_never_refused, C13_truncate, C14_week_panic_refuted, C14_week_partial, C14_week_refuted, C15_iso_week, C15_iso_week_total, C15_isoyear_bc_refuted, C15_weekday, C16_spans, C16_year, C17_infinite_parts, C18_add, C18_ignores_days, C18_range, C18_sub, C18_undo, C19_antisymmetric, C19_sub_time, C20_near_min_refuted, C20_of_interval, C21_infinite, C21_nan_refuted, C21_nan_value, C23_add, C23_add_assoc, C23_add_comm, C23_neg_neg, C23_negate, C23_operator, C23_sub, C23_sub_is_add_neg, C23_sub_self, C23_total, C24_antisym, C24_cmp, C24_eq_inconsistent_refuted, C24_eqb, C24_no_overflow, C24_trans, C25_idempotent, C25_keeps_span, C25_normalises, C25_unique, C26_idempotent, C26_keeps_span, C26_normalises, C26_unique, C27_idempotent, C27_keeps_span, C27_normalises, C27_unique, C28_bad_unit, C28_epoch, C28_huge, C28_long_refuted, C28_truncated_unique, C29_interval, C29_none, C29_out_of_range_refuted, C29_rounded_function, C29_rounded_idempotent, C29_rounded_monotone, C29_time, C29_timestamp, C30_negative, C30_range, C30_range_precision, C30_unknown, C31_date_text, C31_padded, C31_padded_unique, C31_reads_back, C31_shortest, C31_time_text, C31_timestamp_text, C31_unique, C32_roundtrip, C33_infinity, C33_postgres_dmy_refuted, C33_roundtrip, C33_ymd_other_day_refuted, C33_ymd_refuted, C35_february_refuted, C35_infinity, C36_day_min_refuted, C36_long_refuted, C36_too_long, C39_interval_too_long, C38_negative_refuted, C39_date_binary, C39_date_text, C39_duplicate, C39_interval_binary, C39_map_exact, C39_map_total, C39_time_binary, C39_timestamp_binary, C39_unknown_or_missing, C40_date_words, C40_eras, C40_feb_missing_refuted, C40_halves, C40_interval_words, C40_months, C40_prefix, C40_total, C40_unambiguous, C40_units, C40_weekdays, C41_cache_invisible, C41_history, C41_no_influence, C42_date, C42_interval, C42_long_refuted, C42_overflow_refuted, C42_sign_refuted, C42_t_refuted, C42_time, C42_timestamp, C43_calendar, C43_calendar_refuted, C43_date, C43_time, C43_time_tight, C43_timestamp, C43_timestamp_any_typmod, C43_timestamp_typmod_refuted, C44_case, C44_case_errors, C44_case_errors_refuted, C44_case_iso_refuted, C44_dot_refuted, C44_empty_refuted, C44_leading, C44_trailing, C44_white, C45_bounds, C45_fields, C45_long_refuted, C45_too_many, C45_total, C46_numeric, C46_refused, C46_window, C46_year_zero, C47_div_nan_refuted, C47_div_zero, C48_nan_inf, C48_never_panics, C48_overflow_refuted, C49_beyond, C49_date_interval, C49_infinite, C50_date, C50_interval, C50_interval_min_refuted, C50_time, C50_timestamp, C51_beyond, C51_part, C51_truncate, C52_midnight_refuted, C52_refused, C54_big, C56_unique, C58_decades_refuted, C58_order_refuted, C58_sql_minus_refuted, C59_month_fraction_refuted, C59_repeat_refuted, C60_date_infinity, C60_date_refused, C60_interval_refused, C60_time_allballs, C60_time_refused, C60_timestamp_infinity, C60_timestamp_refused, C60_words_refuted, C61_interval, C61_time, C61_timestamp, C61_unsupported, C62_year_bound_refuted, C62_year_length_refuted, C63_offset, C63_offset_after_white, C63_unknown_word, C64_checked_refuted, C64_leading_refuted, C64_value, C66_construct, C66_convert, C66_date, C66_format, C66_interval, C66_parse, C66_serde, C66_time, C66_timestamp, C67_construct, C67_convert, C67_date, C67_format, C67_interval, C67_plus_refuted, C67_serde, C67_time, C67_timestamp, C68_date, C68_time, C68_timestamp, C68_years_refuted, C69_add_up_refuted, C69_dates, C69_longer, C69_months_add_up, C69_no_months, C69_reversed_refuted, C69_same_clock, C69_sum, C69_undo, C69_within_a_day, C70_decade_refuted, C70_nested, C72_bc_refuted, C72_h_refuted, C72_interval_long_refuted, C72_long_refuted, C73_exact_refuted, C74_date, C74_fields, C74_interval, C74_interval_text, C74_time, C74_timestamp, C75_grow_refuted, C75_order_refuted, C76_no_such_time_refuted, C77_minutes_refuted, C77_no_such_time_refuted, C77_short_year, C79_date, C79_interval_fits, C79_leap_refuted, C79_same_date, C79_same_interval, C79_same_timestamp, C79_timestamp_refuted, C80_exceptions, C81_clock, C81_clock_parts, C81_clock_refuted, C81_date_parts, C81_days, C81_difference, C81_join, C81_months, C81_truncate_date, C82_refused, C82_ties_refuted, C83_date, C83_interval, C83_no_day_refuted, C83_time, C83_timestamp, C84_least, C84_no_digit_refuted, C84_refused.

Assuming `ClassicalDedekindReals.sig_forall_dec`, `FunctionalExtensionality.functional_extensionality_dep` (1):
C47_div_range_refuted.

Assuming `ClassicalDedekindReals.sig_forall_dec`, `ClassicalDedekindReals.sig_not_dec`, `Classical_Prop.classic`, `FunctionalExtensionality.functional_extensionality_dep` (132):
C12_add_back, C12_age, C12_antisymmetric, C12_self, C16_exact, C21_accepts, C21_exact, C21_never_panics, C21_rejects, C21_value, C22_accepts_only, C22_exact, C22_midnight, C22_nan, C22_never_panics, C22_value, C28_idempotent, C28_limit, C28_microsec_identity, C28_truncate, C28_truncate_coarse, C34_roundtrip, C34_typmod, C35_iso, C35_roundtrip, C35_typmod, C36_exact, C36_injective, C36_limit, C36_roundtrip, C37_any_style, C37_exact, C37_limit, C37_roundtrip, C38_exact, C38_limit, C38_negative, C38_roundtrip, C39_interval_text, C39_interval_text_exact, C39_time_text, C39_timestamp_text, C47_div_integer, C47_div_one, C47_mul_div, C47_mul_integer, C47_mul_nan_inf, C47_mul_one, C47_mul_refused, C47_mul_saturates_refuted, C47_mul_zero, C48_exact, C48_fields, C52_coarse, C52_on_boundary, C52_truncate_down, C53_refused, C53_second_exact, C53_time, C53_timestamp, C54_epoch, C54_epoch_whole, C54_parts, C54_recombine, C55_time, C55_time_typmod, C55_twelve, C56_date, C56_refused, C57_refused, C57_timestamp, C57_typmod, C58_single, C58_twice, C58_words, C59_alternative, C59_iso, C59_order, C62_julian_date, C62_julian_date_refused, C62_julian_timestamp, C62_julian_timestamp_refused, C62_year_day_date, C62_year_day_refused, C62_year_day_timestamp, C64_accepted, C65_refused, C65_sql_minus, C65_year_month, C70_groups, C70_keeps, C71_div, C71_exact_refuted, C71_mul, C71_mul_div, C72_date, C72_interval, C72_time, C72_timestamp, C73_near, C73_sub_age, C73_sub_near, C75_anniversary, C75_fields, C75_months, C75_span, C76_carried, C76_date, C76_time, C76_time_typmod, C76_timestamp, C77_date, C77_incomplete, C77_order, C77_refused, C77_time, C77_timestamp, C77_twice, C78_agree, C78_date, C78_swap, C78_timestamp, C78_unambiguous, C79_interval, C79_precision, C79_time, C79_timestamp, C80_no_panic, C80_parts, C80_range, C80_stored, C81_truncate_clock, C82_rounded.
