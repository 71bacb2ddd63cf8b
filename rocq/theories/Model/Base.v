(** Base layer of the model: outcomes, build modes, machine integers.

    These definitions model the Rust language itself rather than one file of
    /repo: `Result`, panics, `i32`/`i64`/`u32`/`u8`/`i128` arithmetic. *)
From Coq Require Export Strings.Ascii Strings.String ZArith List Bool.
Export ListNotations.
Open Scope Z_scope.

(** Build mode: [Debug] has overflow checks and debug assertions, [Release] has
    neither (wrapping arithmetic). *)
Inductive mode := Debug | Release.

(** src/error.rs:22-26 [DateTimeErrorKind]. Messages are dropped. *)
Inductive ekind := EEmpty | EInvalid | EOverflow.

(** Reasons for abnormal termination.
    FArith: overflow panic; FIndex: index/slice panic; FAssert: (debug) assertion;
    FUninit: read of uninitialised memory (undefined behaviour);
    FTransmute: enum made from an invalid discriminant (undefined behaviour);
    FUnwrap: unwrap of an error; FFuel: the model's loop fuel ran out. *)
Inductive fault := FArith | FIndex | FAssert | FUninit | FTransmute | FUnwrap | FFuel.

(** Outcome of a Rust function returning [Result<A, DateTimeError>] (or [A]). *)
Inductive res (A : Type) :=
| Ok (a : A)
| Err (e : ekind)
| Fault (f : fault).
Arguments Ok {A} a.
Arguments Err {A} e.
Arguments Fault {A} f.

Definition bind {A B} (r : res A) (f : A -> res B) : res B :=
  match r with Ok a => f a | Err e => Err e | Fault x => Fault x end.

Notation "'let*' x := e 'in' k" := (bind e (fun x => k))
  (at level 200, x pattern, e at level 100, k at level 200).

(** Machine ranges. *)
Definition i32_min := -2147483648.
Definition i32_max := 2147483647.
Definition i64_min := -9223372036854775808.
Definition i64_max := 9223372036854775807.
Definition u32_max := 4294967295.

Definition in_i32 (z : Z) := i32_min <= z <= i32_max.
Definition in_i64 (z : Z) := i64_min <= z <= i64_max.
Definition in_u32 (z : Z) := 0 <= z <= u32_max.

Definition in32b (z : Z) : bool := (i32_min <=? z) && (z <=? i32_max).
Definition in64b (z : Z) : bool := (i64_min <=? z) && (z <=? i64_max).
Definition inu32b (z : Z) : bool := (0 <=? z) && (z <=? u32_max).
Definition inu8b (z : Z) : bool := (0 <=? z) && (z <=? 255).

(** Two's complement wrapping, i.e. `as i32`, `as i64`, `as u32`, `as u8`
    between integer types and the `wrapping_*` methods. *)
Definition wrap32 (z : Z) : Z := (z + 2147483648) mod 4294967296 - 2147483648.
Definition wrap64 (z : Z) : Z :=
  (z + 9223372036854775808) mod 18446744073709551616 - 9223372036854775808.
Definition wrapu32 (z : Z) : Z := z mod 4294967296.
Definition wrapu8 (z : Z) : Z := z mod 256.

(** Result of an arithmetic operator whose exact value is [z]. *)
Definition ar32 (md : mode) (z : Z) : res Z :=
  if in32b z then Ok z else match md with Debug => Fault FArith | Release => Ok (wrap32 z) end.
Definition ar64 (md : mode) (z : Z) : res Z :=
  if in64b z then Ok z else match md with Debug => Fault FArith | Release => Ok (wrap64 z) end.
Definition aru32 (md : mode) (z : Z) : res Z :=
  if inu32b z then Ok z else match md with Debug => Fault FArith | Release => Ok (wrapu32 z) end.
Definition aru8 (md : mode) (z : Z) : res Z :=
  if inu8b z then Ok z else match md with Debug => Fault FArith | Release => Ok (wrapu8 z) end.

Definition add32 md a b := ar32 md (a + b).
Definition sub32 md a b := ar32 md (a - b).
Definition mul32 md a b := ar32 md (a * b).
Definition neg32 md a := ar32 md (- a).
Definition abs32 md a := ar32 md (Z.abs a).
Definition add64 md a b := ar64 md (a + b).
Definition sub64 md a b := ar64 md (a - b).
Definition mul64 md a b := ar64 md (a * b).
Definition neg64 md a := ar64 md (- a).
Definition abs64 md a := ar64 md (Z.abs a).
Definition addu32 md a b := aru32 md (a + b).
Definition subu32 md a b := aru32 md (a - b).
Definition mulu32 md a b := aru32 md (a * b).

(** `checked_*` methods: None on overflow. *)
Definition chk32 (z : Z) : option Z := if in32b z then Some z else None.
Definition chk64 (z : Z) : option Z := if in64b z then Some z else None.

(** `option.ok_or(err)?` *)
Definition ok_or {A} (o : option A) (e : ekind) : res A :=
  match o with Some a => Ok a | None => Err e end.

(** debug_assert!(b) *)
Definition debug_assert (md : mode) (b : bool) : res unit :=
  match md with
  | Debug => if b then Ok tt else Fault FAssert
  | Release => Ok tt
  end.

(** Indexing a constant table with an i32 cast to usize: any negative or too large
    index panics. *)
Definition index {A} (l : list A) (i : Z) : res A :=
  if i <? 0 then Fault FIndex
  else match nth_error l (Z.to_nat i) with Some a => Ok a | None => Fault FIndex end.

(** src/lib.rs:43-69 *)
Inductive date_unit :=
| Delta | Second | Minute | Hour | Day | Week | Month | Quarter | Year | Decade | Century
| MilliSec | MicroSec | JULIAN | Dow | IsoDow | Doy | Tz | TzMinute | TzHour | Millennium
| IsoYear | Epoch.

(** src/lib.rs:89-97 *)
Inductive date_order := YMD | DMY | MDY.

(** src/lib.rs:101-112 *)
Inductive date_style := SPostgres | SISO | SSQL | SGerman | SXSD.

(** src/lib.rs:116-125 *)
Inductive interval_style := IPostgres | IPostgresVerbose | ISQLStandard | IISO8601.

(** src/lib.rs:129-134 *)
Inductive field_type := FTUnit | FTEpoch.

(** src/interval.rs:73-82 *)
Record interval := mkInterval { iv_time : Z; iv_day : Z; iv_month : Z }.

(** src/interval.rs:97 [from_mdt] *)
Definition from_mdt (month day time : Z) : interval := mkInterval time day month.

(** src/common.rs:95-131 [PgTime]; `gmtoff` and `zone` are never read and omitted. *)
Record pgtime := mkTm {
  tm_sec : Z; tm_min : Z; tm_hour : Z; tm_mday : Z; tm_mon : Z; tm_year : Z;
  tm_wday : Z; tm_yday : Z; tm_isdst : Z }.
Definition tm_new : pgtime := mkTm 0 0 0 0 0 0 0 0 (-1).

Definition set_sec v t := mkTm v (tm_min t) (tm_hour t) (tm_mday t) (tm_mon t) (tm_year t) (tm_wday t) (tm_yday t) (tm_isdst t).
Definition set_min v t := mkTm (tm_sec t) v (tm_hour t) (tm_mday t) (tm_mon t) (tm_year t) (tm_wday t) (tm_yday t) (tm_isdst t).
Definition set_hour v t := mkTm (tm_sec t) (tm_min t) v (tm_mday t) (tm_mon t) (tm_year t) (tm_wday t) (tm_yday t) (tm_isdst t).
Definition set_mday v t := mkTm (tm_sec t) (tm_min t) (tm_hour t) v (tm_mon t) (tm_year t) (tm_wday t) (tm_yday t) (tm_isdst t).
Definition set_mon v t := mkTm (tm_sec t) (tm_min t) (tm_hour t) (tm_mday t) v (tm_year t) (tm_wday t) (tm_yday t) (tm_isdst t).
Definition set_year v t := mkTm (tm_sec t) (tm_min t) (tm_hour t) (tm_mday t) (tm_mon t) v (tm_wday t) (tm_yday t) (tm_isdst t).
Definition set_wday v t := mkTm (tm_sec t) (tm_min t) (tm_hour t) (tm_mday t) (tm_mon t) (tm_year t) v (tm_yday t) (tm_isdst t).
Definition set_yday v t := mkTm (tm_sec t) (tm_min t) (tm_hour t) (tm_mday t) (tm_mon t) (tm_year t) (tm_wday t) v (tm_isdst t).
Definition set_isdst v t := mkTm (tm_sec t) (tm_min t) (tm_hour t) (tm_mday t) (tm_mon t) (tm_year t) (tm_wday t) (tm_yday t) v.
(** src/common.rs:134 [set_ymd] *)
Definition set_ymd y m d t := set_mday d (set_mon m (set_year y t)).
