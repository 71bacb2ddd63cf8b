(** The assertions of the crate's own unit tests for its public types, replayed on the model.

    This file proves nothing about all inputs: it is a check of the model against the results
    that the authors of the crate recorded. Every [assert!] and [assert_eq!] of the test
    modules of src/date.rs, src/time.rs, src/timestamp.rs and src/interval.rs, and the tests of
    modelled internal functions in src/parse.rs and src/common.rs, is one entry of a
    list, translated statement by statement (a variable is the value last given to it, [?] is
    [let*]); every entry must be [Ok true] in both builds. Two assertions differ and are
    treated at the end. *)
From Coq Require Import ZArith List String Bool Floats.SpecFloat.
From Verif Require Import Model.Parse.
Import ListNotations.
Open Scope Z_scope.

Definition bytes_eqb (a b : bytes) : bool := if list_eq_dec Z.eq_dec a b then true else false.
Definition is_err {A} (r : res A) : bool := match r with Err _ => true | _ => false end.
Definition is_ok {A} (r : res A) : bool := match r with Ok _ => true | _ => false end.
Definition is_some {A} (r : option A) : bool := match r with Some _ => true | _ => false end.
Definition is_none {A} (r : option A) : bool := match r with Some _ => false | _ => true end.
Definition ord_eqb (a b : comparison) : bool := match a, b with Gt, Gt | Lt, Lt | Eq, Eq => true | _, _ => false end.
Definition cmp_gt (a : comparison) := match a with Gt => true | _ => false end.
Definition cmp_ge (a : comparison) := match a with Lt => false | _ => true end.
Definition cmp_lt (a : comparison) := match a with Lt => true | _ => false end.
Definition cmp_le (a : comparison) := match a with Gt => false | _ => true end.
(** src/interval.rs:63-65, used by the tests only *)
Definition interval_type_mod (p r : Z) : Z := Z.lor (Z.shiftl (Z.land r 32767) 16) (Z.land p 65535).

Definition holds (r : res bool) : bool := match r with Ok b => b | _ => false end.
Definition replay (t : mode -> list (res bool)) : bool :=
  forallb holds (t Debug) && forallb holds (t Release).

(** ** src/date.rs *)
Example date_test_date_from_str : replay (fun md => [
  Ok (is_err (date_try_from_str md (bs "y2.3") MDY));
  Ok (is_err (date_try_from_str md (bs " 2003-04-12 dow 123456-2") MDY));
  Ok (is_err (date_try_from_str md (bs " 2003-04-12 t 123456/2") MDY));
  Ok (is_err (date_try_from_str md (bs " 2003-04-12 t 123456-2") MDY));
  Ok (is_err (date_try_from_str md (bs " 2003-04-12 04:05:06 t 123456-2") MDY));
  Ok (is_err (date_try_from_str md (bs " 2003-04-12 04:05:06 America/New_Yor") MDY));
  Ok (is_err (date_try_from_str md (bs " 2003-04-12 04:05:06 America/New_Yor") MDY));
  Ok (is_err (date_try_from_str md (bs "1999-7--7-08") MDY));
  Ok (is_err (date_try_from_str md (bs "1999-at-08") MDY));
  Ok (is_err (date_try_from_str md (bs "1999-jan-jan") MDY));
  Ok (is_err (date_try_from_str md (bs "1999-Jqn-08") MDY));
  Ok (is_err (date_try_from_str md (bs "20000000000000000000") MDY));
  Ok (is_err (date_try_from_str md (bs "j1999-3-4:3:5:5") MDY));
  Ok (is_err (date_try_from_str md (bs "") MDY));
  Ok (is_err (date_try_from_str md (bs "-/") MDY));
  Ok (is_err (date_try_from_str md (bs "1988/") MDY));
  let* x1 := date_try_from_str md (bs " 990619 ") MDY in let* x2 := date_format md x1 SISO YMD in Ok (bytes_eqb x2 (bs "1999-06-19"));
  let* x3 := date_try_from_str md (bs "1999-03-31 123456") MDY in let* x4 := date_format md x3 SISO YMD in Ok (bytes_eqb x4 (bs "1999-03-31"));
  let* x5 := date_try_from_str md (bs "1999-03-31 1234") MDY in let* x6 := date_format md x5 SISO YMD in Ok (bytes_eqb x6 (bs "1999-03-31"));
  let* x7 := date_try_from_str md (bs "-infinity") MDY in let* x8 := date_format md x7 SISO YMD in Ok (bytes_eqb x8 (bs "-infinity"));
  let* x9 := date_try_from_str md (bs "infinity") MDY in let* x10 := date_format md x9 SISO YMD in Ok (bytes_eqb x10 (bs "infinity"));
  let* x11 := date_try_from_str md (bs "1999-01-08") MDY in let* x12 := date_format md x11 SISO YMD in Ok (bytes_eqb x12 (bs "1999-01-08"));
  let* x11 := date_try_from_str md (bs "1999-01-08") MDY in let* x13 := date_format md x11 SPostgres YMD in Ok (bytes_eqb x13 (bs "01.08.1999"));
  let* x11 := date_try_from_str md (bs "1999-01-08") MDY in let* x14 := date_format md x11 SSQL YMD in Ok (bytes_eqb x14 (bs "01/08/1999"));
  let* x11 := date_try_from_str md (bs "1999-01-08") MDY in let* x15 := date_format md x11 SGerman YMD in Ok (bytes_eqb x15 (bs "08.01.1999"));
  let* x11 := date_try_from_str md (bs "1999-01-08") MDY in let* x16 := date_format md x11 SXSD YMD in Ok (bytes_eqb x16 (bs "1999-01-08"));
  let* x17 := date_try_from_str md (bs "January 8, 1999") MDY in let* x18 := date_format md x17 SISO YMD in Ok (bytes_eqb x18 (bs "1999-01-08"));
  let* x19 := date_try_from_str md (bs "1/8/1999") MDY in let* x20 := date_format md x19 SISO YMD in Ok (bytes_eqb x20 (bs "1999-01-08"));
  let* x21 := date_try_from_str md (bs "1/18/1999") MDY in let* x22 := date_format md x21 SISO YMD in Ok (bytes_eqb x22 (bs "1999-01-18"));
  let* x23 := date_try_from_str md (bs "01/02/03") MDY in let* x24 := date_format md x23 SISO YMD in Ok (bytes_eqb x24 (bs "2003-01-02"));
  let* x25 := date_try_from_str md (bs "1999-Jan-08") MDY in let* x26 := date_format md x25 SISO YMD in Ok (bytes_eqb x26 (bs "1999-01-08"));
  let* x27 := date_try_from_str md (bs "Jan-08-1999") MDY in let* x28 := date_format md x27 SISO YMD in Ok (bytes_eqb x28 (bs "1999-01-08"));
  let* x29 := date_try_from_str md (bs "08-Jan-1999") MDY in let* x30 := date_format md x29 SISO YMD in Ok (bytes_eqb x30 (bs "1999-01-08"));
  let* x31 := date_try_from_str md (bs "99-Jan-08") YMD in let* x32 := date_format md x31 SISO YMD in Ok (bytes_eqb x32 (bs "1999-01-08"));
  Ok (is_err (date_try_from_str md (bs "99-Jan-08") DMY));
  Ok (is_err (date_try_from_str md (bs "99-Jan-08") MDY));
  let* x33 := date_try_from_str md (bs "08-Jan-99") MDY in let* x34 := date_format md x33 SISO YMD in Ok (bytes_eqb x34 (bs "1999-01-08"));
  let* x35 := date_try_from_str md (bs "08-Jan-99") DMY in let* x36 := date_format md x35 SISO YMD in Ok (bytes_eqb x36 (bs "1999-01-08"));
  Ok (is_err (date_try_from_str md (bs "08-Jan-99") YMD));
  let* x37 := date_try_from_str md (bs "Jan-08-99") MDY in let* x38 := date_format md x37 SISO YMD in Ok (bytes_eqb x38 (bs "1999-01-08"));
  let* x39 := date_try_from_str md (bs "Jan-08-99") DMY in let* x40 := date_format md x39 SISO YMD in Ok (bytes_eqb x40 (bs "1999-01-08"));
  Ok (is_err (date_try_from_str md (bs "Jan-08-99") YMD));
  let* x41 := date_try_from_str md (bs "19990108") MDY in let* x42 := date_format md x41 SISO YMD in Ok (bytes_eqb x42 (bs "1999-01-08"));
  let* x43 := date_try_from_str md (bs "990108") MDY in let* x44 := date_format md x43 SISO YMD in Ok (bytes_eqb x44 (bs "1999-01-08"));
  let* x45 := date_try_from_str md (bs "1999.008") MDY in let* x46 := date_format md x45 SISO YMD in Ok (bytes_eqb x46 (bs "1999-01-08"));
  let* x47 := date_try_from_str md (bs "J2451187") MDY in let* x48 := date_format md x47 SISO YMD in Ok (bytes_eqb x48 (bs "1999-01-08"));
  let* x49 := date_try_from_str md (bs "January 8, 99 BC") MDY in let* x50 := date_format md x49 SISO YMD in Ok (bytes_eqb x50 (bs "0099-01-08 BC"));
  Ok (is_err (date_try_from_str md (bs "-*u1981") MDY));
  Ok (is_err (date_try_from_str md (bs "test 8, 1999") MDY));
  Ok (is_err (date_try_from_str md [5] MDY));
  Ok (is_err (date_try_from_str md (concat (repeat [55; 32] 26)) MDY))]) = true.
Proof. vm_compute. reflexivity. Qed.
Example date_test_date_range : replay (fun md => [
  let* x1 := date_try_from_str md (bs "January 1, 4713 BC") MDY in let* x2 := date_format md x1 SISO YMD in Ok (bytes_eqb x2 (bs "4713-01-01 BC"));
  let* x3 := date_try_from_str md (bs "5874897-12-31") MDY in let* x4 := date_format md x3 SISO YMD in Ok (bytes_eqb x4 (bs "5874897-12-31"));
  Ok (is_err (date_try_from_str md (bs "January 1, 4714 BC") MDY));
  Ok (is_err (date_try_from_str md (bs "5874898-2-1") MDY))]) = true.
Proof. vm_compute. reflexivity. Qed.
Example date_test_try_from_ymd : replay (fun md => [
  let* x1 := date_try_from_ymd md 2020 12 23 in let* x2 := date_format md x1 SISO YMD in Ok (bytes_eqb x2 (bs "2020-12-23"));
  let* x3 := date_try_from_ymd md (-2020) 12 23 in let* x4 := date_format md x3 SISO YMD in Ok (bytes_eqb x4 (bs "2020-12-23 BC"));
  Ok (is_err (date_try_from_ymd md 2147483647 2147483647 2147483647));
  Ok (is_err (date_try_from_ymd md 5874899 0 0))]) = true.
Proof. vm_compute. reflexivity. Qed.
Example date_test_date_date_part : replay (fun md => [
  let* x1 := date_try_from_str md (bs "2116-9-10") YMD in let* x2 := date_date_part md x1 FTUnit Millennium in Ok (feq x2 (S754_finite false 6755399441055744 (-51)));
  let* x1 := date_try_from_str md (bs "2116-9-10") YMD in let* x3 := date_date_part md x1 FTUnit Century in Ok (feq x3 (S754_finite false 6192449487634432 (-48)));
  let* x1 := date_try_from_str md (bs "2116-9-10") YMD in let* x4 := date_date_part md x1 FTUnit Decade in Ok (feq x4 (S754_finite false 7423902510743552 (-45)));
  let* x1 := date_try_from_str md (bs "2116-9-10") YMD in let* x5 := date_date_part md x1 FTUnit Year in Ok (feq x5 (S754_finite false 4653133208748032 (-41)))]) = true.
Proof. vm_compute. reflexivity. Qed.
Example date_test_date_trunc : replay (fun md => [
  let* x1 := date_try_from_str md (bs "2116-9-10") YMD in let* x2 := date_truncate md x1 FTUnit Millennium in let* x3 := date_format md x2 SISO YMD in Ok (bytes_eqb x3 (bs "2001-01-01"));
  let* x1 := date_try_from_str md (bs "2116-9-10") YMD in let* x4 := date_truncate md x1 FTUnit Century in let* x5 := date_format md x4 SISO YMD in Ok (bytes_eqb x5 (bs "2101-01-01"));
  let* x1 := date_try_from_str md (bs "2116-9-10") YMD in let* x6 := date_truncate md x1 FTUnit Decade in let* x7 := date_format md x6 SISO YMD in Ok (bytes_eqb x7 (bs "2110-01-01"));
  let* x1 := date_try_from_str md (bs "2116-9-10") YMD in let* x8 := date_truncate md x1 FTUnit Year in let* x9 := date_format md x8 SISO YMD in Ok (bytes_eqb x9 (bs "2116-01-01"));
  let* x1 := date_try_from_str md (bs "2116-9-10") YMD in let* x10 := date_truncate md x1 FTUnit Quarter in let* x11 := date_format md x10 SISO YMD in Ok (bytes_eqb x11 (bs "2116-07-01"));
  let* x1 := date_try_from_str md (bs "2116-9-10") YMD in let* x12 := date_truncate md x1 FTUnit Month in let* x13 := date_format md x12 SISO YMD in Ok (bytes_eqb x13 (bs "2116-09-01"));
  let* x1 := date_try_from_str md (bs "2116-9-10") YMD in let* x14 := date_truncate md x1 FTUnit Day in let* x15 := date_format md x14 SISO YMD in Ok (bytes_eqb x15 (bs "2116-09-10"))]) = true.
Proof. vm_compute. reflexivity. Qed.
Example date_test_date_finite : replay (fun md => [
  let* x1 := date_try_from_str md (bs "2116-9-10") YMD in Ok ((date_is_finite x1));
  Ok ((negb (date_is_finite (-2147483648))))]) = true.
Proof. vm_compute. reflexivity. Qed.
Example date_test_date_to_str : replay (fun md => [
  let* x1 := date_try_from_ymd md 2000 10 1 in let* x2 := date_format md x1 SISO YMD in Ok (bytes_eqb (bs "2000-10-01") x2)]) = true.
Proof. vm_compute. reflexivity. Qed.

(** ** src/time.rs *)
Example time_test_time_from_str : replay (fun md => [
  Ok (is_err (time_try_from_str md (bs "PST") 3 YMD));
  Ok (is_err (time_try_from_str md (bs "azot") 3 YMD));
  Ok (is_err (time_try_from_str md (bs "10.2 2010-10") 3 YMD));
  Ok (is_err (time_try_from_str md (bs "dow345") (-1) MDY));
  Ok (is_err (time_try_from_str md (bs "j-345") (-1) MDY));
  Ok (is_err (time_try_from_str md (bs "azot45") (-1) MDY));
  Ok (is_err (time_try_from_str md (bs "y1989m3d10.45") (-1) MDY));
  let* x1 := time_try_from_str md (bs "allballs") 3 YMD in let* x2 := time_format md x1 in Ok (bytes_eqb x2 (bs "00:00:00"));
  let* x3 := time_try_from_str md (bs "2010-10-10 04:05 PM") 3 YMD in let* x4 := time_format md x3 in Ok (bytes_eqb x4 (bs "16:05:00"));
  let* x5 := time_try_from_str md (bs "040506") 3 YMD in let* x6 := time_format md x5 in Ok (bytes_eqb x6 (bs "04:05:06"));
  let* x7 := time_try_from_str md (bs "040506.456") 3 YMD in let* x8 := time_format md x7 in Ok (bytes_eqb x8 (bs "04:05:06.456"));
  let* x9 := time_try_from_str md (bs "y1989m3d10h12mm30s20.4567") (-1) MDY in let* x10 := time_format md x9 in Ok (bytes_eqb x10 (bs "12:30:20.4567"));
  let* x11 := time_try_from_str md (bs "y1989m3d10h12m30s20.4567") (-1) MDY in let* x12 := time_format md x11 in Ok (bytes_eqb x12 (bs "12:30:20.4567"));
  let* x13 := time_try_from_str md (bs "J2451187.345") (-1) MDY in let* x14 := time_format md x13 in Ok (bytes_eqb x14 (bs "08:16:47.999999"));
  Ok (is_err (time_try_from_str md (bs "+567h") 3 YMD));
  Ok (is_err (time_try_from_str md (bs "+567h") 3 YMD));
  Ok (is_err (time_try_from_str md (bs "4 hours 5 minutes") 3 YMD));
  Ok (is_err (time_try_from_str md (bs ".2344") 3 YMD));
  let* x15 := time_try_from_str md (bs "allballs") 3 YMD in let* x16 := time_format md x15 in Ok (bytes_eqb x16 (bs "00:00:00"));
  Ok (is_err (time_try_from_str md (bs "04:05:06.789t") 3 YMD));
  let* x17 := time_try_from_str md (bs "t04:05:06.789") 3 YMD in let* x18 := time_format md x17 in Ok (bytes_eqb x18 (bs "04:05:06.789"));
  let* x19 := time_try_from_str md (bs "at 04:05:06.789") 3 YMD in let* x20 := time_format md x19 in Ok (bytes_eqb x20 (bs "04:05:06.789"));
  let* x21 := time_try_from_str md (bs "04:05:06") 3 YMD in let* x22 := time_format md x21 in Ok (bytes_eqb x22 (bs "04:05:06"));
  let* x23 := time_try_from_str md (bs "04:05") 3 YMD in let* x24 := time_format md x23 in Ok (bytes_eqb x24 (bs "04:05:00"));
  let* x25 := time_try_from_str md (bs "04:05.234") 3 YMD in let* x26 := time_format md x25 in Ok (bytes_eqb x26 (bs "00:04:05.234"));
  let* x27 := time_try_from_str md (bs "040506") 3 YMD in let* x28 := time_format md x27 in Ok (bytes_eqb x28 (bs "04:05:06"));
  let* x29 := time_try_from_str md (bs "04:05 AM") 3 YMD in let* x30 := time_format md x29 in Ok (bytes_eqb x30 (bs "04:05:00"));
  let* x31 := time_try_from_str md (bs "12:20:05 AM") 3 YMD in let* x32 := time_format md x31 in Ok (bytes_eqb x32 (bs "00:20:05"));
  let* x33 := time_try_from_str md (bs "04:05 PM") 3 YMD in let* x34 := time_format md x33 in Ok (bytes_eqb x34 (bs "16:05:00"));
  Ok (is_err (time_try_from_str md (bs "04:05:06-08:00") 3 YMD));
  let* x35 := time_try_from_str md (bs "2010-10-10 04:05 PM") 3 YMD in let* x36 := time_format md x35 in Ok (bytes_eqb x36 (bs "16:05:00"));
  Ok (is_err (time_try_from_str md (bs "14:04:05 AM") 3 YMD));
  Ok (is_err (time_try_from_str md (bs "now") 3 YMD));
  Ok (is_err (time_try_from_str md (bs "current") 3 YMD));
  Ok (is_err (time_try_from_str md (bs "2003-04-12 04:05:06 America/New_York") 3 YMD));
  Ok (is_err (time_try_from_str md (bs "2003-04-12 04:05:06 shanghai") 3 YMD))]) = true.
Proof. vm_compute. reflexivity. Qed.
Example time_test_time_range : replay (fun md => [
  let* x1 := time_try_from_str md (bs "00:00:00") 3 YMD in let* x2 := time_format md x1 in Ok (bytes_eqb x2 (bs "00:00:00"));
  let* x3 := time_try_from_str md (bs "24:00:00") 3 YMD in let* x4 := time_format md x3 in Ok (bytes_eqb x4 (bs "24:00:00"));
  Ok (is_err (time_try_from_str md (bs "24:00:01") 3 YMD))]) = true.
Proof. vm_compute. reflexivity. Qed.
Example time_test_from_hms : replay (fun md => [
  let* x1 := time_try_from_hms md 23 24 (S754_finite false 7975593465096438 (-47)) in let* x2 := time_format md x1 in Ok (bytes_eqb x2 (bs "23:24:56.67"));
  let* x3 := time_try_from_hms md 23 24 (S754_finite false 7976850096056214 (-47)) in let* x4 := time_format md x3 in Ok (bytes_eqb x4 (bs "23:24:56.678929"));
  Ok (is_err (time_try_from_hms md (-2) 24 (S754_finite false 7975593465096438 (-47))));
  Ok (is_err (time_try_from_hms md (-2) 24 (S754_finite false 7975593465096438 (-47))));
  Ok (is_err (time_try_from_hms md 23 (-24) (S754_finite false 7975593465096438 (-47))));
  Ok (is_err (time_try_from_hms md 23 24 (S754_finite true 7975593465096438 (-47))));
  Ok (is_err (time_try_from_hms md 25 24 (S754_finite false 7975593465096438 (-47))));
  let* x5 := time_try_from_hms md 24 0 (S754_zero false) in let* x6 := time_format md x5 in Ok (bytes_eqb x6 (bs "24:00:00"));
  Ok (is_err (time_try_from_hms md 24 1 (S754_zero false)));
  Ok (is_err (time_try_from_hms md 24 0 (S754_finite false 4503599627370496 (-52))));
  Ok (is_err (time_try_from_hms md 23 60 (S754_finite false 4503599627370496 (-52))));
  let* x7 := time_try_from_hms md 23 10 (S754_finite false 8444249301319680 (-47)) in let* x8 := time_format md x7 in Ok (bytes_eqb x8 (bs "23:11:00"));
  Ok (is_err (time_try_from_hms md 23 60 (S754_finite false 8458323050155213 (-47))))]) = true.
Proof. vm_compute. reflexivity. Qed.
Example time_test_time_part : replay (fun md => [
  let* x1 := time_try_from_str md (bs "20:45:34.673452") (-1) YMD in let* x2 := time_date_part md x1 FTUnit Hour in Ok (feq x2 (S754_finite false 5629499534213120 (-48)));
  let* x1 := time_try_from_str md (bs "20:45:34.673452") (-1) YMD in let* x3 := time_date_part md x1 FTUnit Minute in Ok (feq x3 (S754_finite false 6333186975989760 (-47)));
  let* x1 := time_try_from_str md (bs "20:45:34.673452") (-1) YMD in let* x4 := time_date_part md x1 FTUnit Second in Ok (feq x4 (S754_finite false 4879854547089024 (-47)));
  let* x1 := time_try_from_str md (bs "20:45:34.673452") (-1) YMD in let* x5 := time_date_part md x1 FTUnit MilliSec in Ok (feq x5 (S754_finite false 4765482956141625 (-37)));
  let* x1 := time_try_from_str md (bs "20:45:34.673452") (-1) YMD in let* x6 := time_date_part md x1 FTUnit MicroSec in Ok (feq x6 (S754_finite false 4653791949357056 (-27)));
  let* x1 := time_try_from_str md (bs "20:45:34.673452") (-1) YMD in let* x7 := time_date_part md x1 FTEpoch Epoch in Ok (feq x7 (S754_finite false 5135727653657271 (-36)));
  let* x1 := time_try_from_str md (bs "20:45:34.673452") (-1) YMD in Ok (is_err (time_date_part md x1 FTUnit Year));
  let* x1 := time_try_from_str md (bs "20:45:34.673452") (-1) YMD in Ok (is_err (time_date_part md x1 FTEpoch Year))]) = true.
Proof. vm_compute. reflexivity. Qed.
Example time_test_time_truncate : replay (fun md => [
  let* x1 := time_try_from_str md (bs "20:38:40.456789") 6 YMD in let* x2 := time_truncate md x1 FTUnit Hour in let* x3 := time_format md x2 in Ok (bytes_eqb x3 (bs "20:00:00"));
  let* x1 := time_try_from_str md (bs "20:38:40.456789") 6 YMD in let* x4 := time_truncate md x1 FTUnit Minute in let* x5 := time_format md x4 in Ok (bytes_eqb x5 (bs "20:38:00"));
  let* x1 := time_try_from_str md (bs "20:38:40.456789") 6 YMD in let* x6 := time_truncate md x1 FTUnit Second in let* x7 := time_format md x6 in Ok (bytes_eqb x7 (bs "20:38:40"));
  let* x1 := time_try_from_str md (bs "20:38:40.456789") 6 YMD in let* x8 := time_truncate md x1 FTUnit MilliSec in let* x9 := time_format md x8 in Ok (bytes_eqb x9 (bs "20:38:40.456"));
  let* x1 := time_try_from_str md (bs "20:38:40.456789") 6 YMD in let* x10 := time_truncate md x1 FTUnit MicroSec in let* x11 := time_format md x10 in Ok (bytes_eqb x11 (bs "20:38:40.456789"))]) = true.
Proof. vm_compute. reflexivity. Qed.
Example time_test_time_finite : replay (fun md => [
  Ok (negb (negb (true)));
  Ok ((true))]) = true.
Proof. vm_compute. reflexivity. Qed.
Example time_test_adjust_by_type_mod : replay (fun md => [
  let* x1 := time_adjust_by_typmod md (-12345) 5 in let* x2 := time_format md x1 in Ok (bytes_eqb x2 (bs "00:00:00.01235"))]) = true.
Proof. vm_compute. reflexivity. Qed.

(** ** src/timestamp.rs *)
Example timestamp_test_timestamp_from_str : replay (fun md => [
  Ok (is_err (timestamp_try_from_str md (bs "y2000m2d12t1240 am") (-2) MDY));
  Ok (is_err (timestamp_try_from_str md (bs "y2000m2d12t1240 am") 7 MDY));
  Ok (is_err (timestamp_try_from_str md (bs "y1") 3 YMD));
  Ok (is_err (timestamp_try_from_str md (bs "y2000m2d12t2840 am") (-1) MDY));
  let* x1 := timestamp_try_from_str md (bs "allballs") (-1) MDY in let* x2 := timestamp_format md x1 SISO YMD in Ok (bytes_eqb x2 (bs "0002-11-30 00:00:00 BC"));
  Ok (is_err (timestamp_try_from_str md (bs "current") (-1) MDY));
  Ok (is_err (timestamp_try_from_str md (bs "y2000m12d23isodow23") (-1) MDY));
  Ok (is_err (timestamp_try_from_str md (bs "1999-01-08 04:05:06.456db") 3 YMD));
  Ok (is_err (timestamp_try_from_str md (bs "J-2451187") (-1) MDY));
  let* x3 := timestamp_try_from_str md (bs "y2000m2d12t2040") (-1) MDY in let* x4 := timestamp_format md x3 SISO YMD in Ok (bytes_eqb x4 (bs "2000-02-12 20:40:00"));
  let* x5 := timestamp_try_from_str md (bs "y2000m2d12t1240 am") (-1) MDY in let* x6 := timestamp_format md x5 SISO YMD in Ok (bytes_eqb x6 (bs "2000-02-12 00:40:00"));
  let* x7 := timestamp_try_from_str md (bs "y2000m2d12t0740 pm") (-1) MDY in let* x8 := timestamp_format md x7 SISO YMD in Ok (bytes_eqb x8 (bs "2000-02-12 19:40:00"));
  Ok (is_err (timestamp_try_from_str md (bs "y2000m12t991223") (-1) MDY));
  let* x9 := timestamp_try_from_str md (bs "on y1989m3d10h12m30s20.345") (-1) MDY in let* x10 := timestamp_format md x9 SISO YMD in Ok (bytes_eqb x10 (bs "1989-03-10 12:30:20.345"));
  let* x11 := timestamp_try_from_str md (bs "y1989m3d10h12m30s20.345") (-1) MDY in let* x12 := timestamp_format md x11 SISO YMD in Ok (bytes_eqb x12 (bs "1989-03-10 12:30:20.345"));
  let* x13 := timestamp_try_from_str md (bs "y1989m3d10h12mm30s20.345") (-1) MDY in let* x14 := timestamp_format md x13 SISO YMD in Ok (bytes_eqb x14 (bs "1989-03-10 12:30:20.345"));
  let* x15 := timestamp_try_from_str md (bs "J2451187.345") (-1) MDY in let* x16 := timestamp_format md x15 SISO YMD in Ok (bytes_eqb x16 (bs "1999-01-08 08:16:47.999999"));
  let* x17 := timestamp_try_from_str md (bs "1999-01-08 040506.456789") 3 YMD in let* x18 := timestamp_format md x17 SISO YMD in Ok (bytes_eqb x18 (bs "1999-01-08 04:05:06.457"));
  let* x19 := timestamp_try_from_str md (bs "1999-01-08 040506.4567878") 6 YMD in let* x20 := timestamp_format md x19 SISO YMD in Ok (bytes_eqb x20 (bs "1999-01-08 04:05:06.456788"));
  let* x21 := timestamp_try_from_str md (bs "1999-01-08 0405") 3 YMD in let* x22 := timestamp_format md x21 SISO YMD in Ok (bytes_eqb x22 (bs "1999-01-08 04:05:00"));
  let* x23 := timestamp_try_from_str md (bs "1999-01-08 04:05:06.456") 3 YMD in let* x24 := timestamp_format md x23 SISO YMD in Ok (bytes_eqb x24 (bs "1999-01-08 04:05:06.456"));
  let* x23 := timestamp_try_from_str md (bs "1999-01-08 04:05:06.456") 3 YMD in let* x25 := timestamp_format md x23 SPostgres YMD in Ok (bytes_eqb x25 (bs "Fri Jan 08 04:05:06.456 1999"));
  let* x23 := timestamp_try_from_str md (bs "1999-01-08 04:05:06.456") 3 YMD in let* x26 := timestamp_format md x23 SPostgres DMY in Ok (bytes_eqb x26 (bs "Fri 08 Jan 04:05:06.456 1999"));
  let* x23 := timestamp_try_from_str md (bs "1999-01-08 04:05:06.456") 3 YMD in let* x27 := timestamp_format md x23 SSQL YMD in Ok (bytes_eqb x27 (bs "01/08/1999 04:05:06.456"));
  let* x23 := timestamp_try_from_str md (bs "1999-01-08 04:05:06.456") 3 YMD in let* x28 := timestamp_format md x23 SSQL DMY in Ok (bytes_eqb x28 (bs "08/01/1999 04:05:06.456"));
  let* x23 := timestamp_try_from_str md (bs "1999-01-08 04:05:06.456") 3 YMD in let* x29 := timestamp_format md x23 SGerman DMY in Ok (bytes_eqb x29 (bs "08.01.1999 04:05:06.456"));
  let* x23 := timestamp_try_from_str md (bs "1999-01-08 04:05:06.456") 3 YMD in let* x30 := timestamp_format md x23 SGerman YMD in Ok (bytes_eqb x30 (bs "08.01.1999 04:05:06.456"));
  let* x23 := timestamp_try_from_str md (bs "1999-01-08 04:05:06.456") 3 YMD in let* x31 := timestamp_format md x23 SXSD YMD in Ok (bytes_eqb x31 (bs "1999-01-08T04:05:06.456"));
  let* x32 := timestamp_try_from_str md (bs "08.01.1999 04:05:06.456") 6 MDY in let* x33 := timestamp_format md x32 SXSD YMD in Ok (bytes_eqb x33 (bs "1999-08-01T04:05:06.456"));
  let* x34 := timestamp_try_from_str md (bs "1999-01-08T04:05:06.456") 6 YMD in let* x35 := timestamp_format md x34 SXSD YMD in Ok (bytes_eqb x35 (bs "1999-01-08T04:05:06.456"));
  let* x36 := timestamp_try_from_str md (bs "Fri 08 Jan 04:05:06.4561289 1999") 6 DMY in let* x37 := timestamp_format md x36 SXSD YMD in Ok (bytes_eqb x37 (bs "1999-01-08T04:05:06.456129"));
  let* x38 := timestamp_try_from_str md (bs "Fri 08 Jan 04:05:06.4561289 1999") 0 DMY in let* x39 := timestamp_format md x38 SXSD YMD in Ok (bytes_eqb x39 (bs "1999-01-08T04:05:06"));
  let* x40 := timestamp_try_from_str md (bs "Fri 08 Jan 04:05:06.4561289 1999") 2 DMY in let* x41 := timestamp_format md x40 SXSD YMD in Ok (bytes_eqb x41 (bs "1999-01-08T04:05:06.46"));
  let* x42 := timestamp_try_from_str md (bs "infinity") 3 YMD in let* x43 := timestamp_format md x42 SISO YMD in Ok (bytes_eqb x43 (bs "infinity"));
  let* x44 := timestamp_try_from_str md (bs "-infinity") 3 YMD in let* x45 := timestamp_format md x44 SISO YMD in Ok (bytes_eqb x45 (bs "-infinity"))]) = true.
Proof. vm_compute. reflexivity. Qed.
Example timestamp_test_timestamp_range : replay (fun md => [
  let* x1 := timestamp_try_from_str md (bs "4713-01-01 00:00:00 bc") 3 YMD in let* x2 := timestamp_format md x1 SISO YMD in Ok (bytes_eqb x2 (bs "4713-01-01 00:00:00 BC"));
  let* x3 := timestamp_try_from_str md (bs "294276-12-31 23:59:59") 3 YMD in let* x4 := timestamp_format md x3 SISO YMD in Ok (bytes_eqb x4 (bs "294276-12-31 23:59:59"));
  let* x5 := timestamp_try_from_str md (bs "4714-12-31 24:00:00 bc") 3 YMD in let* x6 := timestamp_format md x5 SISO YMD in Ok (bytes_eqb x6 (bs "4713-01-01 00:00:00 BC"));
  Ok (is_err (timestamp_try_from_str md (bs "4715-01-01 01:00:00 bc") 3 YMD));
  Ok (is_err (timestamp_try_from_str md (bs "294276-12-31 24:00:00") 3 YMD))]) = true.
Proof. vm_compute. reflexivity. Qed.
Example timestamp_test_from_ymd_hms : replay (fun md => [
  let* x1 := timestamp_try_from_ymd_hms md 2015 2 20 12 23 (S754_finite false 4864999395570645 (-47)) in let* x2 := timestamp_format md x1 SISO YMD in Ok (bytes_eqb x2 (bs "2015-02-20 12:23:34.5679"));
  let* x3 := timestamp_try_from_ymd_hms md 2015 2 20 12 23 (S754_finite false 8444249301319680 (-47)) in let* x4 := timestamp_format md x3 SISO YMD in Ok (bytes_eqb x4 (bs "2015-02-20 12:24:00"));
  let* x5 := timestamp_try_from_ymd_hms md 2015 1 20 12 23 (S754_finite false 4864999395570645 (-47)) in let* x6 := timestamp_format md x5 SISO YMD in Ok (bytes_eqb x6 (bs "2015-01-20 12:23:34.5679"));
  let* x7 := timestamp_try_from_ymd_hms md 2015 12 20 12 23 (S754_finite false 4864999395570645 (-47)) in let* x8 := timestamp_format md x7 SISO YMD in Ok (bytes_eqb x8 (bs "2015-12-20 12:23:34.5679"));
  let* x9 := timestamp_try_from_ymd_hms md 2015 12 1 12 23 (S754_finite false 4864999395570645 (-47)) in let* x10 := timestamp_format md x9 SISO YMD in Ok (bytes_eqb x10 (bs "2015-12-01 12:23:34.5679"));
  let* x11 := timestamp_try_from_ymd_hms md 2015 12 31 12 23 (S754_finite false 4864999395570645 (-47)) in let* x12 := timestamp_format md x11 SISO YMD in Ok (bytes_eqb x12 (bs "2015-12-31 12:23:34.5679"));
  let* x13 := timestamp_try_from_ymd_hms md 2015 12 31 0 0 (S754_zero false) in let* x14 := timestamp_format md x13 SISO YMD in Ok (bytes_eqb x14 (bs "2015-12-31 00:00:00"));
  let* x15 := timestamp_try_from_ymd_hms md 2015 12 31 0 59 (S754_zero false) in let* x16 := timestamp_format md x15 SISO YMD in Ok (bytes_eqb x16 (bs "2015-12-31 00:59:00"));
  let* x17 := timestamp_try_from_ymd_hms md 2015 12 31 0 59 (S754_finite false 8444249160582192 (-47)) in let* x18 := timestamp_format md x17 SISO YMD in Ok (bytes_eqb x18 (bs "2015-12-31 00:59:59.999999"));
  let* x19 := timestamp_try_from_ymd_hms md 2015 2 20 24 0 (S754_zero false) in let* x20 := timestamp_format md x19 SISO YMD in Ok (bytes_eqb x20 (bs "2015-02-21 00:00:00"));
  Ok (is_err (timestamp_try_from_ymd_hms md (-2015) 2 20 12 23 (S754_finite false 8444249301319680 (-48))));
  Ok (is_err (timestamp_try_from_ymd_hms md 294277 2 20 12 23 (S754_finite false 8444249301319680 (-48))));
  Ok (is_err (timestamp_try_from_ymd_hms md 2015 0 20 12 23 (S754_finite false 8444249301319680 (-48))));
  Ok (is_err (timestamp_try_from_ymd_hms md 2015 13 20 12 23 (S754_finite false 8444249301319680 (-48))));
  Ok (is_err (timestamp_try_from_ymd_hms md 2015 1 0 12 23 (S754_finite false 8444249301319680 (-48))));
  Ok (is_err (timestamp_try_from_ymd_hms md 2015 1 32 12 23 (S754_finite false 8444249301319680 (-48))));
  Ok (is_err (timestamp_try_from_ymd_hms md 2015 1 31 (-1) 23 (S754_finite false 8444249301319680 (-48))));
  Ok (is_err (timestamp_try_from_ymd_hms md 2015 1 31 24 23 (S754_finite false 8444249301319680 (-48))));
  Ok (is_err (timestamp_try_from_ymd_hms md 2015 1 31 23 (-1) (S754_finite false 8444249301319680 (-48))));
  Ok (is_err (timestamp_try_from_ymd_hms md 2015 1 31 23 60 (S754_finite false 8444249301319680 (-48))));
  Ok (is_err (timestamp_try_from_ymd_hms md 2015 1 31 23 59 (S754_finite true 7205759403792794 (-56))));
  Ok (is_err (timestamp_try_from_ymd_hms md 2015 1 31 23 59 (S754_finite false 8458323050155213 (-47))))]) = true.
Proof. vm_compute. reflexivity. Qed.
Example timestamp_test_age : replay (fun md => [
  let* x1 := timestamp_try_from_str md (bs "2020-3-31 16:06:14.5678") 3 YMD in let* x2 := timestamp_try_from_str md (bs "2011-7-10 13:03:5.56798") 3 YMD in let* x3 := timestamp_age md x1 x2 in let* x4 := interval_format md x3 IISO8601 in Ok (bytes_eqb x4 (bs "P8Y8M21DT3H3M9S"));
  let* x1 := timestamp_try_from_str md (bs "2020-3-31 16:06:14.5678") 3 YMD in let* x2 := timestamp_try_from_str md (bs "2011-7-10 13:03:5.56798") 3 YMD in let* x5 := timestamp_age md x2 x1 in let* x6 := interval_format md x5 IISO8601 in Ok (bytes_eqb x6 (bs "P-8Y-8M-21DT-3H-3M-9S"))]) = true.
Proof. vm_compute. reflexivity. Qed.
Example timestamp_test_timestamp_date_part : replay (fun md => [
  let* x1 := timestamp_try_from_str md (bs "2001-02-16 20:38:40.4567890") 6 YMD in let* x2 := timestamp_date_part md x1 FTUnit Century in Ok (feq x2 (S754_finite false 5910974510923776 (-48)));
  let* x1 := timestamp_try_from_str md (bs "2001-02-16 20:38:40.4567890") 6 YMD in let* x3 := timestamp_date_part md x1 FTUnit JULIAN in Ok (feq x3 (S754_finite false 5265539410344109 (-31)));
  let* x1 := timestamp_try_from_str md (bs "2001-02-16 20:38:40.4567890") 6 YMD in let* x4 := timestamp_date_part md x1 FTUnit Millennium in Ok (feq x4 (S754_finite false 6755399441055744 (-51)));
  let* x1 := timestamp_try_from_str md (bs "2001-02-16 20:38:40.4567890") 6 YMD in let* x5 := timestamp_date_part md x1 FTUnit Decade in Ok (feq x5 (S754_finite false 7036874417766400 (-45)));
  let* x1 := timestamp_try_from_str md (bs "2001-02-16 20:38:40.4567890") 6 YMD in let* x6 := timestamp_date_part md x1 FTUnit Day in Ok (feq x6 (S754_finite false 4503599627370496 (-48)));
  let* x1 := timestamp_try_from_str md (bs "2001-02-16 20:38:40.4567890") 6 YMD in let* x7 := timestamp_date_part md x1 FTUnit Dow in Ok (feq x7 (S754_finite false 5629499534213120 (-50)));
  let* x1 := timestamp_try_from_str md (bs "2001-02-16 20:38:40.4567890") 6 YMD in let* x8 := timestamp_date_part md x1 FTUnit Doy in Ok (feq x8 (S754_finite false 6614661952700416 (-47)));
  let* x1 := timestamp_try_from_str md (bs "2001-02-16 20:38:40.4567890") 6 YMD in let* x9 := timestamp_date_part md x1 FTUnit IsoDow in Ok (feq x9 (S754_finite false 5629499534213120 (-50)));
  let* x1 := timestamp_try_from_str md (bs "2001-02-16 20:38:40.4567890") 6 YMD in let* x10 := timestamp_date_part md x1 FTUnit IsoYear in Ok (feq x10 (S754_finite false 8800491068719104 (-42)));
  let* x1 := timestamp_try_from_str md (bs "2001-02-16 20:38:40.4567890") 6 YMD in Ok (is_err (timestamp_date_part md x1 FTEpoch Epoch));
  let* x1 := timestamp_try_from_str md (bs "2001-02-16 20:38:40.4567890") 6 YMD in let* x11 := timestamp_date_part md x1 FTUnit Hour in Ok (feq x11 (S754_finite false 5629499534213120 (-48)));
  let* x1 := timestamp_try_from_str md (bs "2001-02-16 20:38:40.4567890") 6 YMD in let* x12 := timestamp_date_part md x1 FTUnit Minute in Ok (feq x12 (S754_finite false 5348024557502464 (-47)));
  let* x1 := timestamp_try_from_str md (bs "2001-02-16 20:38:40.4567890") 6 YMD in let* x13 := timestamp_date_part md x1 FTUnit Second in Ok (feq x13 (S754_finite false 5693786870781462 (-47)));
  let* x1 := timestamp_try_from_str md (bs "2001-02-16 20:38:40.4567890") 6 YMD in let* x14 := timestamp_date_part md x1 FTUnit MilliSec in Ok (feq x14 (S754_finite false 5560338740997521 (-37)));
  let* x1 := timestamp_try_from_str md (bs "2001-02-16 20:38:40.4567890") 6 YMD in let* x15 := timestamp_date_part md x1 FTUnit MicroSec in Ok (feq x15 (S754_finite false 5430018301755392 (-27)));
  let* x1 := timestamp_try_from_str md (bs "2001-02-16 20:38:40.4567890") 6 YMD in let* x16 := timestamp_date_part md x1 FTUnit Month in Ok (feq x16 (S754_finite false 4503599627370496 (-51)));
  let* x1 := timestamp_try_from_str md (bs "2001-02-16 20:38:40.4567890") 6 YMD in let* x17 := timestamp_date_part md x1 FTUnit Quarter in Ok (feq x17 (S754_finite false 4503599627370496 (-52)));
  let* x1 := timestamp_try_from_str md (bs "2001-02-16 20:38:40.4567890") 6 YMD in let* x18 := timestamp_date_part md x1 FTUnit Week in Ok (feq x18 (S754_finite false 7881299347898368 (-50)));
  let* x1 := timestamp_try_from_str md (bs "2001-02-16 20:38:40.4567890") 6 YMD in let* x19 := timestamp_date_part md x1 FTUnit Year in Ok (feq x19 (S754_finite false 8800491068719104 (-42)));
  let* x1 := timestamp_try_from_str md (bs "2001-02-16 20:38:40.4567890") 6 YMD in Ok (is_err (timestamp_date_part md x1 FTEpoch Epoch));
  let* x1 := timestamp_try_from_str md (bs "2001-02-16 20:38:40.4567890") 6 YMD in Ok (is_err (timestamp_date_part md x1 FTEpoch Day));
  let* x20 := timestamp_try_from_str md (bs "infinity") 6 YMD in let* x21 := timestamp_date_part md x20 FTUnit Century in Ok (feq x21 (S754_infinity false));
  let* x20 := timestamp_try_from_str md (bs "infinity") 6 YMD in let* x22 := timestamp_date_part md x20 FTUnit Millennium in Ok (feq x22 (S754_infinity false));
  let* x20 := timestamp_try_from_str md (bs "infinity") 6 YMD in let* x23 := timestamp_date_part md x20 FTUnit Decade in Ok (feq x23 (S754_infinity false));
  let* x20 := timestamp_try_from_str md (bs "infinity") 6 YMD in let* x24 := timestamp_date_part md x20 FTUnit Day in Ok (feq x24 (S754_zero false));
  let* x20 := timestamp_try_from_str md (bs "infinity") 6 YMD in let* x25 := timestamp_date_part md x20 FTUnit Dow in Ok (feq x25 (S754_zero false));
  let* x20 := timestamp_try_from_str md (bs "infinity") 6 YMD in let* x26 := timestamp_date_part md x20 FTUnit Doy in Ok (feq x26 (S754_zero false));
  let* x20 := timestamp_try_from_str md (bs "infinity") 6 YMD in let* x27 := timestamp_date_part md x20 FTUnit IsoDow in Ok (feq x27 (S754_zero false));
  let* x20 := timestamp_try_from_str md (bs "infinity") 6 YMD in let* x28 := timestamp_date_part md x20 FTUnit IsoYear in Ok (feq x28 (S754_infinity false));
  let* x20 := timestamp_try_from_str md (bs "infinity") 6 YMD in let* x29 := timestamp_date_part md x20 FTEpoch Epoch in Ok (feq x29 (S754_infinity false));
  let* x20 := timestamp_try_from_str md (bs "infinity") 6 YMD in let* x30 := timestamp_date_part md x20 FTUnit Hour in Ok (feq x30 (S754_zero false));
  let* x20 := timestamp_try_from_str md (bs "infinity") 6 YMD in let* x31 := timestamp_date_part md x20 FTUnit Minute in Ok (feq x31 (S754_zero false));
  let* x20 := timestamp_try_from_str md (bs "infinity") 6 YMD in let* x32 := timestamp_date_part md x20 FTUnit Second in Ok (feq x32 (S754_zero false));
  let* x20 := timestamp_try_from_str md (bs "infinity") 6 YMD in let* x33 := timestamp_date_part md x20 FTUnit MilliSec in Ok (feq x33 (S754_zero false));
  let* x20 := timestamp_try_from_str md (bs "infinity") 6 YMD in let* x34 := timestamp_date_part md x20 FTUnit MicroSec in Ok (feq x34 (S754_zero false));
  let* x20 := timestamp_try_from_str md (bs "infinity") 6 YMD in let* x35 := timestamp_date_part md x20 FTUnit Month in Ok (feq x35 (S754_zero false));
  let* x20 := timestamp_try_from_str md (bs "infinity") 6 YMD in let* x36 := timestamp_date_part md x20 FTUnit Quarter in Ok (feq x36 (S754_zero false));
  let* x20 := timestamp_try_from_str md (bs "infinity") 6 YMD in let* x37 := timestamp_date_part md x20 FTUnit Week in Ok (feq x37 (S754_zero false));
  let* x20 := timestamp_try_from_str md (bs "infinity") 6 YMD in let* x38 := timestamp_date_part md x20 FTUnit Year in Ok (feq x38 (S754_infinity false));
  let* x20 := timestamp_try_from_str md (bs "infinity") 6 YMD in let* x39 := timestamp_date_part md x20 FTUnit JULIAN in Ok (feq x39 (S754_infinity false));
  let* x40 := timestamp_try_from_str md (bs "-infinity") 6 YMD in let* x41 := timestamp_date_part md x40 FTUnit Century in Ok (feq x41 (S754_infinity true));
  let* x42 := timestamp_try_from_str md (bs "infinity") 6 YMD in let* x43 := timestamp_date_part md x42 FTUnit Century in Ok (feq x43 (S754_infinity false))]) = true.
Proof. vm_compute. reflexivity. Qed.
Example timestamp_test_timestamp_truncate : replay (fun md => [
  let* x1 := timestamp_try_from_str md (bs "2116-02-16 20:38:40.4567890") 6 YMD in let* x2 := timestamp_truncate md x1 FTUnit Millennium in let* x3 := timestamp_format md x2 SISO YMD in Ok (bytes_eqb x3 (bs "2001-01-01 00:00:00"));
  let* x1 := timestamp_try_from_str md (bs "2116-02-16 20:38:40.4567890") 6 YMD in let* x4 := timestamp_truncate md x1 FTUnit Century in let* x5 := timestamp_format md x4 SISO YMD in Ok (bytes_eqb x5 (bs "2101-01-01 00:00:00"));
  let* x1 := timestamp_try_from_str md (bs "2116-02-16 20:38:40.4567890") 6 YMD in let* x6 := timestamp_truncate md x1 FTUnit Decade in let* x7 := timestamp_format md x6 SISO YMD in Ok (bytes_eqb x7 (bs "2110-01-01 00:00:00"));
  let* x1 := timestamp_try_from_str md (bs "2116-02-16 20:38:40.4567890") 6 YMD in let* x8 := timestamp_truncate md x1 FTUnit Year in let* x9 := timestamp_format md x8 SISO YMD in Ok (bytes_eqb x9 (bs "2116-01-01 00:00:00"));
  let* x1 := timestamp_try_from_str md (bs "2116-02-16 20:38:40.4567890") 6 YMD in let* x10 := timestamp_truncate md x1 FTUnit Quarter in let* x11 := timestamp_format md x10 SISO YMD in Ok (bytes_eqb x11 (bs "2116-01-01 00:00:00"));
  let* x1 := timestamp_try_from_str md (bs "2116-02-16 20:38:40.4567890") 6 YMD in let* x12 := timestamp_truncate md x1 FTUnit Month in let* x13 := timestamp_format md x12 SISO YMD in Ok (bytes_eqb x13 (bs "2116-02-01 00:00:00"));
  let* x1 := timestamp_try_from_str md (bs "2116-02-16 20:38:40.4567890") 6 YMD in let* x14 := timestamp_truncate md x1 FTUnit Week in let* x15 := timestamp_format md x14 SISO YMD in Ok (bytes_eqb x15 (bs "2116-02-10 00:00:00"));
  let* x1 := timestamp_try_from_str md (bs "2116-02-16 20:38:40.4567890") 6 YMD in let* x16 := timestamp_truncate md x1 FTUnit Day in let* x17 := timestamp_format md x16 SISO YMD in Ok (bytes_eqb x17 (bs "2116-02-16 00:00:00"));
  let* x1 := timestamp_try_from_str md (bs "2116-02-16 20:38:40.4567890") 6 YMD in let* x18 := timestamp_truncate md x1 FTUnit Hour in let* x19 := timestamp_format md x18 SISO YMD in Ok (bytes_eqb x19 (bs "2116-02-16 20:00:00"));
  let* x1 := timestamp_try_from_str md (bs "2116-02-16 20:38:40.4567890") 6 YMD in let* x20 := timestamp_truncate md x1 FTUnit Minute in let* x21 := timestamp_format md x20 SISO YMD in Ok (bytes_eqb x21 (bs "2116-02-16 20:38:00"));
  let* x1 := timestamp_try_from_str md (bs "2116-02-16 20:38:40.4567890") 6 YMD in let* x22 := timestamp_truncate md x1 FTUnit Second in let* x23 := timestamp_format md x22 SISO YMD in Ok (bytes_eqb x23 (bs "2116-02-16 20:38:40"));
  let* x1 := timestamp_try_from_str md (bs "2116-02-16 20:38:40.4567890") 6 YMD in let* x24 := timestamp_truncate md x1 FTUnit MilliSec in let* x25 := timestamp_format md x24 SISO YMD in Ok (bytes_eqb x25 (bs "2116-02-16 20:38:40.456"));
  let* x1 := timestamp_try_from_str md (bs "2116-02-16 20:38:40.4567890") 6 YMD in let* x26 := timestamp_truncate md x1 FTUnit MicroSec in let* x27 := timestamp_format md x26 SISO YMD in Ok (bytes_eqb x27 (bs "2116-02-16 20:38:40.456789"));
  let* x1 := timestamp_try_from_str md (bs "2116-02-16 20:38:40.4567890") 6 YMD in Ok (is_err (timestamp_truncate md x1 FTUnit JULIAN));
  let* x1 := timestamp_try_from_str md (bs "2116-02-16 20:38:40.4567890") 6 YMD in Ok (is_err (timestamp_truncate md x1 FTEpoch Epoch))]) = true.
Proof. vm_compute. reflexivity. Qed.
Example timestamp_test_timestamp_finite : replay (fun md => [
  let* x1 := timestamp_try_from_str md (bs "2001-02-16 20:38:40.4567890") 6 YMD in Ok ((ts_is_finite x1));
  Ok ((negb (ts_is_finite (-9223372036854775808))))]) = true.
Proof. vm_compute. reflexivity. Qed.
Example timestamp_test_convert : replay (fun md => [
  let* x1 := date_try_from_ymd md 2000 10 1 in let* x2 := timestamp_of_date md x1 in let* x3 := timestamp_try_from_ymd_hms md 2000 10 1 0 0 (S754_zero false) in Ok (Z.eqb x2 x3);
  let* x1 := date_try_from_ymd md 2000 10 1 in let* x2 := timestamp_of_date md x1 in let* x4 := timestamp_format md x2 SISO YMD in Ok (bytes_eqb x4 (bs "2000-10-01 00:00:00"));
  let* x5 := timestamp_of_date md (-2147483648) in let* x6 := timestamp_format md x5 SISO YMD in Ok (bytes_eqb x6 (bs "-infinity"));
  let* x7 := timestamp_of_date md 2147483647 in let* x8 := timestamp_format md x7 SISO YMD in Ok (bytes_eqb x8 (bs "infinity"));
  let* x9 := timestamp_try_from_ymd_hms md 2008 10 1 12 10 (S754_finite false 6600588203864883 (-48)) in let* x10 := date_of_timestamp md x9 in let* x11 := date_try_from_ymd md 2008 10 1 in Ok (Z.eqb x10 x11);
  let* x12 := date_of_timestamp md (-9223372036854775808) in let* x13 := date_format md x12 SISO YMD in Ok (bytes_eqb x13 (bs "-infinity"));
  Ok (is_err (date_of_timestamp md (-9223372036854775788)));
  let* x14 := date_of_timestamp md 9223372036854775807 in let* x15 := date_format md x14 SISO YMD in Ok (bytes_eqb x15 (bs "infinity"));
  let* x16 := timestamp_try_from_ymd_hms md 2008 10 1 12 10 (S754_finite false 6600588203864883 (-48)) in let* x17 := time_of_timestamp md x16 in Ok (is_some x17);
  let* x16 := timestamp_try_from_ymd_hms md 2008 10 1 12 10 (S754_finite false 6600588203864883 (-48)) in let* x17 := time_of_timestamp md x16 in let* x18 := time_try_from_hms md 12 10 (S754_finite false 6600588203864883 (-48)) in Ok (Z.eqb (match x17 with Some z => z | None => 0 end) x18);
  let* x19 := time_of_timestamp md (-9223372036854775808) in Ok (is_none x19)]) = true.
Proof. vm_compute. reflexivity. Qed.

(** ** src/interval.rs *)
Example interval_test_interval_from_str : replay (fun md => [
  Ok (is_err (interval_try_from_str md (bs "P1987-07-08-T") (-1) IISO8601));
  Ok (is_err (interval_try_from_str md (bs "P-1987-07-08T-06:40:50.02") (-1) IISO8601));
  Ok (is_err (interval_try_from_str md (bs "P198999999997-07-08T06:40:50.02") (-1) IISO8601));
  Ok (is_err (interval_try_from_str md (bs "P1987/07/08T06:40:50.02r") (-1) IISO8601));
  Ok (is_err (interval_try_from_str md (bs "P1987-07/08T06:40:50.02r") (-1) IISO8601));
  Ok (is_err (interval_try_from_str md (bs "P1987-07-08Y06:40:50.02") (-1) IISO8601));
  Ok (is_err (interval_try_from_str md (bs "P19870708T06:40:50.02r") (-1) IISO8601));
  let* x1 := interval_try_from_str md (bs "P1987Y") (-1) IISO8601 in let* x2 := interval_format md x1 ISQLStandard in Ok (bytes_eqb x2 (bs "1987-0"));
  let* x3 := interval_try_from_str md (bs "P19870708T06:40:50.02") (-1) IISO8601 in let* x4 := interval_format md x3 IPostgres in Ok (bytes_eqb x4 (bs "1987 years 7 mons 8 days 06:40:50.02"));
  let* x5 := interval_try_from_str md (bs "@ -8 month 1 millennium 9 century 8 decade 7 year 7 day 6 hour 40 minute 50 second 20 millisecond") (-1) ISQLStandard in let* x6 := interval_format md x5 ISQLStandard in Ok (bytes_eqb x6 (bs "-1987-8 -7 -6:40:50.02"));
  let* x7 := interval_try_from_str md (bs "@ -1 millennium 9 century 8 decade 7 year 8 month 7 day 6 hour 40 minute 50 second 20 millisecond") (-1) ISQLStandard in let* x8 := interval_format md x7 ISQLStandard in Ok (bytes_eqb x8 (bs "-13-8 -7 -6:40:50.02"));
  let* x9 := interval_try_from_str md (bs "@ -7 year 8 month") (-1) ISQLStandard in let* x10 := interval_format md x9 ISQLStandard in Ok (bytes_eqb x10 (bs "-7-8"));
  let* x11 := interval_try_from_str md (bs "@ 7 year 8 month") (-1) IISO8601 in let* x12 := interval_format md x11 ISQLStandard in Ok (bytes_eqb x12 (bs "7-8"));
  let* x13 := interval_try_from_str md (bs "@ 7 day") (-1) IISO8601 in let* x14 := interval_format md x13 ISQLStandard in Ok (bytes_eqb x14 (bs "7 0:00:00"));
  let* x15 := interval_try_from_str md (bs "@ 6 hour 40 minute 50 second 20 millisecond") (-1) IISO8601 in let* x16 := interval_format md x15 ISQLStandard in Ok (bytes_eqb x16 (bs "6:40:50.02"));
  Ok (is_err (interval_try_from_str md (bs "@ 78.789.45 years") (-1) IISO8601));
  Ok (is_err (interval_try_from_str md (bs "@ 78.789_45 years") (-1) IISO8601));
  Ok (is_err (interval_try_from_str md (bs "@ J20045") (-1) IISO8601));
  Ok (is_err (interval_try_from_str md (bs "@ @") (-1) IISO8601));
  Ok (is_err (interval_try_from_str md (bs "invalid") (-1) IISO8601));
  let* x17 := interval_try_from_str md (bs "6:40:50.02") (-1) IISO8601 in let* x18 := interval_format md x17 IPostgresVerbose in Ok (bytes_eqb x18 (bs "@ 6 hours 40 mins 50.02 secs"));
  let* x19 := interval_try_from_str md (bs "+1987-8 +7 +6:40:50.02") (-1) IISO8601 in let* x20 := interval_format md x19 IPostgresVerbose in Ok (bytes_eqb x20 (bs "@ 1987 years 8 mons 7 days 6 hours 40 mins 50.02 secs"));
  let* x21 := interval_try_from_str md (bs "-1987-8 -7 -6:40:50.02") (-1) IISO8601 in let* x22 := interval_format md x21 IPostgresVerbose in Ok (bytes_eqb x22 (bs "@ 1987 years 8 mons 7 days 6 hours 40 mins 50.02 secs ago"));
  let* x23 := interval_try_from_str md (bs "@ 1 millennium 9 century") (-1) IISO8601 in let* x24 := interval_format md x23 IPostgresVerbose in Ok (bytes_eqb x24 (bs "@ 1900 years"));
  let* x25 := interval_try_from_str md (bs "@ 1 millennium 9 century ago") (-1) IISO8601 in let* x26 := interval_format md x25 IPostgresVerbose in Ok (bytes_eqb x26 (bs "@ 1900 years ago"));
  let* x27 := interval_try_from_str md (bs "@ 1.1 millennium 9.1 century 8.1 decade 7 year 8 month 1 week 7 day 6 hour 40 minute 50 second 20 millisecond") (-1) IISO8601 in let* x28 := interval_format md x27 IPostgresVerbose in Ok (bytes_eqb x28 (bs "@ 2098 years 8 mons 14 days 6 hours 40 mins 50.02 secs"));
  let* x29 := interval_try_from_str md (bs "@ 1 millennium 9 century 8 decade 7 year 8 month 7 day 6 hour 40 minute 50 second 20 millisecond") (-1) IISO8601 in let* x30 := interval_format md x29 IPostgresVerbose in Ok (bytes_eqb x30 (bs "@ 1987 years 8 mons 7 days 6 hours 40 mins 50.02 secs"));
  let* x29 := interval_try_from_str md (bs "@ 1 millennium 9 century 8 decade 7 year 8 month 7 day 6 hour 40 minute 50 second 20 millisecond") (-1) IISO8601 in let* x31 := interval_format md x29 ISQLStandard in Ok (bytes_eqb x31 (bs "+1987-8 +7 +6:40:50.02"));
  let* x29 := interval_try_from_str md (bs "@ 1 millennium 9 century 8 decade 7 year 8 month 7 day 6 hour 40 minute 50 second 20 millisecond") (-1) IISO8601 in let* x32 := interval_format md x29 IPostgres in Ok (bytes_eqb x32 (bs "1987 years 8 mons 7 days 06:40:50.02"));
  let* x29 := interval_try_from_str md (bs "@ 1 millennium 9 century 8 decade 7 year 8 month 7 day 6 hour 40 minute 50 second 20 millisecond") (-1) IISO8601 in let* x33 := interval_format md x29 IISO8601 in Ok (bytes_eqb x33 (bs "P1987Y8M7DT6H40M50.02S"));
  let* x34 := interval_try_from_str md (bs "@ -1 millennium -9 century 8 decade 7 year 8 month 7 day 6 hour 40 minute 50 second 20 millisecond") (-1) IISO8601 in let* x35 := interval_format md x34 IPostgresVerbose in Ok (bytes_eqb x35 (bs "@ 1812 years 4 mons -7 days -6 hours -40 mins -50.02 secs ago"));
  let* x34 := interval_try_from_str md (bs "@ -1 millennium -9 century 8 decade 7 year 8 month 7 day 6 hour 40 minute 50 second 20 millisecond") (-1) IISO8601 in let* x36 := interval_format md x34 ISQLStandard in Ok (bytes_eqb x36 (bs "-1812-4 +7 +6:40:50.02"));
  Ok (is_err (interval_try_from_str md (bs "@ 1 millennium 9 century 9 century ago") (-1) IISO8601));
  Ok (is_err (interval_try_from_str md (bs "@ 1 yue") (-1) IISO8601));
  Ok (is_err (interval_try_from_str md (bs "@") (-1) IISO8601));
  Ok (is_err (interval_try_from_str md (bs "infinity") (-1) IISO8601));
  let* x37 := interval_try_from_str md (bs "P1987Y8M1W7DT6H40M50.02S") (-1) IISO8601 in let* x38 := interval_format md x37 IPostgres in Ok (bytes_eqb x38 (bs "1987 years 8 mons 14 days 06:40:50.02"));
  let* x39 := interval_try_from_str md (bs "P1987-8-7T06:40:50.02") (-1) IISO8601 in let* x40 := interval_format md x39 IPostgres in Ok (bytes_eqb x40 (bs "1987 years 8 mons 7 days 06:40:50.02"));
  let* x41 := interval_try_from_str md (bs "P1987T06:40:50.02") (-1) IISO8601 in let* x42 := interval_format md x41 IPostgres in Ok (bytes_eqb x42 (bs "1987 years 06:40:50.02"));
  let* x43 := interval_try_from_str md (bs "P1987-8T06:40:50.02") (-1) IISO8601 in let* x44 := interval_format md x43 IPostgres in Ok (bytes_eqb x44 (bs "1987 years 8 mons 06:40:50.02"));
  let* x45 := interval_try_from_str md (bs "P1987-8-7") (-1) IISO8601 in let* x46 := interval_format md x45 IPostgres in Ok (bytes_eqb x46 (bs "1987 years 8 mons 7 days"));
  let* x47 := interval_try_from_str md (bs "P1987") (-1) IISO8601 in let* x48 := interval_format md x47 IPostgres in Ok (bytes_eqb x48 (bs "1987 years"));
  let* x49 := interval_try_from_str md (bs "P1987-8") (-1) IISO8601 in let* x50 := interval_format md x49 IPostgres in Ok (bytes_eqb x50 (bs "1987 years 8 mons"));
  let* x51 := interval_try_from_str md (bs "P1987-8-7T06:40:50.02") (-1) IISO8601 in let* x52 := interval_format md x51 IPostgres in Ok (bytes_eqb x52 (bs "1987 years 8 mons 7 days 06:40:50.02"));
  let* x53 := interval_try_from_str md (bs "P1987-8-7T064020.34567") (-1) IISO8601 in let* x54 := interval_format md x53 IPostgres in Ok (bytes_eqb x54 (bs "1987 years 8 mons 7 days 06:40:20.34567"));
  let* x55 := interval_try_from_str md (bs "P1987-8-7T23.3") (-1) IISO8601 in let* x56 := interval_format md x55 IPostgres in Ok (bytes_eqb x56 (bs "1987 years 8 mons 7 days 23:18:00"));
  let* x57 := interval_try_from_str md (bs "P1987-8-7T064020.34567") (-1) IISO8601 in let* x58 := interval_format md x57 IPostgres in Ok (bytes_eqb x58 (bs "1987 years 8 mons 7 days 06:40:20.34567"));
  let* x59 := interval_try_from_str md (bs "P19870807.23456") (-1) IISO8601 in let* x60 := interval_format md x59 IPostgres in Ok (bytes_eqb x60 (bs "1987 years 8 mons 7 days 05:37:45.984142"));
  let* x61 := interval_try_from_str md (bs "P807.23456") (-1) IISO8601 in let* x62 := interval_format md x61 IPostgres in Ok (bytes_eqb x62 (bs "807 years 2 mons"));
  Ok (is_err (interval_try_from_str md (bs "P") (-1) IISO8601));
  Ok (is_err (interval_try_from_str md (bs "P1987-n8-7T06:40:50.02") (-1) IISO8601));
  Ok (is_err (interval_try_from_str md (bs "P1987Y8M1W7DT6H40M50.02Y") (-1) IISO8601));
  Ok (is_err (interval_try_from_str md (bs "P1987Y8M1N7DT6H40M50.02S") (-1) IISO8601));
  Ok (is_err (interval_try_from_str md (bs "P1987Y8M17D4567.8T6H40M50.02S") (-1) IISO8601));
  Ok (is_err (interval_try_from_str md (bs "P1987Y8M17DT6H40M50.02S5678.9") (-1) IISO8601))]) = true.
Proof. vm_compute. reflexivity. Qed.
Example interval_test_interval_convert : replay (fun md => [
  let* x1 := time_try_from_hms md 12 34 (S754_finite false 6602498856006795 (-48)) in let* x2 := interval_try_from_ymwd_hms 0 0 0 0 12 34 (S754_finite false 6602498856006795 (-48)) in Ok (interval_eqb (interval_of_time x1) x2);
  let* x1 := time_try_from_hms md 12 34 (S754_finite false 6602498856006795 (-48)) in let* x3 := interval_try_from_ymwd_hms 2020 12 23 12 36 34 (S754_finite false 6602498856006795 (-48)) in let* x4 := time_of_interval md x3 in Ok (Z.eqb x4 x1);
  let* x5 := interval_try_from_ymwd_hms 2020 12 23 12 (-2) 34 (S754_finite false 6602498856006795 (-48)) in let* x6 := time_of_interval md x5 in let* x7 := time_format md x6 in Ok (bytes_eqb x7 (bs "22:34:23.456788"))]) = true.
Proof. vm_compute. reflexivity. Qed.
Example interval_test_mask : replay (fun md => [
  Ok (is_err (interval_try_from_str md (bs "@ 1 millennium 9 century 8 decade 7 year 8.1 month 7 day 6 hour 40 minute 50 second 20 millisecond 567 microsecond") (interval_type_mod 6 (Z.lor (mask YEAR) (mask HOUR))) IISO8601));
  let* x1 := interval_try_from_str md (bs "@ 1 millennium 9 century 8 decade 7 year 8.1 month 7 day 6 hour 40 minute 50 second 20 millisecond 567 microsecond") (interval_type_mod 6 (Z.lor (mask MINUTE) (mask HOUR))) IISO8601 in let* x2 := interval_format md x1 IPostgresVerbose in Ok (bytes_eqb x2 (bs "@ 1987 years 8 mons 10 days 6 hours 40 mins"));
  let* x3 := interval_try_from_str md (bs "@ 1 millennium 9 century 8 decade 7 year 8.1 month 7 day -6 hour 40 minute 50 second 20 millisecond 567 microsecond") (interval_type_mod 6 (Z.lor (mask MINUTE) (mask HOUR))) IISO8601 in let* x4 := interval_format md x3 IPostgresVerbose in Ok (bytes_eqb x4 (bs "@ 1987 years 8 mons 10 days -5 hours -19 mins"));
  let* x5 := interval_try_from_str md (bs "@ 1 millennium 9 century 8 decade 7 year 8.1 month 7 day 6 hour 40 minute 50 second 20 millisecond 567 microsecond") (interval_type_mod 6 (Z.lor (mask DAY) (mask HOUR))) IISO8601 in let* x6 := interval_format md x5 IPostgresVerbose in Ok (bytes_eqb x6 (bs "@ 1987 years 8 mons 10 days 6 hours"));
  let* x7 := interval_try_from_str md (bs "@ 1 millennium 9 century 8 decade 7 year 8.1 month 7 day 6 hour 40 minute 50 second 20 millisecond 567 microsecond") (interval_type_mod 6 (mask MONTH)) IISO8601 in let* x8 := interval_format md x7 IPostgresVerbose in Ok (bytes_eqb x8 (bs "@ 1987 years 8 mons"));
  let* x9 := interval_try_from_str md (bs "@ 1 millennium 9 century 8 decade 7 year 8.1 month 7 day 6 hour 40 minute 50 second 20 millisecond 567 microsecond") (interval_type_mod 6 (mask YEAR)) IISO8601 in let* x10 := interval_format md x9 IPostgresVerbose in Ok (bytes_eqb x10 (bs "@ 1987 years"));
  let* x11 := interval_try_from_str md (bs "@ 1987.34") (interval_type_mod 6 INTERVAL_MASK_Y) IISO8601 in let* x12 := interval_format md x11 IPostgresVerbose in Ok (bytes_eqb x12 (bs "@ 1987 years"));
  let* x13 := interval_try_from_str md (bs "@ 1987-7") (interval_type_mod 6 INTERVAL_MASK_YM) IISO8601 in let* x14 := interval_format md x13 IPostgresVerbose in Ok (bytes_eqb x14 (bs "@ 1987 years 7 mons"));
  let* x15 := interval_try_from_str md (bs "@ 19") (interval_type_mod 6 INTERVAL_MASK_D) IISO8601 in let* x16 := interval_format md x15 IPostgresVerbose in Ok (bytes_eqb x16 (bs "@ 19 days"));
  let* x17 := interval_try_from_str md (bs "@ 10") (interval_type_mod 6 INTERVAL_MASK_DH) IISO8601 in let* x18 := interval_format md x17 IPostgresVerbose in Ok (bytes_eqb x18 (bs "@ 10 hours"));
  let* x19 := interval_try_from_str md (bs "@ 10") (interval_type_mod 6 INTERVAL_MASK_H) IISO8601 in let* x20 := interval_format md x19 IPostgresVerbose in Ok (bytes_eqb x20 (bs "@ 10 hours"));
  let* x21 := interval_try_from_str md (bs "@ 10") (interval_type_mod 6 INTERVAL_MASK_MIN) IISO8601 in let* x22 := interval_format md x21 IPostgresVerbose in Ok (bytes_eqb x22 (bs "@ 10 mins"));
  let* x23 := interval_try_from_str md (bs "@ 10") (interval_type_mod 6 INTERVAL_MASK_S) IISO8601 in let* x24 := interval_format md x23 IPostgresVerbose in Ok (bytes_eqb x24 (bs "@ 10 secs"));
  let* x25 := interval_try_from_str md (bs "@ 10") (interval_type_mod 6 INTERVAL_MASK_MS) IISO8601 in let* x26 := interval_format md x25 IPostgresVerbose in Ok (bytes_eqb x26 (bs "@ 10 secs"));
  let* x27 := interval_try_from_str md (bs "@ 10") (interval_type_mod 6 INTERVAL_FULL_RANGE) IISO8601 in let* x28 := interval_format md x27 IPostgresVerbose in Ok (bytes_eqb x28 (bs "@ 10 secs"));
  let* x29 := interval_try_from_str md (bs "@ 10.2345") (interval_type_mod 6 INTERVAL_MASK_HMS) IISO8601 in let* x30 := interval_format md x29 IPostgresVerbose in Ok (bytes_eqb x30 (bs "@ 10.2345 secs"));
  Ok (is_err (interval_try_from_str md (bs "@ 10-h") (interval_type_mod 6 INTERVAL_MASK_YM) IISO8601));
  Ok (is_err (interval_try_from_str md (bs "@ 10-13") (interval_type_mod 6 INTERVAL_MASK_YM) IISO8601));
  Ok (is_err (interval_try_from_str md (bs "@ 10-13") (interval_type_mod 6 INTERVAL_MASK_YM) IISO8601));
  Ok (is_err (interval_try_from_str md (bs "@ 102222222222222222222-12") (interval_type_mod 6 INTERVAL_MASK_YM) IISO8601))]) = true.
Proof. vm_compute. reflexivity. Qed.
Example interval_test_interval_range : replay (fun md => [
  let* x1 := interval_try_from_str md (bs "-178000000 year") (-1) IISO8601 in let* x2 := interval_format md x1 IPostgresVerbose in Ok (bytes_eqb x2 (bs "@ 178000000 years ago"));
  let* x3 := interval_try_from_str md (bs "178000000 year") (-1) IISO8601 in let* x4 := interval_format md x3 IPostgresVerbose in Ok (bytes_eqb x4 (bs "@ 178000000 years"));
  Ok (is_err (interval_try_from_str md (bs "-179000000 year") (-1) IISO8601));
  Ok (is_err (interval_try_from_str md (bs "-179000000 year") (-1) IISO8601))]) = true.
Proof. vm_compute. reflexivity. Qed.
Example interval_test_try_from_ymwd_hms : replay (fun md => [
  Ok (is_err (interval_try_from_ymwd_hms 1 13 3 29 34 56 (S754_infinity false)));
  Ok (is_err (interval_try_from_ymwd_hms 1 13 3 29 34 56 S754_nan));
  let* x1 := interval_try_from_ymwd_hms 1 13 3 29 34 56 (S754_finite false 4771000855245619 (-46)) in let* x2 := interval_format md x1 IISO8601 in Ok (bytes_eqb x2 (bs "P2Y1M50DT34H57M7.8S"))]) = true.
Proof. vm_compute. reflexivity. Qed.
Example interval_test_interval_date_part : replay (fun md => [
  let* x1 := interval_try_from_ymwd_hms 2001 2 0 16 20 38 (S754_finite false 5693786870781462 (-47)) in Ok (is_err (interval_date_part md x1 FTEpoch Century));
  let* x2 := interval_try_from_ymwd_hms 2001 2 0 16 20 38 (S754_finite false 5693786870781462 (-47)) in let* x3 := interval_date_part md x2 FTUnit Century in Ok (feq x3 (S754_finite false 5629499534213120 (-48)));
  let* x2 := interval_try_from_ymwd_hms 2001 2 0 16 20 38 (S754_finite false 5693786870781462 (-47)) in let* x4 := interval_date_part md x2 FTUnit Millennium in Ok (feq x4 (S754_finite false 4503599627370496 (-51)));
  let* x2 := interval_try_from_ymwd_hms 2001 2 0 16 20 38 (S754_finite false 5693786870781462 (-47)) in let* x5 := interval_date_part md x2 FTUnit Decade in Ok (feq x5 (S754_finite false 7036874417766400 (-45)));
  let* x2 := interval_try_from_ymwd_hms 2001 2 0 16 20 38 (S754_finite false 5693786870781462 (-47)) in let* x6 := interval_date_part md x2 FTUnit Day in Ok (feq x6 (S754_finite false 4503599627370496 (-48)));
  let* x2 := interval_try_from_ymwd_hms 2001 2 0 16 20 38 (S754_finite false 5693786870781462 (-47)) in Ok (is_err (interval_date_part md x2 FTUnit Dow));
  let* x2 := interval_try_from_ymwd_hms 2001 2 0 16 20 38 (S754_finite false 5693786870781462 (-47)) in Ok (is_err (interval_date_part md x2 FTUnit Doy));
  let* x2 := interval_try_from_ymwd_hms 2001 2 0 16 20 38 (S754_finite false 5693786870781462 (-47)) in Ok (is_err (interval_date_part md x2 FTUnit IsoDow));
  let* x2 := interval_try_from_ymwd_hms 2001 2 0 16 20 38 (S754_finite false 5693786870781462 (-47)) in Ok (is_err (interval_date_part md x2 FTUnit IsoYear));
  let* x2 := interval_try_from_ymwd_hms 2001 2 0 16 20 38 (S754_finite false 5693786870781462 (-47)) in let* x7 := interval_date_part md x2 FTEpoch Epoch in Ok (feq x7 (S754_finite false 8277642224658912 (-17)));
  let* x2 := interval_try_from_ymwd_hms 2001 2 0 16 20 38 (S754_finite false 5693786870781462 (-47)) in let* x8 := interval_date_part md x2 FTUnit Hour in Ok (feq x8 (S754_finite false 5629499534213120 (-48)));
  let* x2 := interval_try_from_ymwd_hms 2001 2 0 16 20 38 (S754_finite false 5693786870781462 (-47)) in let* x9 := interval_date_part md x2 FTUnit Minute in Ok (feq x9 (S754_finite false 5348024557502464 (-47)));
  let* x2 := interval_try_from_ymwd_hms 2001 2 0 16 20 38 (S754_finite false 5693786870781462 (-47)) in let* x10 := interval_date_part md x2 FTUnit Second in Ok (feq x10 (S754_finite false 5693786870781462 (-47)));
  let* x2 := interval_try_from_ymwd_hms 2001 2 0 16 20 38 (S754_finite false 5693786870781462 (-47)) in let* x11 := interval_date_part md x2 FTUnit MilliSec in Ok (feq x11 (S754_finite false 5560338740997521 (-37)));
  let* x2 := interval_try_from_ymwd_hms 2001 2 0 16 20 38 (S754_finite false 5693786870781462 (-47)) in let* x12 := interval_date_part md x2 FTUnit MicroSec in Ok (feq x12 (S754_finite false 5430018301755392 (-27)));
  let* x2 := interval_try_from_ymwd_hms 2001 2 0 16 20 38 (S754_finite false 5693786870781462 (-47)) in let* x13 := interval_date_part md x2 FTUnit Month in Ok (feq x13 (S754_finite false 4503599627370496 (-51)));
  let* x2 := interval_try_from_ymwd_hms 2001 2 0 16 20 38 (S754_finite false 5693786870781462 (-47)) in let* x14 := interval_date_part md x2 FTUnit Quarter in Ok (feq x14 (S754_finite false 4503599627370496 (-52)));
  let* x2 := interval_try_from_ymwd_hms 2001 2 0 16 20 38 (S754_finite false 5693786870781462 (-47)) in Ok (is_err (interval_date_part md x2 FTUnit Week));
  let* x2 := interval_try_from_ymwd_hms 2001 2 0 16 20 38 (S754_finite false 5693786870781462 (-47)) in let* x15 := interval_date_part md x2 FTUnit Year in Ok (feq x15 (S754_finite false 8800491068719104 (-42)))]) = true.
Proof. vm_compute. reflexivity. Qed.
Example interval_test_interval_tuncate : replay (fun md => [
  let* x1 := interval_try_from_ymwd_hms 2116 2 0 16 20 38 (S754_finite false 5693786870781462 (-47)) in Ok (is_err (interval_truncate md x1 FTEpoch MicroSec));
  let* x1 := interval_try_from_ymwd_hms 2116 2 0 16 20 38 (S754_finite false 5693786870781462 (-47)) in Ok (is_err (interval_truncate md x1 FTUnit Epoch));
  let* x2 := interval_try_from_ymwd_hms 2116 2 0 16 20 38 (S754_finite false 5693786870781462 (-47)) in let* x3 := interval_truncate md x2 FTUnit Millennium in let* x4 := interval_format md x3 IISO8601 in Ok (bytes_eqb x4 (bs "P2000Y"));
  let* x2 := interval_try_from_ymwd_hms 2116 2 0 16 20 38 (S754_finite false 5693786870781462 (-47)) in let* x5 := interval_truncate md x2 FTUnit Century in let* x6 := interval_format md x5 IISO8601 in Ok (bytes_eqb x6 (bs "P2100Y"));
  let* x2 := interval_try_from_ymwd_hms 2116 2 0 16 20 38 (S754_finite false 5693786870781462 (-47)) in let* x7 := interval_truncate md x2 FTUnit Decade in let* x8 := interval_format md x7 IISO8601 in Ok (bytes_eqb x8 (bs "P2110Y"));
  let* x2 := interval_try_from_ymwd_hms 2116 2 0 16 20 38 (S754_finite false 5693786870781462 (-47)) in let* x9 := interval_truncate md x2 FTUnit Year in let* x10 := interval_format md x9 IISO8601 in Ok (bytes_eqb x10 (bs "P2116Y"));
  let* x2 := interval_try_from_ymwd_hms 2116 2 0 16 20 38 (S754_finite false 5693786870781462 (-47)) in let* x11 := interval_truncate md x2 FTUnit Quarter in let* x12 := interval_format md x11 IISO8601 in Ok (bytes_eqb x12 (bs "P2116Y"));
  let* x2 := interval_try_from_ymwd_hms 2116 2 0 16 20 38 (S754_finite false 5693786870781462 (-47)) in let* x13 := interval_truncate md x2 FTUnit Month in let* x14 := interval_format md x13 IISO8601 in Ok (bytes_eqb x14 (bs "P2116Y2M"));
  let* x2 := interval_try_from_ymwd_hms 2116 2 0 16 20 38 (S754_finite false 5693786870781462 (-47)) in Ok (is_err (interval_truncate md x2 FTUnit Week));
  let* x2 := interval_try_from_ymwd_hms 2116 2 0 16 20 38 (S754_finite false 5693786870781462 (-47)) in let* x15 := interval_truncate md x2 FTUnit Day in let* x16 := interval_format md x15 IISO8601 in Ok (bytes_eqb x16 (bs "P2116Y2M16D"));
  let* x2 := interval_try_from_ymwd_hms 2116 2 0 16 20 38 (S754_finite false 5693786870781462 (-47)) in let* x17 := interval_truncate md x2 FTUnit Hour in let* x18 := interval_format md x17 IISO8601 in Ok (bytes_eqb x18 (bs "P2116Y2M16DT20H"));
  let* x2 := interval_try_from_ymwd_hms 2116 2 0 16 20 38 (S754_finite false 5693786870781462 (-47)) in let* x19 := interval_truncate md x2 FTUnit Minute in let* x20 := interval_format md x19 IISO8601 in Ok (bytes_eqb x20 (bs "P2116Y2M16DT20H38M"));
  let* x2 := interval_try_from_ymwd_hms 2116 2 0 16 20 38 (S754_finite false 5693786870781462 (-47)) in let* x21 := interval_truncate md x2 FTUnit Second in let* x22 := interval_format md x21 IISO8601 in Ok (bytes_eqb x22 (bs "P2116Y2M16DT20H38M40S"));
  let* x2 := interval_try_from_ymwd_hms 2116 2 0 16 20 38 (S754_finite false 5693786870781462 (-47)) in let* x23 := interval_truncate md x2 FTUnit MilliSec in let* x24 := interval_format md x23 IISO8601 in Ok (bytes_eqb x24 (bs "P2116Y2M16DT20H38M40.456S"));
  let* x2 := interval_try_from_ymwd_hms 2116 2 0 16 20 38 (S754_finite false 5693786870781462 (-47)) in let* x25 := interval_truncate md x2 FTUnit MicroSec in let* x26 := interval_format md x25 IISO8601 in Ok (bytes_eqb x26 (bs "P2116Y2M16DT20H38M40.456789S"))]) = true.
Proof. vm_compute. reflexivity. Qed.
Example interval_test_justify : replay (fun md => [
  let* x1 := interval_try_from_ymwd_hms 2116 2 0 80 80 38 (S754_finite false 5693786870781462 (-47)) in let* x2 := justify_days md x1 in let* x3 := interval_format md x2 IISO8601 in Ok (bytes_eqb x3 (bs "P2116Y4M20DT80H38M40.456789S"));
  let* x4 := interval_try_from_ymwd_hms 0 2 0 (-2) 20 38 (S754_finite false 5693786870781462 (-47)) in let* x5 := justify_days md x4 in let* x6 := interval_format md x5 IISO8601 in Ok (bytes_eqb x6 (bs "P1M28DT20H38M40.456789S"));
  let* x7 := interval_try_from_ymwd_hms 0 (-2) 0 4 12 38 (S754_finite false 5693786870781462 (-47)) in let* x8 := justify_days md x7 in let* x9 := interval_format md x8 IISO8601 in Ok (bytes_eqb x9 (bs "P-1M-26DT12H38M40.456789S"));
  let* x10 := interval_try_from_ymwd_hms 2116 2 0 80 80 38 (S754_finite false 5693786870781462 (-47)) in let* x11 := justify_hours md x10 in let* x12 := interval_format md x11 IISO8601 in Ok (bytes_eqb x12 (bs "P2116Y2M83DT8H38M40.456789S"));
  let* x13 := interval_try_from_ymwd_hms 0 2 0 80 (-2) 38 (S754_finite false 5693786870781462 (-47)) in let* x14 := justify_hours md x13 in let* x15 := interval_format md x14 IISO8601 in Ok (bytes_eqb x15 (bs "P2M79DT22H38M40.456789S"));
  let* x16 := interval_try_from_ymwd_hms 0 2 0 (-80) 48 38 (S754_finite false 5693786870781462 (-47)) in let* x17 := justify_hours md x16 in let* x18 := interval_format md x17 IISO8601 in Ok (bytes_eqb x18 (bs "P2M-77DT-23H-21M-19.543211S"));
  let* x19 := interval_try_from_ymwd_hms 2116 2 0 80 80 38 (S754_finite false 5693786870781462 (-47)) in let* x20 := justify_interval md x19 in let* x21 := interval_format md x20 IISO8601 in Ok (bytes_eqb x21 (bs "P2116Y4M23DT8H38M40.456789S"));
  let* x22 := interval_try_from_ymwd_hms 0 2 0 (-2) 12 38 (S754_finite false 5693786870781462 (-47)) in let* x23 := justify_interval md x22 in let* x24 := interval_format md x23 IISO8601 in Ok (bytes_eqb x24 (bs "P1M28DT12H38M40.456789S"));
  let* x25 := interval_try_from_ymwd_hms 0 2 0 0 (-8) 38 (S754_finite false 5693786870781462 (-47)) in let* x26 := justify_interval md x25 in let* x27 := interval_format md x26 IISO8601 in Ok (bytes_eqb x27 (bs "P1M29DT16H38M40.456789S"));
  let* x28 := interval_try_from_ymwd_hms 0 (-1) 0 23 8 38 (S754_finite false 5693786870781462 (-47)) in let* x29 := justify_interval md x28 in let* x30 := interval_format md x29 IISO8601 in Ok (bytes_eqb x30 (bs "P-6DT-15H-21M-19.543211S"));
  let* x31 := interval_try_from_ymwd_hms 0 (-1) 0 0 8 38 (S754_finite false 5693786870781462 (-47)) in let* x32 := justify_interval md x31 in let* x33 := interval_format md x32 IISO8601 in Ok (bytes_eqb x33 (bs "P-29DT-15H-21M-19.543211S"));
  let* x34 := interval_try_from_ymwd_hms 2116 0 0 1 (-8) 38 (S754_finite false 5693786870781462 (-47)) in let* x35 := justify_interval md x34 in let* x36 := interval_format md x35 IISO8601 in Ok (bytes_eqb x36 (bs "P2116YT16H38M40.456789S"));
  let* x37 := interval_try_from_ymwd_hms 2116 0 0 (-1) 28 38 (S754_finite false 5693786870781462 (-47)) in let* x38 := justify_interval md x37 in let* x39 := interval_format md x38 IISO8601 in Ok (bytes_eqb x39 (bs "P2116YT4H38M40.456789S"))]) = true.
Proof. vm_compute. reflexivity. Qed.
Example interval_test_finite : replay (fun md => [
  Ok (negb (negb (true)));
  Ok ((true))]) = true.
Proof. vm_compute. reflexivity. Qed.
Example interval_test_add_operator : replay (fun md => [
  Ok (is_err (timestamp_add_time md (-211813488000000000) (-23)));
  let* x1 := timestamp_try_from_ymd_hms md 2011 12 9 1 15 (S754_finite false 6142909891733357 (-50)) in let* x2 := time_try_from_hms md 1 20 (S754_finite false 8508988545963131 (-48)) in let* x3 := timestamp_add_time md x1 x2 in let* x4 := timestamp_format md x3 SISO YMD in Ok (bytes_eqb x4 (bs "2011-12-09 02:35:35.686"));
  let* x5 := date_try_from_ymd md 2020 1 20 in let* x6 := date_try_from_ymd md 2020 1 31 in let* x7 := date_add_days x5 11 in Ok (Z.eqb x7 x6);
  let* x5 := date_try_from_ymd md 2020 1 20 in let* x8 := date_try_from_ymd md 2020 1 31 in let* x9 := date_add_days x5 11 in Ok (Z.eqb x9 x8);
  let* x10 := date_add_days (-2147483648) 11 in Ok (Z.eqb x10 (-2147483648));
  let* x11 := date_add_days 2147483647 11 in Ok (Z.eqb x11 2147483647);
  let* x12 := date_try_from_ymd md 5874897 12 31 in Ok (is_err (date_add_days x12 1));
  let* x13 := date_try_from_ymd md 2010 10 29 in let* x14 := interval_try_from_ymwd_hms 1 1 1 2 25 15 (S754_finite false 6142909891733357 (-50)) in let* x15 := timestamp_try_from_ymd_hms md 2011 12 9 1 15 (S754_finite false 6142909891733357 (-50)) in let* x16 := date_add_interval md x13 x14 in Ok (Z.eqb x16 x15);
  let* x13 := date_try_from_ymd md 2010 10 29 in let* x14 := interval_try_from_ymwd_hms 1 1 1 2 25 15 (S754_finite false 6142909891733357 (-50)) in let* x16 := date_add_interval md x13 x14 in let* x17 := timestamp_format md x16 SISO YMD in Ok (bytes_eqb x17 (bs "2011-12-09 01:15:05.456"));
  let* x14 := interval_try_from_ymwd_hms 1 1 1 2 25 15 (S754_finite false 6142909891733357 (-50)) in let* x18 := date_add_interval md (-2147483648) x14 in let* x19 := timestamp_format md x18 SISO YMD in Ok (bytes_eqb x19 (bs "-infinity"));
  let* x20 := date_try_from_ymd md 5874897 10 29 in let* x21 := interval_try_from_ymwd_hms 1 1 1 2 25 15 (S754_finite false 6142909891733357 (-50)) in Ok (is_err (date_add_interval md x20 x21));
  let* x22 := date_try_from_ymd md 2010 10 29 in let* x23 := time_try_from_hms md 1 25 (S754_finite false 4863887597560136 (-47)) in let* x24 := timestamp_try_from_ymd_hms md 2010 10 29 1 25 (S754_finite false 4863887597560136 (-47)) in let* x25 := date_add_time md x22 x23 in Ok (Z.eqb x25 x24);
  let* x22 := date_try_from_ymd md 2010 10 29 in let* x23 := time_try_from_hms md 1 25 (S754_finite false 4863887597560136 (-47)) in let* x25 := date_add_time md x22 x23 in let* x26 := timestamp_format md x25 SISO YMD in Ok (bytes_eqb x26 (bs "2010-10-29 01:25:34.56"));
  let* x27 := time_try_from_hms md 1 25 (S754_finite false 4863887597560136 (-47)) in let* x28 := date_add_time md (-2147483648) x27 in let* x29 := timestamp_format md x28 SISO YMD in Ok (bytes_eqb x29 (bs "-infinity"));
  let* x30 := time_try_from_hms md 1 25 (S754_finite false 4863887597560136 (-47)) in let* x31 := date_add_time md 2147483647 x30 in let* x32 := timestamp_format md x31 SISO YMD in Ok (bytes_eqb x32 (bs "infinity"));
  let* x33 := interval_try_from_ymwd_hms 1 1 1 2 25 15 (S754_finite false 6142909891733357 (-50)) in let* x34 := interval_try_from_ymwd_hms 2 40 6 31 25 15 (S754_finite false 6142909891733357 (-50)) in let* x35 := interval_add x33 x34 in let* x36 := interval_format md x35 IISO8601 in Ok (bytes_eqb x36 (bs "P6Y5M82DT50H30M10.912S"));
  let* x33 := interval_try_from_ymwd_hms 1 1 1 2 25 15 (S754_finite false 6142909891733357 (-50)) in let* x37 := interval_try_from_ymwd_hms 0 2147483647 6 31 25 15 (S754_finite false 6142909891733357 (-50)) in Ok (is_err (interval_add x33 x37));
  let* x33 := interval_try_from_ymwd_hms 1 1 1 2 25 15 (S754_finite false 6142909891733357 (-50)) in let* x38 := interval_try_from_ymwd_hms 0 10 0 2147483647 25 15 (S754_finite false 6142909891733357 (-50)) in Ok (is_err (interval_add x33 x38));
  let* x33 := interval_try_from_ymwd_hms 1 1 1 2 25 15 (S754_finite false 6142909891733357 (-50)) in let* x39 := interval_try_from_ymwd_hms 0 10 0 0 0 0 (S754_finite false 4722366482869133 (-9)) in Ok (is_err (interval_add x33 x39));
  let* x33 := interval_try_from_ymwd_hms 1 1 1 2 25 15 (S754_finite false 6142909891733357 (-50)) in let* x40 := timestamp_try_from_ymd_hms md 2011 12 9 1 15 (S754_finite false 6142909891733357 (-50)) in let* x41 := timestamp_add_interval md x40 x33 in let* x42 := timestamp_format md x41 SISO YMD in Ok (bytes_eqb x42 (bs "2013-01-19 02:30:10.912"));
  let* x33 := interval_try_from_ymwd_hms 1 1 1 2 25 15 (S754_finite false 6142909891733357 (-50)) in let* x43 := time_try_from_hms md 1 25 (S754_finite false 4863887597560136 (-47)) in let* x44 := time_add_interval md x43 x33 in let* x45 := time_format md x44 in Ok (bytes_eqb x45 (bs "02:40:40.016"));
  let* x46 := interval_try_from_str md (bs "@ 1 day") (-1) IPostgres in let* x47 := time_add_interval md (-30000000) x46 in let* x48 := time_format md x47 in Ok (bytes_eqb x48 (bs "23:59:30"))]) = true.
Proof. vm_compute. reflexivity. Qed.
Example interval_test_negative : replay (fun md => [
  let* x1 := interval_try_from_ymwd_hms 12 23 6 31 25 15 (S754_finite false 6142909891733357 (-50)) in let* x2 := interval_negate x1 in let* x3 := interval_format md x2 IISO8601 in Ok (bytes_eqb x3 (bs "P-13Y-11M-73DT-25H-15M-5.456S"));
  Ok (is_err (interval_negate (from_mdt 12 34 (-9223372036854775808))));
  Ok (is_err (interval_negate (from_mdt 12 34 (-9223372036854775808))));
  Ok (is_err (interval_negate (from_mdt 12 (-2147483648) 23)));
  Ok (is_err (interval_negate (from_mdt (-2147483648) 23 23)))]) = true.
Proof. vm_compute. reflexivity. Qed.
Example interval_test_sub_operator : replay (fun md => [
  let* x1 := date_try_from_ymd md 2020 10 1 in let* x2 := date_try_from_ymd md 2000 2 28 in let* x3 := date_sub_date md x1 x2 in Ok (Z.eqb x3 7521);
  let* x1 := date_try_from_ymd md 2020 10 1 in let* x2 := date_try_from_ymd md 2000 2 28 in let* x4 := date_sub_date md x2 x1 in Ok (Z.eqb x4 (-7521));
  let* x5 := date_try_from_ymd md 2000 2 28 in Ok (is_err (date_sub_date md (-2147483648) x5));
  let* x5 := date_try_from_ymd md 2000 2 28 in Ok (is_err (date_sub_date md x5 (-2147483648)));
  let* x6 := date_try_from_ymd md 2020 10 1 in let* x7 := date_sub_days x6 2 in let* x8 := date_format md x7 SISO YMD in Ok (bytes_eqb x8 (bs "2020-09-29"));
  let* x9 := date_sub_days (-2147483648) 2 in let* x10 := date_format md x9 SISO YMD in Ok (bytes_eqb x10 (bs "-infinity"));
  Ok (is_err (date_sub_days (-2147483647) 2));
  let* x11 := date_try_from_ymd md 2020 10 1 in Ok (is_err (date_sub_days x11 3188845));
  let* x12 := date_try_from_ymd md 2020 10 1 in let* x13 := interval_try_from_ymwd_hms 1 2 0 34 10 20 (S754_finite false 4880494621186064 (-47)) in let* x14 := date_sub_interval md x12 x13 in let* x15 := timestamp_format md x14 SISO YMD in Ok (bytes_eqb x15 (bs "2019-06-27 13:39:25.322"));
  let* x16 := time_try_from_hms md 10 20 (S754_finite false 6412985131887231 (-47)) in let* x17 := time_try_from_hms md 4 50 (S754_finite false 7678637364666696 (-47)) in let* x18 := interval_format md (time_sub_time x16 x17) IISO8601 in Ok (bytes_eqb x18 (bs "PT5H29M51.007S"));
  let* x19 := time_try_from_hms md 10 20 (S754_finite false 6412985131887231 (-47)) in let* x20 := interval_try_from_ymwd_hms 20 13 2 29 30 67 (S754_finite false 4769593480362066 (-46)) in let* x21 := time_sub_interval md x19 x20 in let* x22 := time_format md x21 in Ok (bytes_eqb x22 (bs "03:12:37.787"));
  let* x23 := timestamp_try_from_ymd_hms md 2010 7 14 23 14 (S754_finite false 4880494621186064 (-47)) in let* x24 := interval_try_from_ymwd_hms 20 13 2 29 30 67 (S754_finite false 4769593480362066 (-46)) in let* x25 := timestamp_sub_interval md x23 x24 in let* x26 := timestamp_format md x25 SISO YMD in Ok (bytes_eqb x26 (bs "1989-05-01 16:06:26.898"));
  let* x27 := interval_try_from_ymwd_hms 20 13 2 29 30 67 (S754_finite false 4769593480362066 (-46)) in let* x28 := interval_try_from_ymwd_hms 10 26 4 23 45 34 (S754_finite false 7091762038224978 (-46)) in let* x29 := interval_sub x27 x28 in let* x30 := interval_format md x29 IISO8601 in Ok (bytes_eqb x30 (bs "P8Y11M-8DT-14H-27M-33S"));
  let* x28 := interval_try_from_ymwd_hms 10 26 4 23 45 34 (S754_finite false 7091762038224978 (-46)) in let* x31 := interval_try_from_ymwd_hms 1 (-2147483647) 1 1 1 1 (S754_finite false 4769593480362066 (-46)) in Ok (is_err (interval_sub x31 x28));
  let* x28 := interval_try_from_ymwd_hms 10 26 4 23 45 34 (S754_finite false 7091762038224978 (-46)) in let* x32 := interval_try_from_ymwd_hms 1 1 1 (-2147483638) 1 1 (S754_finite false 4769593480362066 (-46)) in Ok (is_err (interval_sub x32 x28));
  let* x28 := interval_try_from_ymwd_hms 10 26 4 23 45 34 (S754_finite false 7091762038224978 (-46)) in let* x33 := interval_try_from_ymwd_hms 1 1 1 (-2147483638) 0 0 (S754_finite true 4722366482869645 (-9)) in Ok (is_err (interval_sub x33 x28));
  let* x34 := timestamp_try_from_ymd_hms md 2010 7 14 23 14 (S754_finite false 4880494621186064 (-47)) in let* x35 := timestamp_try_from_ymd_hms md 2008 3 31 2 14 (S754_finite false 4694439661580321 (-48)) in let* x36 := timestamp_sub_timestamp md x34 x35 in let* x37 := interval_format md x36 IISO8601 in Ok (bytes_eqb x37 (bs "P835DT21H18S"));
  let* x35 := timestamp_try_from_ymd_hms md 2008 3 31 2 14 (S754_finite false 4694439661580321 (-48)) in Ok (is_err (timestamp_sub_timestamp md (-9223372036854775808) x35));
  let* x35 := timestamp_try_from_ymd_hms md 2008 3 31 2 14 (S754_finite false 4694439661580321 (-48)) in Ok (is_err (timestamp_sub_timestamp md 9223372036854775807 x35))]) = true.
Proof. vm_compute. reflexivity. Qed.
Example interval_test_mul_operation : replay (fun md => [
  let* x1 := interval_try_from_ymwd_hms 20 13 2 29 30 67 (S754_finite false 4769593480362066 (-46)) in let* x2 := interval_mul_f64 md x1 (S754_finite false 4503599627370496 (-49)) in let* x3 := interval_format md x2 IISO8601 in Ok (bytes_eqb x3 (bs "P168Y8M344DT249H5M2.24S"));
  let* x4 := interval_try_from_ymwd_hms 20 13 2 29 30 67 (S754_finite false 4769593480362066 (-46)) in let* x5 := interval_mul_f64 md x4 (S754_finite false 7036874417766400 (-43)) in let* x6 := interval_format md x5 IISO8601 in Ok (bytes_eqb x6 (bs "P16866Y8M34400DT24908H23M44S"));
  let* x7 := interval_try_from_ymwd_hms 0 13 2 29 30 67 (S754_finite false 4769593480362066 (-46)) in let* x8 := interval_mul_f64 md x7 (S754_finite false 7926335344172073 (-53)) in let* x9 := interval_format md x8 IISO8601 in Ok (bytes_eqb x9 (bs "P11M51DT28H21M33.2464S"));
  let* x10 := interval_try_from_ymwd_hms 0 0 0 0 12 67 (S754_finite false 4769593480362066 (-46)) in Ok (is_err (interval_mul_f64 md x10 (S754_finite false 9007199254740991 971)));
  let* x11 := interval_try_from_ymwd_hms 0 2147483647 2 29 30 67 (S754_finite false 4769593480362066 (-46)) in Ok (is_err (interval_mul_f64 md x11 (S754_infinity false)));
  let* x12 := interval_try_from_ymwd_hms 0 2147483647 2 29 30 67 (S754_finite false 4769593480362066 (-46)) in Ok (is_err (interval_mul_f64 md x12 (S754_finite false 4503599627370496 (-49))));
  let* x13 := interval_try_from_ymwd_hms 0 (-2147483648) 2 29 30 67 (S754_finite false 4769593480362066 (-46)) in Ok (is_err (interval_mul_f64 md x13 (S754_finite false 4503599627370496 (-49))));
  let* x14 := interval_try_from_ymwd_hms 0 0 0 2147483647 30 67 (S754_finite false 4769593480362066 (-46)) in Ok (is_err (interval_mul_f64 md x14 (S754_finite false 4503599627370496 (-49))));
  let* x15 := interval_try_from_ymwd_hms 0 0 0 (-2147483648) 30 67 (S754_finite false 4769593480362066 (-46)) in Ok (is_err (interval_mul_f64 md x15 (S754_finite false 4503599627370496 (-49))))]) = true.
Proof. vm_compute. reflexivity. Qed.
Example interval_test_divide_operation : replay (fun md => [
  let* x1 := interval_try_from_ymwd_hms 20 13 2 29 30 67 (S754_finite false 4769593480362066 (-46)) in let* x2 := interval_div_f64 md x1 (S754_finite false 4503599627370496 (-49)) in let* x3 := interval_format md x2 IISO8601 in Ok (bytes_eqb x3 (bs "P2Y7M24DT6H53M30.9725S"));
  let* x1 := interval_try_from_ymwd_hms 20 13 2 29 30 67 (S754_finite false 4769593480362066 (-46)) in Ok (is_err (interval_div_f64 md x1 (S754_zero false)));
  let* x4 := interval_try_from_ymwd_hms 20 13 0 2147483647 30 67 (S754_finite false 4769593480362066 (-46)) in let* x5 := interval_div_f64 md x4 (S754_finite false 4503599627370496 (-49)) in let* x6 := interval_format md x5 IISO8601 in Ok (bytes_eqb x6 (bs "P2Y7M268435474DT18H53M30.9725S"))]) = true.
Proof. vm_compute. reflexivity. Qed.
Example interval_test_cmp_operation : replay (fun md => [
  let* x1 := time_try_from_hms md 23 45 (S754_finite false 7991074588815524 (-47)) in let* x2 := time_try_from_hms md 12 56 (S754_finite false 7991074588815524 (-47)) in Ok (cmp_gt (Z.compare x1 x2));
  let* x1 := time_try_from_hms md 23 45 (S754_finite false 7991074588815524 (-47)) in let* x2 := time_try_from_hms md 12 56 (S754_finite false 7991074588815524 (-47)) in Ok (cmp_ge (Z.compare x1 x2));
  let* x1 := time_try_from_hms md 23 45 (S754_finite false 7991074588815524 (-47)) in Ok (Z.eqb x1 x1);
  let* x1 := time_try_from_hms md 23 45 (S754_finite false 7991074588815524 (-47)) in let* x2 := time_try_from_hms md 12 56 (S754_finite false 7991074588815524 (-47)) in Ok (negb (Z.eqb x1 x2));
  let* x1 := time_try_from_hms md 23 45 (S754_finite false 7991074588815524 (-47)) in let* x2 := time_try_from_hms md 12 56 (S754_finite false 7991074588815524 (-47)) in Ok (cmp_lt (Z.compare x2 x1));
  let* x1 := time_try_from_hms md 23 45 (S754_finite false 7991074588815524 (-47)) in let* x2 := time_try_from_hms md 12 56 (S754_finite false 7991074588815524 (-47)) in Ok (cmp_le (Z.compare x2 x1));
  let* x3 := time_try_from_hms md 24 0 (S754_zero false) in let* x4 := time_try_from_hms md 0 0 (S754_zero false) in Ok (cmp_gt (Z.compare x3 x4));
  let* x3 := time_try_from_hms md 24 0 (S754_zero false) in let* x4 := time_try_from_hms md 0 0 (S754_zero false) in Ok (cmp_ge (Z.compare x3 x4));
  let* x3 := time_try_from_hms md 24 0 (S754_zero false) in Ok (Z.eqb x3 x3);
  let* x3 := time_try_from_hms md 24 0 (S754_zero false) in let* x4 := time_try_from_hms md 0 0 (S754_zero false) in Ok (negb (Z.eqb x3 x4));
  let* x3 := time_try_from_hms md 24 0 (S754_zero false) in let* x4 := time_try_from_hms md 0 0 (S754_zero false) in Ok (cmp_lt (Z.compare x4 x3));
  let* x3 := time_try_from_hms md 24 0 (S754_zero false) in let* x4 := time_try_from_hms md 0 0 (S754_zero false) in Ok (cmp_le (Z.compare x4 x3));
  let* x5 := time_try_from_hms md 24 0 (S754_zero false) in let* x6 := time_try_from_hms md 12 1 (S754_finite false 4785074604081152 (-47)) in Ok (cmp_gt (Z.compare x5 x6));
  let* x5 := time_try_from_hms md 24 0 (S754_zero false) in let* x6 := time_try_from_hms md 12 1 (S754_finite false 4785074604081152 (-47)) in Ok (cmp_ge (Z.compare x5 x6));
  let* x5 := time_try_from_hms md 24 0 (S754_zero false) in Ok (Z.eqb x5 x5);
  let* x5 := time_try_from_hms md 24 0 (S754_zero false) in let* x6 := time_try_from_hms md 12 1 (S754_finite false 4785074604081152 (-47)) in Ok (negb (Z.eqb x5 x6));
  let* x5 := time_try_from_hms md 24 0 (S754_zero false) in let* x6 := time_try_from_hms md 12 1 (S754_finite false 4785074604081152 (-47)) in Ok (cmp_lt (Z.compare x6 x5));
  let* x5 := time_try_from_hms md 24 0 (S754_zero false) in let* x6 := time_try_from_hms md 12 1 (S754_finite false 4785074604081152 (-47)) in Ok (cmp_le (Z.compare x6 x5));
  let* x7 := date_try_from_ymd md 2019 7 2 in let* x8 := date_try_from_ymd md 2018 8 31 in Ok (cmp_gt (Z.compare x7 x8));
  let* x7 := date_try_from_ymd md 2019 7 2 in let* x8 := date_try_from_ymd md 2018 8 31 in Ok (cmp_ge (Z.compare x7 x8));
  let* x7 := date_try_from_ymd md 2019 7 2 in Ok (Z.eqb x7 x7);
  let* x7 := date_try_from_ymd md 2019 7 2 in let* x8 := date_try_from_ymd md 2018 8 31 in Ok (negb (Z.eqb x7 x8));
  let* x7 := date_try_from_ymd md 2019 7 2 in let* x8 := date_try_from_ymd md 2018 8 31 in Ok (cmp_lt (Z.compare x8 x7));
  let* x7 := date_try_from_ymd md 2019 7 2 in let* x8 := date_try_from_ymd md 2018 8 31 in Ok (cmp_le (Z.compare x8 x7));
  let* x9 := timestamp_try_from_ymd_hms md 2020 1 2 1 23 (S754_finite false 4894849844998308 (-47)) in let* x10 := timestamp_try_from_ymd_hms md 2019 10 12 11 43 (S754_finite false 7709599612104868 (-47)) in Ok (cmp_gt (Z.compare x9 x10));
  let* x9 := timestamp_try_from_ymd_hms md 2020 1 2 1 23 (S754_finite false 4894849844998308 (-47)) in let* x10 := timestamp_try_from_ymd_hms md 2019 10 12 11 43 (S754_finite false 7709599612104868 (-47)) in Ok (cmp_ge (Z.compare x9 x10));
  let* x9 := timestamp_try_from_ymd_hms md 2020 1 2 1 23 (S754_finite false 4894849844998308 (-47)) in Ok (Z.eqb x9 x9);
  let* x9 := timestamp_try_from_ymd_hms md 2020 1 2 1 23 (S754_finite false 4894849844998308 (-47)) in let* x10 := timestamp_try_from_ymd_hms md 2019 10 12 11 43 (S754_finite false 7709599612104868 (-47)) in Ok (negb (Z.eqb x9 x10));
  let* x9 := timestamp_try_from_ymd_hms md 2020 1 2 1 23 (S754_finite false 4894849844998308 (-47)) in let* x10 := timestamp_try_from_ymd_hms md 2019 10 12 11 43 (S754_finite false 7709599612104868 (-47)) in Ok (cmp_lt (Z.compare x10 x9));
  let* x9 := timestamp_try_from_ymd_hms md 2020 1 2 1 23 (S754_finite false 4894849844998308 (-47)) in let* x10 := timestamp_try_from_ymd_hms md 2019 10 12 11 43 (S754_finite false 7709599612104868 (-47)) in Ok (cmp_le (Z.compare x10 x9));
  let* x11 := interval_try_from_ymwd_hms 10 1 2 1 23 56 (S754_finite false 4894849844998308 (-47)) in let* x12 := interval_try_from_ymwd_hms 8 10 5 12 11 43 (S754_finite false 7709599612104868 (-47)) in Ok (cmp_gt (interval_cmp x11 x12));
  let* x11 := interval_try_from_ymwd_hms 10 1 2 1 23 56 (S754_finite false 4894849844998308 (-47)) in let* x12 := interval_try_from_ymwd_hms 8 10 5 12 11 43 (S754_finite false 7709599612104868 (-47)) in Ok (cmp_ge (interval_cmp x11 x12));
  let* x11 := interval_try_from_ymwd_hms 10 1 2 1 23 56 (S754_finite false 4894849844998308 (-47)) in Ok (interval_eqb x11 x11);
  let* x11 := interval_try_from_ymwd_hms 10 1 2 1 23 56 (S754_finite false 4894849844998308 (-47)) in let* x12 := interval_try_from_ymwd_hms 8 10 5 12 11 43 (S754_finite false 7709599612104868 (-47)) in Ok (negb (interval_eqb x11 x12));
  let* x11 := interval_try_from_ymwd_hms 10 1 2 1 23 56 (S754_finite false 4894849844998308 (-47)) in let* x12 := interval_try_from_ymwd_hms 8 10 5 12 11 43 (S754_finite false 7709599612104868 (-47)) in Ok (cmp_lt (interval_cmp x12 x11));
  let* x11 := interval_try_from_ymwd_hms 10 1 2 1 23 56 (S754_finite false 4894849844998308 (-47)) in let* x12 := interval_try_from_ymwd_hms 8 10 5 12 11 43 (S754_finite false 7709599612104868 (-47)) in Ok (cmp_le (interval_cmp x12 x11));
  let* x13 := interval_try_from_ymwd_hms 0 11 1 1 23 56 (S754_finite false 4894849844998308 (-47)) in let* x14 := interval_try_from_ymwd_hms 0 10 2 12 11 43 (S754_finite false 7709599612104868 (-47)) in Ok (cmp_gt (interval_cmp x13 x14));
  let* x13 := interval_try_from_ymwd_hms 0 11 1 1 23 56 (S754_finite false 4894849844998308 (-47)) in let* x14 := interval_try_from_ymwd_hms 0 10 2 12 11 43 (S754_finite false 7709599612104868 (-47)) in Ok (cmp_ge (interval_cmp x13 x14));
  let* x13 := interval_try_from_ymwd_hms 0 11 1 1 23 56 (S754_finite false 4894849844998308 (-47)) in Ok (interval_eqb x13 x13);
  let* x13 := interval_try_from_ymwd_hms 0 11 1 1 23 56 (S754_finite false 4894849844998308 (-47)) in let* x14 := interval_try_from_ymwd_hms 0 10 2 12 11 43 (S754_finite false 7709599612104868 (-47)) in Ok (negb (interval_eqb x13 x14));
  let* x13 := interval_try_from_ymwd_hms 0 11 1 1 23 56 (S754_finite false 4894849844998308 (-47)) in let* x14 := interval_try_from_ymwd_hms 0 10 2 12 11 43 (S754_finite false 7709599612104868 (-47)) in Ok (cmp_lt (interval_cmp x14 x13));
  let* x13 := interval_try_from_ymwd_hms 0 11 1 1 23 56 (S754_finite false 4894849844998308 (-47)) in let* x14 := interval_try_from_ymwd_hms 0 10 2 12 11 43 (S754_finite false 7709599612104868 (-47)) in Ok (cmp_le (interval_cmp x14 x13));
  let* x15 := interval_try_from_ymwd_hms 0 0 3 1 23 56 (S754_finite false 4894849844998308 (-47)) in let* x16 := interval_try_from_ymwd_hms 0 0 2 6 11 43 (S754_finite false 7709599612104868 (-47)) in Ok (cmp_gt (interval_cmp x15 x16));
  let* x17 := interval_try_from_ymwd_hms 0 0 0 7 22 56 (S754_finite false 4894849844998308 (-47)) in let* x18 := interval_try_from_ymwd_hms 0 0 0 6 23 43 (S754_finite false 7709599612104868 (-47)) in Ok (cmp_gt (interval_cmp x17 x18));
  let* x19 := interval_try_from_ymwd_hms 0 0 0 0 23 56 (S754_finite false 4894849844998308 (-47)) in let* x20 := interval_try_from_ymwd_hms 0 0 0 0 22 59 (S754_finite false 7709599612104868 (-47)) in Ok (cmp_gt (interval_cmp x19 x20));
  let* x21 := interval_try_from_ymwd_hms 0 0 0 0 0 56 (S754_finite false 4894849844998308 (-47)) in let* x22 := interval_try_from_ymwd_hms 0 0 0 0 0 47 (S754_finite false 7709599612104868 (-47)) in Ok (cmp_gt (interval_cmp x21 x22));
  let* x23 := interval_try_from_ymwd_hms 0 0 0 0 0 0 (S754_finite false 7991074588815524 (-47)) in let* x24 := interval_try_from_ymwd_hms 0 0 0 0 0 0 (S754_finite false 7709599612104868 (-47)) in Ok (cmp_gt (interval_cmp x23 x24));
  let* x25 := interval_try_from_ymwd_hms 0 0 0 0 0 0 (S754_finite false 7991215326303879 (-47)) in let* x26 := interval_try_from_ymwd_hms 0 0 0 0 0 0 (S754_finite false 7991074588815524 (-47)) in Ok (cmp_gt (interval_cmp x25 x26));
  let* x25 := interval_try_from_ymwd_hms 0 0 0 0 0 0 (S754_finite false 7991215326303879 (-47)) in let* x26 := interval_try_from_ymwd_hms 0 0 0 0 0 0 (S754_finite false 7991074588815524 (-47)) in Ok (ord_eqb (interval_cmp x25 x26) Gt);
  let* x25 := interval_try_from_ymwd_hms 0 0 0 0 0 0 (S754_finite false 7991215326303879 (-47)) in let* x26 := interval_try_from_ymwd_hms 0 0 0 0 0 0 (S754_finite false 7991074588815524 (-47)) in Ok (ord_eqb (interval_cmp x25 x26) Gt)]) = true.
Proof. vm_compute. reflexivity. Qed.

(** ** src/parse.rs and src/common.rs: the tests of internal functions *)
Definition fields_are (s : bytes) (ts : list token) : res bool :=
  let* r := parse_date_time s in
  Ok (forallb (fun p => match fst (fst p), fst (snd p) with
      | Some a, Some b => kcode a =? kcode b | _, _ => false end && bytes_eqb (snd (fst p)) (snd (snd p))) (combine r ts)
    && (Z.of_nat (List.length r) =? Z.of_nat (List.length ts))).
Definition num_is (s : bytes) (v : Z) : res bool := let* p := str2i32 s in Ok (fst p =? v).
Definition dbl_is (s : bytes) (v : f64) (rest : nat) : res bool :=
  let* p := str2d s in Ok (feq (fst p) v && Nat.eqb (List.length (snd p)) rest).
Definition clock_is (r : tmf * res unit) (h m s f : Z) : res bool :=
  let* _ := snd r in
  let '(tm, fs) := fst r in
  Ok ((tm_hour tm =? h) && (tm_min tm =? m) && (tm_sec tm =? s) && (fs =? f)).

Example parse_test_eat_whitespace : replay (fun _ => [
  Ok (bytes_eqb (eat_whitespaces (bs "  1 23  ")) (bs "1 23  "));
  Ok (bytes_eqb (eat_whitespaces (bs " 23  ")) (bs "23  "));
  Ok (bytes_eqb (eat_whitespaces (bs "  ")) [])]) = true.
Proof. vm_compute. reflexivity. Qed.
Example parse_test_eat_digit : replay (fun _ => [
  Ok (bytes_eqb (fst (eat_digits (bs "1234"))) (bs "1234")); Ok (bytes_eqb (snd (eat_digits (bs "1234"))) []);
  Ok (bytes_eqb (fst (eat_digits (bs "1234abd"))) (bs "1234")); Ok (bytes_eqb (snd (eat_digits (bs "1234abd"))) (bs "abd"));
  Ok (bytes_eqb (fst (eat_digits (bs "abd123"))) []); Ok (bytes_eqb (snd (eat_digits (bs "abd123"))) (bs "abd123"))]) = true.
Proof. vm_compute. reflexivity. Qed.
Example parse_test_pare_date_time_digit_begin : replay (fun _ => [
  fields_are (bs "2000") [(Some KNumber, bs "2000")];
  fields_are (bs "14:20") [(Some KTime, bs "14:20")];
  fields_are (bs "2000-12") [(Some KDate, bs "2000-12")];
  fields_are (bs "2000/12") [(Some KDate, bs "2000/12")];
  fields_are (bs "2000.12") [(Some KNumber, bs "2000.12")];
  fields_are (bs "2000-12-12") [(Some KDate, bs "2000-12-12")];
  fields_are (bs "2000.12.12") [(Some KDate, bs "2000.12.12")];
  fields_are (bs "2000.am12") [(Some KDate, bs "2000.am12")]]) = true.
Proof. vm_compute. reflexivity. Qed.
Example parse_test_to_i32 : replay (fun _ => [
  num_is (bs "123") 123; num_is (bs "+123") 123; num_is (bs "-123") (-123); num_is (bs "abc") 0;
  num_is (bs "100abc123") 100; num_is (bs "2147483647") 2147483647;
  Ok (is_err (str2i32 (bs "2147483648"))); Ok (is_err (str2i32 (bs "2147483648000000"))); num_is (bs "+") 0]) = true.
Proof. vm_compute. reflexivity. Qed.
Example parse_test_decode_time_part_left : replay (fun md => [
  Ok (is_err (decode_time_part_left md (bs "10.23n") 83 false 40 f0 (tm_new, 56)));
  Ok (is_err (decode_time_part_left md (bs "10.23.45.0.45n") 83 false 40 f0 (tm_new, 56)));
  (let* x := decode_time_part_left md (bs "10:45") 83 false 40 f0 (tm_new, 0) in Ok (tm_sec (fst x) =? 45));
  Ok (is_err (decode_time_part_left md (bs "-10:3333377777777777777778888845") 83 false 40 f0 (tm_new, 0)))]) = true.
Proof. vm_compute. reflexivity. Qed.
Example parse_test_binary_search : replay (fun _ => [
  (let* r := search_delta_token (bs "microseconds") in Ok (is_some r));
  (let* r := search_delta_token (bs "microsecon") in Ok (is_some r));
  (let* r := search_delta_token (bs "microsec") in Ok (is_none r));
  (let* r := decode_units (bs "microsecon") in Ok (match fst r with UNITS => snd r =? 30 | _ => false end));
  (let* r := decode_units (bs "microseconds") in Ok (match fst r with UNITS => snd r =? 30 | _ => false end))]) = true.
Proof. vm_compute. reflexivity. Qed.
Example parse_test_to_double : replay (fun _ => [
  dbl_is (bs ".23456") (S754_finite false 8450914628768188 (-55)) 0; dbl_is (bs "+") f0 0; dbl_is (bs "23.23456") (S754_finite false 6539947234882339 (-48)) 0; dbl_is (bs "+23.23456") (S754_finite false 6539947234882339 (-48)) 0;
  dbl_is (bs "-23.23456") (S754_finite true 6539947234882339 (-48)) 0; dbl_is (bs "-23.23456s3") (S754_finite true 6539947234882339 (-48)) 2; dbl_is (bs "23.23456s3") (S754_finite false 6539947234882339 (-48)) 2;
  dbl_is [] f0 0]) = true.
Proof. vm_compute. reflexivity. Qed.
Example parse_test_parse_frac_second : replay (fun md => [
  (let* v := parse_fractional_second md (bs ".2345") in Ok (v =? 234500));
  (let* v := parse_fractional_second md (bs ".1234567") in Ok (v =? 123457));
  (let* v := parse_fractional_second md (bs ".1") in Ok (v =? 100000));
  Ok (is_err (parse_fractional_second md (bs ".1b")))]) = true.
Proof. vm_compute. reflexivity. Qed.
Example parse_test_decode_number : replay (fun md => let st := mkN 0 tm_new 0 false in [
  Ok (is_err (decode_number md (bs "b222222") false 0 st YMD));
  Ok (is_err (decode_number md (bs "222f") false 0 st YMD));
  Ok (is_err (decode_number md (bs "22222222222222222222222222222222") false 0 st YMD));
  (let* x := decode_number md (bs "19881216") false 0 st YMD in Ok (tm_year (n_tm x) =? 19881216));
  (let* x := decode_number md (bs "19881216") false 0 st YMD in
   let* x := decode_number md (bs "123022.23") false 0 x YMD in
   Ok ((tm_hour (n_tm x) =? 12) && (tm_min (n_tm x) =? 30) && (tm_sec (n_tm x) =? 22) && (n_fsec x =? 230000)));
  (let* x := decode_number md (bs "12.23") false 0 st YMD in Ok (n_fsec x =? 230000))]) = true.
Proof. vm_compute. reflexivity. Qed.
Example parse_test_decode_time : replay (fun md => [
  Ok (is_err (snd (decode_time md (bs "12") 0 (tm_new, 0))));
  Ok (is_err (snd (decode_time md (bs "12y") 0 (tm_new, 0))));
  Ok (is_err (snd (decode_time md (bs "12:-12:-34.345") 0 (tm_new, 0))));
  Ok (is_err (snd (decode_time md (bs "12:12y") 0 (tm_new, 0))));
  Ok (is_err (snd (decode_time md (bs "12:12:34y") 0 (tm_new, 0))));
  clock_is (decode_time md (bs "12:34") INTERVAL_MASK_MS (tm_new, 0)) 0 12 34 0;
  clock_is (decode_time md (bs "12:23.34") INTERVAL_MASK_MS (tm_new, 0)) 0 12 23 340000]) = true.
Proof. vm_compute. reflexivity. Qed.
Example parse_test_decode_date : replay (fun md => [
  Ok (is_err (decode_date_time md YMD [(Some KAgo, bs "34")]))]) = true.
Proof. vm_compute. reflexivity. Qed.
Example common_test_pg_ltostr : replay (fun _ => [let* s := pg_ltostr (-123456) in Ok (bytes_eqb s (bs "-123456"))]) = true.
Proof. vm_compute. reflexivity. Qed.

(** ** The two assertions that differ *)

(** src/date.rs, [tets_date_from_str]: the test expects an error for a text that ends in a sign. The
    tokenizer stores no type for such a field (src/parse.rs:274), so the decoder reads memory
    that was never written; the model reports that instead of guessing a value. *)
Example date_lone_sign : forallb (fun md => match date_try_from_str md (bs " +") MDY with Fault _ => true | _ => false end)
  [Debug; Release] = true.
Proof. vm_compute. reflexivity. Qed.

(** src/interval.rs, [test_try_from_ymwd_hms]: the test casts an infinite double to i64 and
    expects i64::MIN, which compilers before Rust 1.45 gave on x86-64 (there the cast was
    undefined). Since then such casts saturate, which is what the model does, and the last
    digit differs. *)
Example interval_saturating_cast :
  forallb (fun md => holds (let* a := interval_try_from_ymwd_hms 2147483647 2147483647 2147483647 2147483647 2147483647 2147483647
    (S754_finite false 9007199254740991 971) in
  let* s := interval_format md a IISO8601 in Ok (bytes_eqb s (bs "P178956969Y7M-8DT-378772746H-53M-54.775809S"))))
  [Debug; Release] = true.
Proof. vm_compute. reflexivity. Qed.
