(** Model of src/token.rs: keyword tables, lookup, and the token field codes. *)
From Verif Require Export Model.Common.

(** src/token.rs:184-226 [TokenField] (constructors prefixed with K) *)
Inductive tfield :=
| KNumber | KString | KDate | KTime | KTz | KAgo | KSpecial | KInvalid | KCurrent | KEarly
| KLate | KEpoch | KNow | KYesterday | KToday | KTomorrow | KZulu | KDelta | KSecond | KMinute
| KHour | KDay | KWeek | KMonth | KQuarter | KYear | KDecade | KCentury | KMillennium
| KMillisec | KMicrosec | KJulian | KDow | KDoy | KTzHour | KTzMinute | KIsoyear | KIsodow.

(** All of them in discriminant order, src/token.rs:185-225 *)
Definition tfields : list tfield :=
  [KNumber; KString; KDate; KTime; KTz; KAgo; KSpecial; KInvalid; KCurrent; KEarly;
   KLate; KEpoch; KNow; KYesterday; KToday; KTomorrow; KZulu; KDelta; KSecond; KMinute;
   KHour; KDay; KWeek; KMonth; KQuarter; KYear; KDecade; KCentury; KMillennium;
   KMillisec; KMicrosec; KJulian; KDow; KDoy; KTzHour; KTzMinute; KIsoyear; KIsodow].

(** Derived equality, src/token.rs:182 *)
Definition tfield_eq_dec (a b : tfield) : {a = b} + {a <> b}.
Proof. decide equality. Defined.
Definition tfeq (a b : tfield) : bool := if tfield_eq_dec a b then true else false.

(** Discriminants, src/token.rs:228-233 [TokenField::value] *)
Definition kcode (k : tfield) : Z :=
  match k with
  | KNumber => 0 | KString => 1 | KDate => 2 | KTime => 3 | KTz => 4 | KAgo => 5 | KSpecial => 6
  | KInvalid => 7 | KCurrent => 8 | KEarly => 9 | KLate => 10 | KEpoch => 11 | KNow => 12
  | KYesterday => 13 | KToday => 14 | KTomorrow => 15 | KZulu => 16 | KDelta => 17
  | KSecond => 18 | KMinute => 19 | KHour => 20 | KDay => 21 | KWeek => 22 | KMonth => 23
  | KQuarter => 24 | KYear => 25 | KDecade => 26 | KCentury => 27 | KMillennium => 28
  | KMillisec => 29 | KMicrosec => 30 | KJulian => 31 | KDow => 32 | KDoy => 33
  | KTzHour => 34 | KTzMinute => 35 | KIsoyear => 36 | KIsodow => 37
  end.

(** src/token.rs:235-250 [TryFrom<i32> for TokenField]: the range test
    `value < 0 && value > 37` is never true, so an invalid code is transmuted (undefined
    behaviour). *)
Definition tfield_of (v : Z) : res tfield :=
  if v <? 0 then Fault FTransmute
  else match nth_error tfields (Z.to_nat v) with Some k => Ok k | None => Fault FTransmute end.

Definition tt_eq_dec (a b : token_type) : {a = b} + {a <> b}.
Proof. decide equality. Defined.
Definition tteq (a b : token_type) : bool := if tt_eq_dec a b then true else false.

(** src/token.rs:53-63 [DateToken] *)
Record date_token := mkToken { dt_token : bytes; dt_ty : token_type; dt_value : Z }.
Definition tok (s : String.string) (ty : token_type) (v : Z) : date_token := mkToken (bs s) ty v.

(** src/token.rs:21-22 *)
Definition MAX_DATE_FIELDS := 25.
Definition MAX_TOKEN_LEN : nat := 10.

(** src/token.rs:72-77 *)
Definition AM := 0.
Definition PM := 1.
Definition HR24 := 2.
Definition BC := 1.

(** src/token.rs:254-536 DATE_TOKEN_TABLE; generated from the source text by a script *)
Definition DATE_TOKEN_TABLE : list date_token := [
  tok "-infinity"%string RESERV 9;
  tok "acsst"%string DTZ 37800;
  tok "acst"%string DTZ (-14400);
  tok "act"%string TZ (-18000);
  tok "ad"%string ADBC 0;
  tok "adt"%string DTZ (-10800);
  tok "aesst"%string DTZ 39600;
  tok "aest"%string TZ 36000;
  tok "aft"%string TZ 16200;
  tok "ahst"%string TZ (-36000);
  tok "akdt"%string DTZ (-28800);
  tok "akst"%string DTZ (-32400);
  tok "allballs"%string RESERV 16;
  tok "almst"%string TZ 25200;
  tok "almt"%string TZ 21600;
  tok "am"%string AMPM 0;
  tok "amst"%string DTZ 18000;
  tok "amt"%string TZ 14400;
  tok "anast"%string DTZ 46800;
  tok "anat"%string TZ 43200;
  tok "apr"%string MONTH 4;
  tok "april"%string MONTH 4;
  tok "art"%string TZ (-10800);
  tok "ast"%string TZ (-14400);
  tok "at"%string IgnoreDtf 0;
  tok "aug"%string MONTH 8;
  tok "august"%string MONTH 8;
  tok "awsst"%string DTZ 32400;
  tok "awst"%string TZ 28800;
  tok "awt"%string DTZ (-10800);
  tok "azost"%string DTZ 0;
  tok "azot"%string TZ (-3600);
  tok "azst"%string DTZ 18000;
  tok "azt"%string TZ 14400;
  tok "bc"%string ADBC 1;
  tok "bdst"%string TZ 7200;
  tok "bdt"%string TZ 21600;
  tok "bnt"%string TZ 28800;
  tok "bort"%string TZ 28800;
  tok "bot"%string TZ (-14400);
  tok "bra"%string TZ (-10800);
  tok "bst"%string DTZ 3600;
  tok "bt"%string TZ 10800;
  tok "btt"%string TZ 21600;
  tok "cadt"%string DTZ 37800;
  tok "cast"%string TZ 34200;
  tok "cat"%string TZ (-36000);
  tok "cct"%string TZ 28800;
  tok "cdt"%string DTZ (-18000);
  tok "cest"%string DTZ 7200;
  tok "cet"%string TZ 3600;
  tok "cetdst"%string DTZ 7200;
  tok "chadt"%string DTZ 49500;
  tok "chast"%string TZ 45900;
  tok "ckt"%string TZ 43200;
  tok "clst"%string DTZ (-10800);
  tok "clt"%string TZ (-14400);
  tok "cot"%string TZ (-18000);
  tok "cst"%string TZ (-21600);
  tok "current"%string RESERV 8;
  tok "cvt"%string TZ 25200;
  tok "cxt"%string TZ 25200;
  tok "d"%string UNITS 21;
  tok "davt"%string TZ 25200;
  tok "ddut"%string TZ 36000;
  tok "dec"%string MONTH 12;
  tok "december"%string MONTH 12;
  tok "dnt"%string TZ 3600;
  tok "dow"%string UNITS 32;
  tok "doy"%string UNITS 33;
  tok "dst"%string DTZMOD 3600;
  tok "easst"%string DTZ (-18000);
  tok "east"%string TZ (-21600);
  tok "eat"%string TZ 10800;
  tok "edt"%string DTZ (-14400);
  tok "eest"%string DTZ 10800;
  tok "eet"%string TZ 7200;
  tok "eetdst"%string DTZ 10800;
  tok "egst"%string DTZ 0;
  tok "egt"%string TZ (-3600);
  tok "epoch"%string RESERV 11;
  tok "est"%string TZ (-18000);
  tok "fe"%string MONTH 2;
  tok "february"%string MONTH 2;
  tok "fjst"%string DTZ (-46800);
  tok "fjt"%string TZ (-43200);
  tok "fkst"%string DTZ (-10800);
  tok "fkt"%string TZ (-7200);
  tok "fri"%string DOW 5;
  tok "friday"%string DOW 5;
  tok "fst"%string TZ 3600;
  tok "fwt"%string DTZ 7200;
  tok "galt"%string TZ (-21600);
  tok "gamt"%string TZ (-32400);
  tok "gest"%string DTZ 18000;
  tok "get"%string TZ 14400;
  tok "gft"%string TZ (-10800);
  tok "gilt"%string TZ 43200;
  tok "gmt"%string TZ 0;
  tok "gst"%string TZ 36000;
  tok "gyt"%string TZ (-14400);
  tok "h"%string UNITS 20;
  tok "hdt"%string DTZ (-32400);
  tok "hkt"%string TZ 28800;
  tok "hst"%string TZ (-36000);
  tok "ict"%string TZ 25200;
  tok "idle"%string TZ 43200;
  tok "idlw"%string TZ (-43200);
  tok "infinity"%string RESERV 10;
  tok "invalid"%string RESERV 7;
  tok "iot"%string TZ 18000;
  tok "irkst"%string DTZ 32400;
  tok "irkt"%string TZ 28800;
  tok "irt"%string TZ 12600;
  tok "isodow"%string UNITS 37;
  tok "ist"%string TZ 7200;
  tok "it"%string TZ 12600;
  tok "j"%string UNITS 31;
  tok "jan"%string MONTH 1;
  tok "january"%string MONTH 1;
  tok "javt"%string TZ 25200;
  tok "jayt"%string TZ 32400;
  tok "jd"%string UNITS 31;
  tok "jst"%string TZ 32400;
  tok "jt"%string TZ 27000;
  tok "jul"%string MONTH 7;
  tok "julian"%string UNITS 31;
  tok "july"%string MONTH 7;
  tok "jun"%string MONTH 6;
  tok "june"%string MONTH 6;
  tok "kdt"%string DTZ 36000;
  tok "kgst"%string DTZ 21600;
  tok "kgt"%string TZ 18000;
  tok "kost"%string TZ 43200;
  tok "krast"%string DTZ 25200;
  tok "krat"%string TZ 28800;
  tok "kst"%string TZ 32400;
  tok "lhdt"%string DTZ 39600;
  tok "lhst"%string TZ 37800;
  tok "ligt"%string TZ 36000;
  tok "lint"%string TZ 50400;
  tok "lkt"%string TZ 21600;
  tok "m"%string UNITS 23;
  tok "magst"%string DTZ 43200;
  tok "magt"%string TZ 39600;
  tok "mar"%string MONTH 3;
  tok "march"%string MONTH 3;
  tok "mart"%string TZ (-34200);
  tok "mawt"%string TZ 21600;
  tok "may"%string MONTH 5;
  tok "mdt"%string DTZ (-21600);
  tok "mest"%string DTZ 7200;
  tok "met"%string TZ 3600;
  tok "metdst"%string DTZ 7200;
  tok "mewt"%string TZ 3600;
  tok "mez"%string TZ 3600;
  tok "mht"%string TZ 43200;
  tok "mm"%string UNITS 19;
  tok "mmt"%string TZ 23400;
  tok "mon"%string DOW 1;
  tok "monday"%string DOW 1;
  tok "mpt"%string TZ 36000;
  tok "msd"%string DTZ 14400;
  tok "msk"%string TZ 10800;
  tok "mst"%string TZ (-25200);
  tok "mt"%string TZ 30600;
  tok "mut"%string TZ 14400;
  tok "mvt"%string TZ 18000;
  tok "myt"%string TZ 28800;
  tok "nct"%string TZ 39600;
  tok "ndt"%string DTZ (-9000);
  tok "nft"%string TZ (-12600);
  tok "nor"%string TZ 3600;
  tok "nov"%string MONTH 11;
  tok "november"%string MONTH 11;
  tok "novst"%string DTZ 25200;
  tok "novt"%string TZ 21600;
  tok "now"%string RESERV 12;
  tok "npt"%string TZ 20700;
  tok "nst"%string TZ (-12600);
  tok "nt"%string TZ (-39600);
  tok "nut"%string TZ (-39600);
  tok "nzdt"%string DTZ 46800;
  tok "nzst"%string TZ 43200;
  tok "nzt"%string TZ 43200;
  tok "oct"%string MONTH 10;
  tok "october"%string MONTH 10;
  tok "omsst"%string DTZ 25200;
  tok "omst"%string TZ 21600;
  tok "on"%string IgnoreDtf 0;
  tok "pdt"%string DTZ (-25200);
  tok "pet"%string TZ (-18000);
  tok "petst"%string DTZ 46800;
  tok "pett"%string TZ 43200;
  tok "pgt"%string TZ 36000;
  tok "phot"%string TZ 46800;
  tok "pht"%string TZ 28800;
  tok "pkt"%string TZ 18000;
  tok "pm"%string AMPM 1;
  tok "pmdt"%string DTZ (-7200);
  tok "pont"%string TZ 39600;
  tok "pst"%string TZ (-28800);
  tok "pwt"%string TZ 32400;
  tok "pyst"%string DTZ (-10800);
  tok "pyt"%string TZ (-14400);
  tok "ret"%string DTZ 14400;
  tok "s"%string UNITS 18;
  tok "sadt"%string DTZ 37800;
  tok "sast"%string TZ 34200;
  tok "sat"%string DOW 6;
  tok "saturday"%string DOW 6;
  tok "sct"%string DTZ 14400;
  tok "sep"%string MONTH 9;
  tok "sept"%string MONTH 9;
  tok "september"%string MONTH 9;
  tok "set"%string TZ (-3600);
  tok "sst"%string DTZ 7200;
  tok "sun"%string DOW 0;
  tok "sunday"%string DOW 0;
  tok "swt"%string TZ 3600;
  tok "t"%string ISOTIME 3;
  tok "tft"%string TZ 18000;
  tok "that"%string TZ (-36000);
  tok "thu"%string DOW 4;
  tok "thur"%string DOW 4;
  tok "thurs"%string DOW 4;
  tok "thursday"%string DOW 4;
  tok "tjt"%string TZ 18000;
  tok "tkt"%string TZ (-36000);
  tok "tmt"%string TZ 18000;
  tok "today"%string RESERV 14;
  tok "tomorrow"%string RESERV 15;
  tok "tot"%string TZ 46800;
  tok "truk"%string TZ 36000;
  tok "tue"%string DOW 2;
  tok "tues"%string DOW 2;
  tok "tuesday"%string DOW 2;
  tok "tvt"%string TZ 43200;
  tok "ulast"%string DTZ 32400;
  tok "ulat"%string TZ 28800;
  tok "undefined"%string RESERV 7;
  tok "ut"%string TZ 0;
  tok "utc"%string TZ 0;
  tok "uyst"%string DTZ (-7200);
  tok "uyt"%string TZ (-10800);
  tok "uzst"%string DTZ 21600;
  tok "uzt"%string TZ 18000;
  tok "vet"%string TZ (-14400);
  tok "vlast"%string DTZ 39600;
  tok "vlat"%string TZ 36000;
  tok "vut"%string TZ 39600;
  tok "wadt"%string DTZ 28800;
  tok "wakt"%string TZ 43200;
  tok "wast"%string TZ 25200;
  tok "wat"%string TZ (-3600);
  tok "wdt"%string DTZ 32400;
  tok "wed"%string DOW 3;
  tok "wednesday"%string DOW 3;
  tok "weds"%string DOW 3;
  tok "west"%string DTZ 3600;
  tok "wet"%string TZ 0;
  tok "wetdst"%string DTZ 3600;
  tok "wft"%string TZ 43200;
  tok "wgst"%string DTZ (-7200);
  tok "wgt"%string TZ (-10800);
  tok "wst"%string TZ 28800;
  tok "y"%string UNITS 25;
  tok "yakst"%string DTZ 36000;
  tok "yakt"%string TZ 32400;
  tok "yapt"%string TZ 36000;
  tok "ydt"%string DTZ (-28800);
  tok "yekst"%string DTZ 21600;
  tok "yekt"%string TZ 18000;
  tok "yesterday"%string RESERV 13;
  tok "yst"%string TZ (-32400);
  tok "z"%string TZ 0;
  tok "zp4"%string TZ (-14400);
  tok "zp5"%string TZ (-18000);
  tok "zp6"%string TZ (-21600);
  tok "zulu"%string TZ 0
].

(** src/token.rs:538-603 DELTA_TOKEN_TABLE; generated from the source text by a script *)
Definition DELTA_TOKEN_TABLE : list date_token := [
  tok "@"%string IgnoreDtf 0;
  tok "ago"%string AGO 0;
  tok "c"%string UNITS 27;
  tok "cent"%string UNITS 27;
  tok "centuries"%string UNITS 27;
  tok "century"%string UNITS 27;
  tok "d"%string UNITS 21;
  tok "day"%string UNITS 21;
  tok "days"%string UNITS 21;
  tok "dec"%string UNITS 26;
  tok "decade"%string UNITS 26;
  tok "decades"%string UNITS 26;
  tok "decs"%string UNITS 26;
  tok "h"%string UNITS 20;
  tok "hour"%string UNITS 20;
  tok "hours"%string UNITS 20;
  tok "hr"%string UNITS 20;
  tok "hrs"%string UNITS 20;
  tok "invalid"%string RESERV 7;
  tok "m"%string UNITS 19;
  tok "microsecon"%string UNITS 30;
  tok "mil"%string UNITS 28;
  tok "millennia"%string UNITS 28;
  tok "millennium"%string UNITS 28;
  tok "millisecon"%string UNITS 29;
  tok "mils"%string UNITS 28;
  tok "min"%string UNITS 19;
  tok "mins"%string UNITS 19;
  tok "minute"%string UNITS 19;
  tok "minutes"%string UNITS 19;
  tok "mon"%string UNITS 23;
  tok "mons"%string UNITS 23;
  tok "month"%string UNITS 23;
  tok "months"%string UNITS 23;
  tok "ms"%string UNITS 29;
  tok "msec"%string UNITS 29;
  tok "msecond"%string UNITS 29;
  tok "mseconds"%string UNITS 29;
  tok "msecs"%string UNITS 29;
  tok "qtr"%string UNITS 24;
  tok "quarter"%string UNITS 24;
  tok "s"%string UNITS 18;
  tok "sec"%string UNITS 18;
  tok "second"%string UNITS 18;
  tok "seconds"%string UNITS 18;
  tok "secs"%string UNITS 18;
  tok "timezone"%string UNITS 4;
  tok "timezone_h"%string UNITS 34;
  tok "timezone_m"%string UNITS 35;
  tok "undefined"%string RESERV 7;
  tok "us"%string UNITS 30;
  tok "usec"%string UNITS 30;
  tok "usecond"%string UNITS 30;
  tok "useconds"%string UNITS 30;
  tok "usecs"%string UNITS 30;
  tok "w"%string UNITS 22;
  tok "week"%string UNITS 22;
  tok "weeks"%string UNITS 22;
  tok "y"%string UNITS 25;
  tok "year"%string UNITS 25;
  tok "years"%string UNITS 25;
  tok "yr"%string UNITS 25;
  tok "yrs"%string UNITS 25
].

(** Lexicographic comparison of byte strings, `Ord for [u8]` *)
Fixpoint bcmp (a b : bytes) : comparison :=
  match a, b with
  | [], [] => Eq
  | [], _ :: _ => Lt
  | _ :: _, [] => Gt
  | x :: a', y :: b' => match x ?= y with Eq => bcmp a' b' | c => c end
  end.

(** Equality of byte strings *)
Fixpoint beq (a b : bytes) : bool :=
  match a, b with
  | [], [] => true
  | x :: a', y :: b' => (x =? y) && beq a' b'
  | _, _ => false
  end.

(** `slice::binary_search_by_key` of Rust's core library (rust/library/core/src/slice/mod.rs):
    [base] and [size] of its loop; [fuel] only has to reach the number of halvings. *)
Fixpoint bsearch (fuel : nat) (table : list date_token) (key : bytes) (base size : nat)
  : res nat :=
  match fuel with
  | O => Fault FFuel
  | S f =>
      if Nat.leb size 1 then Ok base
      else
        let half := Nat.div2 size in
        let mid := (base + half)%nat in
        match nth_error table mid with
        | None => Fault FIndex
        | Some t =>
            let base' := match bcmp (dt_token t) key with Gt => base | _ => mid end in
            bsearch f table key base' (size - half)
        end
  end.

(** Truncation to MAX_TOKEN_LEN bytes, src/token.rs:608-612, src/parse.rs:633-637, 2666-2670 *)
Definition token_key (key : bytes) : bytes := firstn MAX_TOKEN_LEN key.

(** src/token.rs:606-618 [date_token_binary_search] *)
Definition token_search (table : list date_token) (key : bytes) : res (option date_token) :=
  let key := token_key key in
  match table with
  | [] => Ok None
  | _ =>
      let* i := bsearch (S (length table)) table key 0 (length table) in
      match nth_error table i with
      | None => Fault FIndex
      | Some t => Ok (match bcmp (dt_token t) key with Eq => Some t | _ => None end)
      end
  end.

(** src/token.rs:621-628 *)
Definition search_date_token (key : bytes) : res (option date_token) :=
  token_search DATE_TOKEN_TABLE key.
Definition search_delta_token (key : bytes) : res (option date_token) :=
  token_search DELTA_TOKEN_TABLE key.

(** The per-thread keyword caches DATE_CACHE (src/parse.rs:616) and DELTA_CACHE
    (src/parse.rs:2651): one optional table entry per field position. *)
Definition cache := list (option date_token).
Definition cache_new : cache := repeat None 25.

Fixpoint set_nth {A} (n : nat) (x : A) (l : list A) : list A :=
  match l, n with
  | [], _ => []
  | _ :: r, O => x :: r
  | y :: r, S n' => y :: set_nth n' x r
  end.

(** src/parse.rs:616-653 [decode_special] and 2651-2685 [decode_units], which differ only in the
    cache and the table: the (type, value) found and the new cache. *)
Definition decode_cached (table : list date_token) (c : cache) (field : nat) (low_token : bytes)
  : res ((token_type * Z) * cache) :=
  match nth_error c field with
  | None => Fault FIndex
  | Some tp =>
      let key := token_key low_token in
      let* tp :=
        match tp with
        | Some t => if beq key (dt_token t) then Ok (Some t) else token_search table key
        | None => token_search table key
        end in
      match tp with
      | None => Ok ((UnknownField, 0), c)
      | Some t => Ok ((dt_ty t, dt_value t), set_nth field (Some t) c)
      end
  end.

(** The same look-ups without the cache. Simplification: the parser model below uses these;
    Proofs/TokenP.v shows that [decode_cached] returns the same for every cache content that any
    sequence of calls can produce. *)
Definition decode_nocache (table : list date_token) (low_token : bytes) : res (token_type * Z) :=
  let* tp := token_search table (token_key low_token) in
  match tp with
  | None => Ok (UnknownField, 0)
  | Some t => Ok (dt_ty t, dt_value t)
  end.
Definition decode_special (low_token : bytes) : res (token_type * Z) :=
  decode_nocache DATE_TOKEN_TABLE low_token.
Definition decode_units (low_token : bytes) : res (token_type * Z) :=
  decode_nocache DELTA_TOKEN_TABLE low_token.
