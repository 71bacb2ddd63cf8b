(** Model of the same parsing functions with the per-thread keyword caches of src/parse.rs:616
    (DATE_CACHE) and 2651 (DELTA_CACHE) made explicit. Model/Parse.v looks keywords up without
    cache; here every lookup reads and writes the cache slot of the field position that the source
    passes. Functions that look nothing up are shared with Model/Parse.v. *)
From Verif Require Export Model.Parse.

(** The two thread-local arrays: src/parse.rs:616, 2651 *)
Record caches := mkCaches { k_date : cache; k_delta : cache }.
(** Their initial value on a new thread: src/parse.rs:616, 2651 *)
Definition caches_new : caches := mkCaches cache_new cache_new.

(** A computation that may read and write the caches. What was stored before an error or a panic
    stays stored. *)
Definition cst (A : Type) : Type := caches -> caches * res A.
Definition liftc {A} (r : res A) : cst A := fun k => (k, r).
Definition bindc {A B} (m : cst A) (f : A -> cst B) : cst B := fun k =>
  let '(k, r) := m k in
  match r with Ok a => f a k | Err e => (k, Err e) | Fault x => (k, Fault x) end.
Notation "'let+' x := m 'in' k" := (bindc m (fun x => k))
  (at level 200, x name, m at level 100, k at level 200).

(** src/parse.rs:629-653 [decode_special] *)
Definition special_c (field : nat) (low_token : bytes) : cst (token_type * Z) := fun k =>
  match decode_cached DATE_TOKEN_TABLE (k_date k) field low_token with
  | Ok (r, c) => (mkCaches c (k_delta k), Ok r)
  | Err e => (k, Err e)
  | Fault x => (k, Fault x)
  end.

(** src/parse.rs:2661-2687 [decode_units] *)
Definition units_c (field : nat) (low_token : bytes) : cst (token_type * Z) := fun k =>
  match decode_cached DELTA_TOKEN_TABLE (k_delta k) field low_token with
  | Ok (r, c) => (mkCaches (k_date k) c, Ok r)
  | Err e => (k, Err e)
  | Fault x => (k, Fault x)
  end.

(** src/parse.rs:878-917 and 1264-1303 (see [text_month]); [i] is the position of the part within
    the date field *)
Fixpoint text_month_c (i : nat) (parts : list bytes) (f_mask t_mask : Z) (tm : pgtime) (have : bool)
  : cst (list (option bytes) * Z * Z * pgtime * bool) :=
  match parts with
  | [] => liftc (Ok ([], f_mask, t_mask, tm, have))
  | f :: rest =>
      let keep :=
        let+ q := text_month_c (S i) rest f_mask t_mask tm have in
        liftc (let '(fs, fm, t, tm', h) := q in Ok (Some f :: fs, fm, t, tm', h)) in
      match f with
      | c :: _ =>
          if is_alpha c then
            let+ tv := special_c i f in
            let '(ty, val) := tv in
            if tteq ty IgnoreDtf then keep
            else if tteq ty MONTH then
              if has f_mask (mask MONTH) then liftc (Err EInvalid)
              else
                let+ q := text_month_c (S i) rest (Z.lor f_mask (mask MONTH))
                            (Z.lor t_mask (mask MONTH)) (set_mon val tm) true in
                liftc (let '(fs, fm, t, tm', h) := q in Ok (None :: fs, fm, t, tm', h))
            else liftc (Err EInvalid)
          else keep
      | [] => keep
      end
  end.

(** src/parse.rs:834-958 [decode_date], 1222-1344 [DecodeDateTimeCtx::decode_date] *)
Definition decode_date_c (md : mode) (str : bytes) (f_mask : Z) (d2 : bool) (tm : pgtime)
  (order : date_order) : cst (Z * pgtime * bool) :=
  let+ parts := liftc (date_parts (S (length str)) 0 str) in
  let+ q := text_month_c 0 parts f_mask 0 tm false in
  liftc
    (let '(parts, f_mask, t_mask, tm, have) := q in
     let* q := number_parts md parts have order f_mask t_mask tm d2 0 in
     let '(f_mask, t_mask, tm, d2) := q in
     if negb (Z.land f_mask (Z.lnot (Z.lor (mask DOY) (mask TZ))) =? DTK_DATE_M) then Err EInvalid
     else Ok (t_mask, tm, d2)).

(** [self.decode_date(..)] *)
Definition ctx_decode_date_c (md : mode) (str : bytes) (order : date_order) (c : ctx) : cst ctx :=
  let+ q := decode_date_c md str (c_fmask c) (c_2d c) (c_tm c) order in
  liftc (let '(t, tm, d2) := q in Ok (c_set_tmask t (c_set_tm tm (c_set_2d d2 c)))).

(** src/parse.rs:1346-1432 [DecodeDateTimeCtx::decode_date_token] *)
Definition decode_date_token_c (md : mode) (field : bytes) (order : date_order) (c : ctx) : cst ctx :=
  if tfeq (c_ptype c) KJulian || negb (is_num (c_ptype c))
     || (Z.land (c_fmask c) DTK_MONTH_DAY_M =? DTK_MONTH_DAY_M)
  then liftc (decode_date_token md field order c)
  else ctx_decode_date_c md field order c.

(** src/parse.rs:1434-1619 [DecodeDateTimeCtx::decode_number_token] *)
Definition decode_number_token_c (md : mode) (str : bytes) (order : date_order) (c : ctx) : cst ctx :=
  if is_num (c_ptype c) && negb (blen (before 46 str) =? blen str)
     && (Z.land (c_fmask c) DTK_DATE_M =? 0) && (blen str <=? 14)
  then ctx_decode_date_c md str order c
  else liftc (decode_number_token md str order c).

(** src/parse.rs:1621-1791 [decode_string_and_special_token] after the lookup at 1636 *)
Definition string_token_c (id : nat) (field : bytes) (next : option token) (c : ctx)
  : cst (option ctx) :=
  let+ tv := special_c id field in
  liftc
   (let '(ty, val) := tv in
    if tteq ty IgnoreDtf then Ok None
    else
    let c := c_set_tmask (mask ty) c in
    let* c :=
      match ty with
      | RESERV =>
          let* k := tfield_of val in
          match k with
          | KCurrent | KNow | KYesterday | KToday | KTomorrow => Err EInvalid
          | KZulu =>
              Ok (c_set_dtype KDate (c_set_tmask (Z.lor DTK_TIME_M (mask TZ))
                   (c_set_tm (set_sec 0 (set_min 0 (set_hour 0 (c_tm c)))) c)))
          | _ => Ok (c_set_dtype k c)
          end
      | MONTH =>
          let tm := c_tm c in
          let c :=
            if has (c_fmask c) (mask MONTH) && negb (c_tmon c) && negb (has (c_fmask c) (mask DAY))
               && (1 <=? tm_mon tm) && (tm_mon tm <=? 31)
            then c_set_tmask (mask DAY) (c_set_tm (set_mday (tm_mon tm) tm) c) else c in
          Ok (c_set_tm (set_mon val (c_tm c)) (c_set_tmon true c))
      | AMPM => Ok (c_set_mer val c)
      | ADBC => Ok (c_set_bc (val =? BC) c)
      | DOW => Ok (c_set_tm (set_wday val (c_tm c)) c)
      | UNITS => let* k := tfield_of val in Ok (c_set_ptype k (c_set_tmask 0 c))
      | ISOTIME =>
          let c := c_set_tmask 0 c in
          if negb (Z.land (c_fmask c) DTK_DATE_M =? DTK_DATE_M) then Err EInvalid
          else
            match next with
            | None => Fault FIndex
            | Some (t, _) =>
                let* k := read_type t in
                if negb (time_like k) then Err EInvalid
                else let* k := tfield_of val in Ok (c_set_ptype k c)
            end
      | _ => Err EInvalid
      end in
    Ok (Some c)).

(** src/parse.rs:1807-1866: one field of [decode_date_time], at position [id] *)
Definition date_time_field_c (md : mode) (order : date_order) (id : nat) (t : token)
  (next : option token) (c : ctx) : cst ctx :=
  let field := snd t in
  match fst t with
  | Some KDate => let+ c := decode_date_token_c md field order c in liftc (merge_mask c)
  | Some KNumber => let+ c := decode_number_token_c md field order c in liftc (merge_mask c)
  | Some KString | Some KSpecial =>
      let+ o := string_token_c id field next c in
      liftc (match o with None => Ok c | Some c => merge_mask c end)
  | _ => liftc (date_time_field md order t next c)
  end.

(** src/parse.rs:1806-1867 *)
Fixpoint date_time_fields_c (md : mode) (order : date_order) (id : nat) (ts : list token) (c : ctx)
  : cst ctx :=
  match ts with
  | [] => liftc (Ok c)
  | t :: rest =>
      let+ c := date_time_field_c md order id t (hd_error rest) c in
      date_time_fields_c md order (S id) rest c
  end.

(** src/parse.rs:1794-1892 [decode_date_time] *)
Definition decode_date_time_c (md : mode) (order : date_order) (ts : list token)
  : cst (pgtime * tfield * Z) :=
  let+ c := date_time_fields_c md order 0 ts ctx_new in
  liftc
   (let* tm := validate_date md (c_fmask c) (c_julian c) (c_2d c) (c_bc c) (c_tm c) in
    let* tm := apply_mer md (c_mer c) tm in
    if tfeq (c_dtype c) KDate && negb (Z.land (c_fmask c) DTK_DATE_M =? DTK_DATE_M) then
      if Z.land (c_fmask c) DTK_TIME_M =? DTK_TIME_M then Ok (tm, c_dtype c, c_fsec c)
      else Err EInvalid
    else Ok (tm, c_dtype c, c_fsec c)).

(** src/date.rs:201-252 [Date::try_from_str] *)
Definition date_try_from_str_c (md : mode) (s : bytes) (order : date_order) : cst Z :=
  let+ ts := liftc (parse_date_time s) in
  let+ q := decode_date_time_c md order ts in
  liftc
   (let '(tm, k, _) := q in
    match k with
    | KDate =>
        if negb (is_valid_julian (tm_year tm) (tm_mon tm)) then Err EInvalid
        else
          let* j := date2julian md (tm_year tm) (tm_mon tm) (tm_mday tm) in
          let* d := sub32 md j POSTGRES_EPOCH_JDATE in
          if negb (is_valid_date d) then Err EInvalid else Ok d
    | KLate => Ok i32_max
    | KEarly => Ok i32_min
    | _ => Err EInvalid
    end).

(** src/timestamp.rs:149-190 [Timestamp::try_from_str] *)
Definition timestamp_try_from_str_c (md : mode) (s : bytes) (type_mod : Z) (order : date_order)
  : cst Z :=
  let+ ts := liftc (parse_date_time s) in
  let+ q := decode_date_time_c md order ts in
  liftc
   (let '(tm, k, fsec) := q in
    let* v :=
      match k with
      | KDate => to_timestamp md tm fsec
      | KLate => Ok i64_max
      | KEarly => Ok i64_min
      | _ => Err EInvalid
      end in
    timestamp_adjust_by_typmod md v type_mod).

(** ** Time of day *)

(** src/parse.rs:1925-2011 [DecodeTimeOnlyCtx::decode_date_token] *)
Definition time_date_token_c (md : mode) (id : nat) (types : list (option tfield)) (field : bytes)
  (order : date_order) (c : ctx) : cst ctx :=
  let n := length types in
  if Nat.eqb id 0 && Nat.leb 2 n then
    let+ last := liftc (read_type (nth (n - 1) types None)) in
    let+ yes :=
      liftc (if tfeq last KDate then Ok true
             else let* second := read_type (nth 1 types None) in Ok (tfeq second KTime)) in
    if yes : bool then ctx_decode_date_c md field order c else liftc (Err EInvalid)
  else liftc (Err EInvalid).

(** src/parse.rs:2013-2220 [DecodeTimeOnlyCtx::decode_number_token] *)
Definition time_number_token_c (md : mode) (id : nat) (types : list (option tfield)) (field : bytes)
  (order : date_order) (c : ctx) : cst ctx :=
  if negb (is_num (c_ptype c)) || (blen (before 46 field) =? blen field) then
    liftc (time_number_token md id types field order c)
  else
    let n := length types in
    let+ is_date :=
      liftc (if Nat.eqb id 0 && Nat.leb 2 n then
               let* last := read_type (nth (n - 1) types None) in Ok (tfeq last KDate)
             else Ok false) in
    if is_date : bool then ctx_decode_date_c md field order c
    else if 2 <? blen (before 46 field) then
      liftc (ctx_number_field field (Z.lor (c_fmask c) DTK_DATE_M) c)
    else liftc (Err EInvalid).

(** src/parse.rs:2222-2326 [DecodeTimeOnlyCtx::decode_string_and_special_token], lookup at 2237 *)
Definition time_string_token_c (id : nat) (field : bytes) (next : option token) (c : ctx)
  : cst (option ctx) :=
  let+ tv := special_c id field in
  liftc
   (let '(ty, val) := tv in
    if tteq ty IgnoreDtf then Ok None
    else
    let c := c_set_tmask (mask ty) c in
    let* c :=
      match ty with
      | RESERV =>
          let* k := tfield_of val in
          match k with
          | KZulu =>
              Ok (c_set_dtype KTime (c_set_tmask (Z.lor DTK_TIME_M (mask TZ))
                   (c_set_tm (set_isdst 0 (set_sec 0 (set_min 0 (set_hour 0 (c_tm c))))) c)))
          | _ => Err EInvalid
          end
      | AMPM => Ok (c_set_mer val c)
      | ADBC => Ok (c_set_bc (val =? BC) c)
      | UNITS => let* k := tfield_of val in Ok (c_set_ptype k (c_set_tmask 0 c))
      | ISOTIME =>
          let c := c_set_tmask 0 c in
          match next with
          | None => Err EInvalid
          | Some (t, _) =>
              let* k := read_type t in
              if negb (time_like k) then Err EInvalid
              else let* k := tfield_of val in Ok (c_set_ptype k c)
          end
      | _ => Err EInvalid
      end in
    Ok (Some c)).

(** src/parse.rs:2342-2385: one field of [decode_time_only], at position [id] *)
Definition time_only_field_c (md : mode) (order : date_order) (id : nat)
  (types : list (option tfield)) (t : token) (next : option token) (c : ctx) : cst ctx :=
  let field := snd t in
  match fst t with
  | Some KDate => let+ c := time_date_token_c md id types field order c in liftc (merge_mask c)
  | Some KNumber => let+ c := time_number_token_c md id types field order c in liftc (merge_mask c)
  | Some KString | Some KSpecial =>
      let+ o := time_string_token_c id field next c in
      liftc (match o with None => Ok c | Some c => merge_mask c end)
  | _ => liftc (time_only_field md order id types t next c)
  end.

(** src/parse.rs:2341-2386 *)
Fixpoint time_only_fields_c (md : mode) (order : date_order) (id : nat)
  (types : list (option tfield)) (ts : list token) (c : ctx) : cst ctx :=
  match ts with
  | [] => liftc (Ok c)
  | t :: rest =>
      let+ c := time_only_field_c md order id types t (hd_error rest) c in
      time_only_fields_c md order (S id) types rest c
  end.

(** src/parse.rs:2329-2415 [decode_time_only] *)
Definition decode_time_only_c (md : mode) (order : date_order) (ts : list token) : cst tmf :=
  let+ c := time_only_fields_c md order 0 (List.map fst ts) ts ctx_new in
  liftc
   (let* tm := validate_date md (c_fmask c) (c_julian c) (c_2d c) (c_bc c) (c_tm c) in
    let* tm := apply_mer md (c_mer c) tm in
    if (tm_hour tm <? 0) || (tm_min tm <? 0) || (MINS_PER_HOUR - 1 <? tm_min tm)
       || (tm_sec tm <? 0) || (SECS_PER_MINUTE <? tm_sec tm) || (HOURS_PER_DAY <? tm_hour tm)
       || ((tm_hour tm =? HOURS_PER_DAY)
           && ((0 <? tm_min tm) || (0 <? tm_sec tm) || (0 <? c_fsec c)))
       || (c_fsec c <? 0) || (USECS_PER_SEC <? c_fsec c)
    then Err EOverflow
    else Ok (tm, c_fsec c)).

(** src/time.rs:105-131 [Time::try_from_str] *)
Definition time_try_from_str_c (md : mode) (s : bytes) (type_mod : Z) (order : date_order) : cst Z :=
  let+ ts := liftc (parse_date_time s) in
  let+ x := decode_time_only_c md order ts in
  liftc (let* t := time_from_pgtime md (fst x) (snd x) in time_adjust_by_typmod md t type_mod).

(** ** Intervals *)

(** A computation on the caches and (tm, fsec) *)
Definition ctm (A : Type) : Type := caches -> caches * tm_step A.
Definition ctm_lift {A} (m : tm_step A) : ctm A := fun k => (k, m).
Definition ctm_bind {A B} (m : ctm A) (f : tmf -> A -> ctm B) : ctm B := fun k =>
  let '(k, (x, r)) := m k in
  match r with Ok a => f x a k | Err e => (k, (x, Err e)) | Fault y => (k, (x, Fault y)) end.

(** src/parse.rs:2715-2811: one field of [decode_interval], at position [id]; lookup at 2775 *)
Definition interval_field_c (md : mode) (range : Z) (id : nat) (t : token) (i : ist) (x : tmf)
  : ctm ist :=
  let field := snd t in
  match fst t with
  | Some KString | Some KSpecial => fun k =>
      let '(k, r) := units_c id field k in
      (k, match r with
          | Err e => (x, Err e)
          | Fault f => (x, Fault f)
          | Ok (ty, val) =>
              match ty with
              | IgnoreDtf => (x, Ok i)
              | UNITS => merge_i 0 (i_set_ty val i) x
              | AGO => merge_i 0 (mkI val (i_fmask i) true (i_dtype i)) x
              | RESERV =>
                  match tfield_of val with
                  | Ok k => merge_i (Z.lor DTK_DATE_M DTK_TIME_M)
                              (mkI (i_ty i) (i_fmask i) (i_before i) k) x
                  | Err e => (x, Err e)
                  | Fault f => (x, Fault f)
                  end
              | _ => (x, Err EInvalid)
              end
          end)
  | _ => ctm_lift (interval_field md range t i x)
  end.

(** src/parse.rs:2713-2813: the fields are visited from the last to the first, [n] of them left *)
Fixpoint interval_fields_c (md : mode) (range : Z) (n : nat) (rev_ts : list token) (i : ist)
  (x : tmf) : ctm ist :=
  match rev_ts with
  | [] => ctm_lift (x, Ok i)
  | t :: rest =>
      ctm_bind (interval_field_c md range (n - 1) t i x)
        (fun x i => interval_fields_c md range (n - 1) rest i x)
  end.

(** src/parse.rs:2696-2886 [decode_interval] *)
Definition decode_interval_c (md : mode) (ts : list token) (range : Z) (style : interval_style)
  (x : tmf) : ctm tfield :=
  let x := (fst x, 0) in
  ctm_bind
    (interval_fields_c md range (length ts) (rev ts) (mkI (tt_code IgnoreDtf) 0 false KDelta) x)
    (fun x i => ctm_lift
      (if i_fmask i =? 0 then (x, Err EInvalid)
       else
         step x <- carry_fsec md x in
         match ts with
         | [] => (x, Fault FIndex)
         | t :: rest =>
             let sql := match style with ISQLStandard => true | _ => false end in
             match starts_minus (snd t), sql with
             | Fault f, true => (x, Fault f)
             | m, _ =>
                 let minus := match m with Ok b => b | _ => false end in
                 let x := if sql && minus && negb (existsb starts_sign rest)
                          then force_negative x else x in
                 step x <- (if i_before i then negate_all md x else (x, Ok tt)) in
                 (x, Ok (i_dtype i))
             end
         end)).

(** src/interval.rs:535-585 [Interval::try_from_str] *)
Definition interval_try_from_str_c (md : mode) (s : bytes) (type_mod : Z) (style : interval_style)
  : cst interval :=
  let range := if 0 <=? type_mod then interval_range type_mod else INTERVAL_FULL_RANGE in
  let+ ts := liftc (parse_date_time s) in
  fun k =>
  let '(k, (x, r)) := decode_interval_c md ts range style (tm_new, 0) k in
  (k,
  let* q :=
    match r with
    | Ok k => Ok (x, k)
    | Err EInvalid => let* x := decode_iso8601_interval md s x in Ok (x, KDelta)
    | Err e => Err e
    | Fault f => Fault f
    end in
  let '(x, k) := q in
  let* a :=
    match k with
    | KDelta => interval_from_pgtime md (fst x) (snd x)
    | _ => Err EInvalid
    end in
  interval_adjust_by_typmod md a type_mod).

(** ** Threads *)

(** The calls of the public API that reach the caches *)
Inductive call :=
| CallDate (s : bytes) (order : date_order)
| CallTime (s : bytes) (type_mod : Z) (order : date_order)
| CallTimestamp (s : bytes) (type_mod : Z) (order : date_order)
| CallInterval (s : bytes) (type_mod : Z) (style : interval_style).
(** What a call returns: a day count or microseconds, or an interval *)
Inductive reply := RNum (r : res Z) | RInterval (r : res interval).

(** One call on a thread whose caches hold [k] *)
Definition perform (md : mode) (c : call) (k : caches) : caches * reply :=
  match c with
  | CallDate s o => let '(k, r) := date_try_from_str_c md s o k in (k, RNum r)
  | CallTime s m o => let '(k, r) := time_try_from_str_c md s m o k in (k, RNum r)
  | CallTimestamp s m o => let '(k, r) := timestamp_try_from_str_c md s m o k in (k, RNum r)
  | CallInterval s m st => let '(k, r) := interval_try_from_str_c md s m st k in (k, RInterval r)
  end.

(** A history of calls on one thread: the replies in order *)
Fixpoint history (md : mode) (cs : list call) (k : caches) : caches * list reply :=
  match cs with
  | [] => (k, [])
  | c :: rest =>
      let '(k, r) := perform md c k in
      let '(k, rs) := history md rest k in (k, r :: rs)
  end.
