(** Model of src/parse.rs: splitting text into fields and decoding them, and of the
    `try_from_str` functions of src/date.rs, src/time.rs, src/timestamp.rs, src/interval.rs. *)
From Verif Require Export Model.Common Model.DateTime Model.Token Model.Format.

(** ** Bytes *)

(** `u8::is_ascii_digit` *)
Definition is_digit (c : Z) : bool := (48 <=? c) && (c <=? 57).
(** `u8::is_ascii_uppercase` / lowercase / alphabetic / alphanumeric *)
Definition is_upper (c : Z) : bool := (65 <=? c) && (c <=? 90).
Definition is_lower (c : Z) : bool := (97 <=? c) && (c <=? 122).
Definition is_alpha (c : Z) : bool := is_upper c || is_lower c.
Definition is_alnum (c : Z) : bool := is_alpha c || is_digit c.
(** `u8::is_ascii_whitespace`: space, \t, \n, \x0C, \r *)
Definition is_space (c : Z) : bool :=
  (c =? 32) || (c =? 9) || (c =? 10) || (c =? 12) || (c =? 13).
(** `u8::is_ascii_punctuation` *)
Definition is_punct (c : Z) : bool :=
  ((33 <=? c) && (c <=? 47)) || ((58 <=? c) && (c <=? 64))
  || ((91 <=? c) && (c <=? 96)) || ((123 <=? c) && (c <=? 126)).
(** `to_ascii_lowercase` *)
Definition lower (c : Z) : Z := if is_upper c then c + 32 else c.
Definition lowers (s : bytes) : bytes := List.map lower s.

(** `iter().take_while(f).count()` and the two slices around it: src/parse.rs:24-76
    [eat_whitespaces], [eat_digits], [eat_alphabetics], [eat_special_chars], [eat_time], ... *)
Fixpoint eat (f : Z -> bool) (s : bytes) : bytes * bytes :=
  match s with
  | c :: r => if f c then let '(a, b) := eat f r in (c :: a, b) else ([], s)
  | [] => ([], [])
  end.

(** src/parse.rs:24-28 *)
Definition eat_whitespaces (s : bytes) : bytes := snd (eat is_space s).
(** src/parse.rs:30-34 *)
Definition eat_digits (s : bytes) := eat is_digit s.
(** src/parse.rs:36-40 *)
Definition eat_alphabetics (s : bytes) := eat is_alpha s.

(** src/parse.rs:79-86 [extract_sign] *)
Definition extract_sign (s : bytes) : Z * bytes :=
  match s with
  | c :: r => if c =? 43 then (1, r) else if c =? 45 then (-1, r) else (1, s)
  | [] => (1, s)
  end.

(** `s.iter().position` style search used through take_while: bytes before the first [c] *)
Definition before (c : Z) (s : bytes) : bytes := fst (eat (fun i => negb (i =? c)) s).

Definition blen (s : bytes) : Z := Z.of_nat (length s).

(** ** Splitting into fields *)

(** A field and its type; [None] is a type slot that was never written. *)
Definition token : Type := (option tfield * bytes)%type.

(** Copying a field of [n] bytes into the work buffer of which [room] bytes are free: `copy_slice`
    (src/common.rs:784-790) and indexing panic when it does not fit. Returns the free bytes left.
    src/parse.rs:164, 184, 232, 277 `split_at_mut`. *)
Definition use_buf (room : Z) (field : bytes) : res Z :=
  if blen field <=? room then Ok (room - blen field) else Fault FIndex.

(** src/parse.rs:90-134 [parse_date_time_for_digit_delim_begin]: [s] starts with the delimiter.
    Returns the type, the bytes to append to the field and the rest. *)
Definition digit_delim_begin (delim : Z) (s : bytes) : tfield * bytes * bytes :=
  let ty := if delim =? 46 then KNumber else KDate in
  match s with
  | [] => (ty, [delim], [])
  | c :: _ =>
      if is_digit c then
        let '(f1, s1) := eat_digits s in
        match s1 with
        | c1 :: _ =>
            if c1 =? delim then
              let '(f2, s2) := eat (fun i => (i =? delim) || is_digit i) s1 in
              (KDate, delim :: f1 ++ f2, s2)
            else (ty, delim :: f1, s1)
        | [] => (ty, delim :: f1, [])
        end
      else
        let '(f1, s1) := eat (fun i => (i =? delim) || is_alnum i) s in
        (KDate, delim :: lowers f1, s1)
  end.

(** src/parse.rs:138-167 [parse_date_time_for_digit_begin] *)
Definition digit_begin (s : bytes) : token * bytes :=
  let '(f0, s1) := eat_digits s in
  match s1 with
  | c :: r =>
      if c =? 58 then
        let '(f1, s2) := eat (fun i => is_digit i || (i =? 58) || (i =? 46)) s1 in
        ((Some KTime, f0 ++ f1), s2)
      else if (c =? 45) || (c =? 47) || (c =? 46) then
        let '(ty, f1, s2) := digit_delim_begin c r in
        ((Some ty, f0 ++ f1), s2)
      else ((Some KNumber, f0), s1)
  | [] => ((Some KNumber, f0), [])
  end.

(** src/parse.rs:171-187 [parse_date_time_for_dot_begin]; [s] is what follows the dot *)
Definition dot_begin (s : bytes) : token * bytes :=
  let '(f, s1) := eat_digits s in ((Some KNumber, 46 :: f), s1).

(** src/parse.rs:217-225: the bytes accepted after the letters of a date-like word *)
Definition date_word_char (i : Z) : bool :=
  (i =? 43) || (i =? 45) || (i =? 47) || (i =? 95) || (i =? 46) || (i =? 58) || is_alnum i.

(** src/parse.rs:190-235 [parse_date_time_for_alpha_begin] *)
Definition alpha_begin (s : bytes) : res (token * bytes) :=
  let '(f, s1) := eat_alphabetics s in
  let f := lowers f in
  let* is_date :=
    match s1 with
    | c :: _ =>
        if (c =? 45) || (c =? 47) || (c =? 46) then Ok true
        else if (c =? 43) || is_digit c then
          let* t := search_date_token f in
          Ok (match t with None => true | Some _ => false end)
        else Ok false
    | [] => Ok false
    end in
  if is_date : bool then
    let '(f1, s2) := eat date_word_char s1 in Ok ((Some KDate, f ++ f1), s2)
  else Ok ((Some KString, f), s1).

(** src/parse.rs:239-280 [parse_date_time_for_sign_begin]; [sign] is the first byte, [s] the rest.
    With nothing after the sign no type is stored (line 274). *)
Definition sign_begin (sign : Z) (s : bytes) : res (token * bytes) :=
  let s := eat_whitespaces s in
  match s with
  | [] => Ok ((None, [sign]), [])
  | c :: _ =>
      if is_digit c then
        let '(f, s1) := eat (fun i => is_digit i || (i =? 58) || (i =? 46) || (i =? 45)) s in
        Ok ((Some KTz, sign :: f), s1)
      else if is_alpha c then
        let '(f, s1) := eat_alphabetics s in Ok ((Some KSpecial, sign :: lowers f), s1)
      else Err EInvalid
  end.

(** src/parse.rs:328-394: the loop of [parse_date_time]; [n] fields so far, [room] free bytes.
    The bytes of a field are charged against the buffer when the field is complete; the real
    code writes them piecewise, which differs only in which of the pieces of the same field
    panics. The sign of a signed field is written before the following byte is examined
    (line 246), so with no room left that panic comes first. *)
Fixpoint tokenize (fuel : nat) (n room : Z) (s : bytes) : res (list token) :=
  match fuel with
  | O => Fault FFuel
  | S fuel' =>
      match eat_whitespaces s with
      | [] => Ok []
      | c :: r =>
          let s := c :: r in
          if MAX_DATE_FIELDS <=? n then Err EInvalid
          else
            let add (x : token * bytes) :=
              let '(t, rest) := x in
              let* room' := use_buf room (snd t) in
              let* ts := tokenize fuel' (n + 1) room' rest in
              Ok (t :: ts) in
            if is_digit c then add (digit_begin s)
            else if c =? 46 then add (dot_begin r)
            else if is_alpha c then let* x := alpha_begin s in add x
            else if (c =? 43) || (c =? 45) then
              let* _ := use_buf room [c] in
              let* x := sign_begin c r in add x
            else if is_punct c then tokenize fuel' n room (snd (eat is_punct s))
            else Err EInvalid
      end
  end.

(** src/parse.rs:306-397 [parse_date_time] *)
Definition parse_date_time (s : bytes) : res (list token) :=
  match s with
  | [] => Err EEmpty
  | _ => tokenize (S (length s)) 0 MAX_DATE_LEN s
  end.

(** ** Numbers *)

(** Value of a digit string, the folds at src/parse.rs:413-415, 450-456. At most 17 digits are
    ever folded, so the i64 accumulator cannot overflow. *)
Definition dval (acc : Z) (ds : bytes) : Z := fold_left (fun p i => p * 10 + (i - 48)) ds acc.

(** src/parse.rs:400-423 [str2i32] *)
Definition str2i32 (s : bytes) : res (Z * bytes) :=
  let s := eat_whitespaces s in
  match s with
  | [] => Ok (0, [])
  | _ =>
      let '(sign, s) := extract_sign s in
      let '(integral, s) := eat_digits s in
      if 10 <? blen integral then Err EOverflow
      else
        let v := dval 0 integral * sign in
        if in32b v then Ok (v, s) else Err EOverflow
  end.

(** src/parse.rs:426-464 [str2d] *)
Definition str2d (s : bytes) : res (f64 * bytes) :=
  let s := eat_whitespaces s in
  match s with
  | [] => Ok (f0, [])
  | _ =>
      let '(sign, s) := extract_sign s in
      let '(integral, s) := eat_digits s in
      if 10 <? blen integral then Err EOverflow
      else
        let '(fractional, s) :=
          match s with
          | c :: r => if c =? 46 then eat_digits r else ([], s)
          | [] => ([], s)
          end in
        if 7 <? blen fractional then Err EOverflow
        else
          let int := dval 0 integral in
          let val :=
            match fractional with
            | [] => f64_of_Z (int * sign)
            | _ => fdiv (f64_of_Z (dval int fractional * sign)) (f64_of_Z (10 ^ blen fractional))
            end in
          Ok (val, s)
  end.

(** `(x * 1_000_000_f64).round() as i64` *)
Definition usecs_of (x : f64) : Z := f64_to_i64 (fround (fmul x (f64_of_Z 1000000))).

(** src/parse.rs:656-672 [parse_fractional_second] *)
Definition parse_fractional_second (md : mode) (s : bytes) : res Z :=
  match s with
  | [] => match md with Debug => Fault FIndex | Release => Ok 0 end
  | c :: _ =>
      let* _ := debug_assert md (c =? 46) in
      let* p := str2d s in
      let '(frac, rest) := p in
      match rest with
      | [] => Ok (usecs_of frac)
      | _ => Err EInvalid
      end
  end.

(** What the numeric decoders write through their `&mut` parameters. *)
Record nst := mkN { n_tmask : Z; n_tm : pgtime; n_fsec : Z; n_2d : bool }.

Definition sub_bytes (s : bytes) (from len : nat) : bytes := firstn len (skipn from s).

(** src/parse.rs:541-614 [decode_number_field]. The state comes back also on error because
    src/parse.rs:700 ignores the error but keeps what was written. *)
Definition decode_number_field (str : bytes) (f_mask : Z) (st : nst) : nst * res tfield :=
  let count := length (before 46 str) in
  let tail (st : nst) (len : nat) : nst * res tfield :=
    if negb (Z.land f_mask DTK_TIME_M =? DTK_TIME_M) then
      if Nat.eqb len 6 then
        let st := mkN DTK_TIME_M (n_tm st) (n_fsec st) (n_2d st) in
        match str2i32 (skipn 4 str) with
        | Ok (v, _) =>
            let st := mkN DTK_TIME_M (set_sec v (n_tm st)) (n_fsec st) (n_2d st) in
            match str2i32 (sub_bytes str 2 2) with
            | Ok (v, _) =>
                let st := mkN DTK_TIME_M (set_min v (n_tm st)) (n_fsec st) (n_2d st) in
                match str2i32 (sub_bytes str 0 2) with
                | Ok (v, _) =>
                    (mkN DTK_TIME_M (set_hour v (n_tm st)) (n_fsec st) (n_2d st), Ok KTime)
                | Err e => (st, Err e)
                | Fault x => (st, Fault x)
                end
            | Err e => (st, Err e)
            | Fault x => (st, Fault x)
            end
        | Err e => (st, Err e)
        | Fault x => (st, Fault x)
        end
      else if Nat.eqb len 4 then
        let st := mkN DTK_TIME_M (set_sec 0 (n_tm st)) (n_fsec st) (n_2d st) in
        match str2i32 (skipn 2 str) with
        | Ok (v, _) =>
            let st := mkN DTK_TIME_M (set_min v (n_tm st)) (n_fsec st) (n_2d st) in
            match str2i32 (sub_bytes str 0 2) with
            | Ok (v, _) =>
                (mkN DTK_TIME_M (set_hour v (n_tm st)) (n_fsec st) (n_2d st), Ok KTime)
            | Err e => (st, Err e)
            | Fault x => (st, Fault x)
            end
        | Err e => (st, Err e)
        | Fault x => (st, Fault x)
        end
      else (st, Err EInvalid)
    else (st, Err EInvalid) in
  let len := length str in
  if negb (Nat.eqb len count) then
    match str2d (skipn count str) with
    | Ok (v, _) => tail (mkN (n_tmask st) (n_tm st) (usecs_of v) (n_2d st)) count
    | Err e => (st, Err e)
    | Fault x => (st, Fault x)
    end
  else if negb (Z.land f_mask DTK_DATE_M =? DTK_DATE_M) && Nat.leb 6 len then
    let st := mkN DTK_DATE_M (n_tm st) (n_fsec st) (n_2d st) in
    match str2i32 (skipn (len - 2) str) with
    | Ok (v, _) =>
        let st := mkN DTK_DATE_M (set_mday v (n_tm st)) (n_fsec st) (n_2d st) in
        match str2i32 (sub_bytes str (len - 4) 2) with
        | Ok (v, _) =>
            let st := mkN DTK_DATE_M (set_mon v (n_tm st)) (n_fsec st) (n_2d st) in
            match str2i32 (sub_bytes str 0 (len - 4)) with
            | Ok (v, _) =>
                (mkN DTK_DATE_M (set_year v (n_tm st)) (n_fsec st)
                   (if Nat.eqb (len - 4) 2 then true else n_2d st), Ok KDate)
            | Err e => (st, Err e)
            | Fault x => (st, Fault x)
            end
        | Err e => (st, Err e)
        | Fault x => (st, Fault x)
        end
    | Err e => (st, Err e)
    | Fault x => (st, Fault x)
    end
  else tail st len.

(** [decode_number_field(..)?] *)
Definition number_field (str : bytes) (f_mask : Z) (st : nst) : res (nst * tfield) :=
  let '(st, r) := decode_number_field str f_mask st in
  let* k := r in Ok (st, k).

Definition is_ymd (o : date_order) : bool := match o with YMD => true | _ => false end.

(** src/parse.rs:678-823 [decode_number] *)
Definition decode_number (md : mode) (str : bytes) (have_text_month : bool) (f_mask : Z)
  (st : nst) (order : date_order) : res nst :=
  let st := mkN 0 (n_tm st) (n_fsec st) (n_2d st) in
  let* p := str2i32 str in
  let '(val, s) := p in
  if beq s str then Err EInvalid
  else
    (** the part from line 714 on *)
    let finish (st : nst) : res nst :=
      let len := blen str in
      let tm := n_tm st in
      let date := Z.land f_mask DTK_DATE_M in
      let put (m : Z) (tm : pgtime) (d2 : bool) : res nst :=
        Ok (mkN m tm (n_fsec st) (if m =? mask YEAR then len <=? 2 else d2)) in
      if (len =? 3) && (date =? mask YEAR) && (1 <=? val) && (val <=? 366) then
        Ok (mkN (Z.lor (Z.lor (mask DOY) (mask MONTH)) (mask DAY)) (set_yday val tm) (n_fsec st)
              (n_2d st))
      else if date =? 0 then
        if (3 <=? len) || is_ymd order then put (mask YEAR) (set_year val tm) (n_2d st)
        else if is_dmy order then put (mask DAY) (set_mday val tm) (n_2d st)
        else put (mask MONTH) (set_mon val tm) (n_2d st)
      else if date =? DTK_YEAR_M then put (mask MONTH) (set_mon val tm) (n_2d st)
      else if date =? DTK_MONTH_M then
        if have_text_month then
          if (3 <=? len) || is_ymd order then put (mask YEAR) (set_year val tm) (n_2d st)
          else put (mask DAY) (set_mday val tm) (n_2d st)
        else put (mask DAY) (set_mday val tm) (n_2d st)
      else if date =? DTK_YEAR_MONTH_M then
        if have_text_month && ((3 <=? len) && n_2d st) then
          put (mask DAY) (set_year val (set_mday (tm_year tm) tm)) false
        else put (mask DAY) (set_mday val tm) (n_2d st)
      else if date =? DTK_DAY_M then put (mask MONTH) (set_mon val tm) (n_2d st)
      else if date =? DTK_MONTH_DAY_M then put (mask YEAR) (set_year val tm) (n_2d st)
      else if date =? DTK_DATE_M then
        let* q := number_field str f_mask st in Ok (fst q)
      else Err EInvalid in
    match s with
    | [] => finish st
    | c :: _ =>
        if c =? 46 then
          if 2 <? blen str - blen s then
            (** line 700: the error is dropped, the writes are kept *)
            let '(st', r) := decode_number_field str (Z.lor f_mask DTK_DATE_M) st in
            match r with Fault x => Fault x | _ => Ok st' end
          else
            let* fs := parse_fractional_second md s in
            finish (mkN (n_tmask st) (n_tm st) fs (n_2d st))
        else Err EInvalid
    end.

(** ** Dates *)

(** src/parse.rs:851-876 (and 1237-1262): split a date field into runs of digits and runs of
    letters; separators are skipped. At most 25 parts are taken. *)
Fixpoint date_parts (fuel : nat) (nf : Z) (s : bytes) : res (list bytes) :=
  match fuel with
  | O => Fault FFuel
  | S fuel' =>
      match s with
      | [] => Ok []
      | _ =>
          if MAX_DATE_FIELDS <=? nf then Ok []
          else
            match snd (eat (fun i => negb (is_alnum i)) s) with
            | [] => Err EInvalid
            | c :: r =>
                let '(f, p) := (if is_digit c then eat_digits (c :: r)
                                else eat_alphabetics (c :: r)) in
                let* fs := date_parts fuel' (nf + 1) p in
                Ok (f :: fs)
            end
      end
  end.

(** src/parse.rs:878-917 (and 1264-1303): find the textual month. State: f_mask, t_mask, tm,
    have_text_month; processed parts become None. *)
Fixpoint text_month (parts : list bytes) (f_mask t_mask : Z) (tm : pgtime) (have : bool)
  : res (list (option bytes) * Z * Z * pgtime * bool) :=
  match parts with
  | [] => Ok ([], f_mask, t_mask, tm, have)
  | f :: rest =>
      let keep :=
        let* q := text_month rest f_mask t_mask tm have in
        let '(fs, fm, t, tm', h) := q in Ok (Some f :: fs, fm, t, tm', h) in
      match f with
      | c :: _ =>
          if is_alpha c then
            let* tv := decode_special f in
            let '(ty, val) := tv in
            if tteq ty IgnoreDtf then keep
            else if tteq ty MONTH then
              if has f_mask (mask MONTH) then Err EInvalid
              else
                let* q := text_month rest (Z.lor f_mask (mask MONTH)) (Z.lor t_mask (mask MONTH))
                            (set_mon val tm) true in
                let '(fs, fm, t, tm', h) := q in Ok (None :: fs, fm, t, tm', h)
            else Err EInvalid
          else keep
      | [] => keep
      end
  end.

(** src/parse.rs:919-948 (and 1305-1334): decode the remaining parts. State: f_mask, t_mask, tm,
    is2digits, local fsec. *)
Fixpoint number_parts (md : mode) (parts : list (option bytes)) (have : bool) (order : date_order)
  (f_mask t_mask : Z) (tm : pgtime) (d2 : bool) (fsec : Z)
  : res (Z * Z * pgtime * bool) :=
  match parts with
  | [] => Ok (f_mask, t_mask, tm, d2)
  | None :: rest => number_parts md rest have order f_mask t_mask tm d2 fsec
  | Some f :: rest =>
      match f with
      | [] => Err EInvalid
      | _ =>
          let* st := decode_number md f have f_mask (mkN 0 tm fsec d2) order in
          if has f_mask (n_tmask st) then Err EInvalid
          else
            number_parts md rest have order (Z.lor f_mask (n_tmask st)) (Z.lor t_mask (n_tmask st))
              (n_tm st) (n_2d st) (n_fsec st)
      end
  end.

(** src/parse.rs:834-958 [decode_date] and its copy 1222-1344 [DecodeDateTimeCtx::decode_date]:
    new t_mask, tm and is2digits. *)
Definition decode_date (md : mode) (str : bytes) (f_mask : Z) (d2 : bool) (tm : pgtime)
  (order : date_order) : res (Z * pgtime * bool) :=
  let* parts := date_parts (S (length str)) 0 str in
  let* q := text_month parts f_mask 0 tm false in
  let '(parts, f_mask, t_mask, tm, have) := q in
  let* q := number_parts md parts have order f_mask t_mask tm d2 0 in
  let '(f_mask, t_mask, tm, d2) := q in
  if negb (Z.land f_mask (Z.lnot (Z.lor (mask DOY) (mask TZ))) =? DTK_DATE_M) then Err EInvalid
  else Ok (t_mask, tm, d2).

(** src/parse.rs:966-1047 [decode_time]: writes tm and fsec; t_mask is always DTK_TIME_M. The
    state is also returned on error, since an interval that fails to decode here is retried as
    ISO 8601 with the same tm. *)
Definition decode_time (md : mode) (field : bytes) (range : Z) (x : tmf) : tmf * res unit :=
  match str2i32 field with
  | Err e => (x, Err e)
  | Fault f => (x, Fault f)
  | Ok (v, s) =>
      let tm := set_hour v (fst x) in
      let fs := snd x in
      match s with
      | [] => ((tm, fs), Err EInvalid)
      | c :: s =>
          if negb (c =? 58) then ((tm, fs), Err EInvalid) else
          match str2i32 s with
          | Err e => ((tm, fs), Err e)
          | Fault f => ((tm, fs), Fault f)
          | Ok (v, s) =>
              let tm := set_min v tm in
              (** lines 1034-1046: sanity check *)
              let check (tm : pgtime) (fs : Z) : tmf * res unit :=
                if (tm_hour tm <? 0) || (tm_min tm <? 0) || (MINS_PER_HOUR - 1 <? tm_min tm)
                   || (tm_sec tm <? 0) || (SECS_PER_MINUTE <? tm_sec tm) || (fs <? 0)
                   || (USECS_PER_SEC <? fs)
                then ((tm, fs), Err EInvalid) else ((tm, fs), Ok tt) in
              match s with
              | [] =>
                  let tm := set_sec 0 tm in
                  if range =? INTERVAL_MASK_MS
                  then check (set_hour 0 (set_min (tm_hour tm) (set_sec (tm_min tm) tm))) 0
                  else check tm 0
              | c :: s' =>
                  if c =? 46 then
                    match parse_fractional_second md s with
                    | Err e => ((tm, fs), Err e)
                    | Fault f => ((tm, fs), Fault f)
                    | Ok fs => check (set_hour 0 (set_min (tm_hour tm) (set_sec (tm_min tm) tm))) fs
                    end
                  else if c =? 58 then
                    match str2i32 s' with
                    | Err e => ((tm, fs), Err e)
                    | Fault f => ((tm, fs), Fault f)
                    | Ok (v, s2) =>
                        let tm := set_sec v tm in
                        match s2 with
                        | [] => check tm 0
                        | c2 :: _ =>
                            if c2 =? 46 then
                              match parse_fractional_second md s2 with
                              | Err e => ((tm, fs), Err e)
                              | Fault f => ((tm, fs), Fault f)
                              | Ok fs => check tm fs
                              end
                            else ((tm, fs), Err EInvalid)
                        end
                    end
                  else ((tm, fs), Err EInvalid)
              end
          end
      end
  end.

(** [decode_time(..)?] *)
Definition time_field (md : mode) (field : bytes) (x : tmf) : res tmf :=
  let '(x, r) := decode_time md field INTERVAL_FULL_RANGE x in
  let* _ := r in Ok x.

(** src/parse.rs:1182-1195 [DecodeDateTimeCtx] together with the PgTime being filled; also used
    for [DecodeTimeOnlyCtx] (1895-1906), which has no have_text_month. *)
Record ctx := mkCtx {
  c_tm : pgtime; c_dtype : tfield; c_fsec : Z; c_fmask : Z; c_tmask : Z; c_ptype : tfield;
  c_julian : bool; c_2d : bool; c_bc : bool; c_mer : Z; c_tmon : bool }.

(** src/parse.rs:1197-1211, 1909-1922 *)
Definition ctx_new : ctx := mkCtx tm_new KDate 0 0 0 KNumber false false false HR24 false.

Definition c_set_tm v c := mkCtx v (c_dtype c) (c_fsec c) (c_fmask c) (c_tmask c) (c_ptype c) (c_julian c) (c_2d c) (c_bc c) (c_mer c) (c_tmon c).
Definition c_set_dtype v c := mkCtx (c_tm c) v (c_fsec c) (c_fmask c) (c_tmask c) (c_ptype c) (c_julian c) (c_2d c) (c_bc c) (c_mer c) (c_tmon c).
Definition c_set_fsec v c := mkCtx (c_tm c) (c_dtype c) v (c_fmask c) (c_tmask c) (c_ptype c) (c_julian c) (c_2d c) (c_bc c) (c_mer c) (c_tmon c).
Definition c_set_fmask v c := mkCtx (c_tm c) (c_dtype c) (c_fsec c) v (c_tmask c) (c_ptype c) (c_julian c) (c_2d c) (c_bc c) (c_mer c) (c_tmon c).
Definition c_set_tmask v c := mkCtx (c_tm c) (c_dtype c) (c_fsec c) (c_fmask c) v (c_ptype c) (c_julian c) (c_2d c) (c_bc c) (c_mer c) (c_tmon c).
Definition c_set_ptype v c := mkCtx (c_tm c) (c_dtype c) (c_fsec c) (c_fmask c) (c_tmask c) v (c_julian c) (c_2d c) (c_bc c) (c_mer c) (c_tmon c).
Definition c_set_julian v c := mkCtx (c_tm c) (c_dtype c) (c_fsec c) (c_fmask c) (c_tmask c) (c_ptype c) v (c_2d c) (c_bc c) (c_mer c) (c_tmon c).
Definition c_set_2d v c := mkCtx (c_tm c) (c_dtype c) (c_fsec c) (c_fmask c) (c_tmask c) (c_ptype c) (c_julian c) v (c_bc c) (c_mer c) (c_tmon c).
Definition c_set_bc v c := mkCtx (c_tm c) (c_dtype c) (c_fsec c) (c_fmask c) (c_tmask c) (c_ptype c) (c_julian c) (c_2d c) v (c_mer c) (c_tmon c).
Definition c_set_mer v c := mkCtx (c_tm c) (c_dtype c) (c_fsec c) (c_fmask c) (c_tmask c) (c_ptype c) (c_julian c) (c_2d c) (c_bc c) v (c_tmon c).
Definition c_set_tmon v c := mkCtx (c_tm c) (c_dtype c) (c_fsec c) (c_fmask c) (c_tmask c) (c_ptype c) (c_julian c) (c_2d c) (c_bc c) (c_mer c) v.

(** The numeric decoders write through references into the context. *)
Definition to_nst (c : ctx) : nst := mkN (c_tmask c) (c_tm c) (c_fsec c) (c_2d c).
Definition of_nst (n : nst) (c : ctx) : ctx :=
  c_set_tmask (n_tmask n) (c_set_tm (n_tm n) (c_set_fsec (n_fsec n) (c_set_2d (n_2d n) c))).

(** [self.decode_date(..)] *)
Definition ctx_decode_date (md : mode) (str : bytes) (order : date_order) (c : ctx) : res ctx :=
  let* q := decode_date md str (c_fmask c) (c_2d c) (c_tm c) order in
  let '(t, tm, d2) := q in Ok (c_set_tmask t (c_set_tm tm (c_set_2d d2 c))).

(** [decode_number_field(str, mask, &mut self..)] *)
Definition ctx_number_field (str : bytes) (f_mask : Z) (c : ctx) : res ctx :=
  let* q := number_field str f_mask (to_nst c) in Ok (of_nst (fst q) c).

(** [decode_number(str, false, mask, &mut self..)] *)
Definition ctx_decode_number (md : mode) (str : bytes) (f_mask : Z) (order : date_order) (c : ctx)
  : res ctx :=
  let* n := decode_number md str false f_mask (to_nst c) order in Ok (of_nst n c).

(** src/parse.rs:470-535 [decode_timezone] *)
Definition decode_timezone : res unit := Err EInvalid.

Definition is_num (k : tfield) : bool := tfeq k KNumber.

(** src/parse.rs:1346-1432 [DecodeDateTimeCtx::decode_date_token] *)
Definition decode_date_token (md : mode) (field : bytes) (order : date_order) (c : ctx) : res ctx :=
  if tfeq (c_ptype c) KJulian then
    let* p := str2i32 field in
    let* q := julian2date md (fst p) in
    let* _ := decode_timezone in Ok c
  else if negb (is_num (c_ptype c))
          || (Z.land (c_fmask c) DTK_MONTH_DAY_M =? DTK_MONTH_DAY_M) then
    match field with
    | ch :: _ =>
        if is_digit ch || negb (is_num (c_ptype c)) then
          if negb (is_num (c_ptype c)) then
            if negb (tfeq (c_ptype c) KTime) then Err EInvalid
            else
              let c := c_set_ptype KNumber c in
              if Z.land (c_fmask c) DTK_TIME_M =? DTK_TIME_M then Err EInvalid
              else if Nat.eqb (length (before 45 field)) (length field) then Err EInvalid
              else let* _ := decode_timezone in Ok c
          else Ok c
        else Err EInvalid
    | [] => Ok c
    end
  else ctx_decode_date md field order c.

(** Only these prefixes may be followed by a number with a decimal point: src/parse.rs:1447-1456, 2040-2049 *)
Definition dot_prefix (k : tfield) : bool := tfeq k KJulian || tfeq k KTime || tfeq k KSecond.

(** src/parse.rs:1444-1561 and 2024-2157: a number after a unit prefix such as "y" or "h".
    The Tz prefix (2097-2100, time only) always fails. *)
Definition prefixed_number (md : mode) (str : bytes) (c : ctx) : res ctx :=
  let* p := str2i32 str in
  let '(val, s) := p in
  let dot := match s with c :: _ => c =? 46 | [] => false end in
  let* _ :=
    match s with
    | [] => Ok tt
    | _ => if dot && dot_prefix (c_ptype c) then Ok tt else Err EInvalid
    end in
  let tm := c_tm c in
  let* c :=
    match c_ptype c with
    | KYear => Ok (c_set_tmask (mask YEAR) (c_set_tm (set_year val tm) c))
    | KMonth =>
        if has (c_fmask c) (mask MONTH) && has (c_fmask c) (mask HOUR)
        then Ok (c_set_tmask (mask MINUTE) (c_set_tm (set_min val tm) c))
        else Ok (c_set_tmask (mask MONTH) (c_set_tm (set_mon val tm) c))
    | KDay => Ok (c_set_tmask (mask DAY) (c_set_tm (set_mday val tm) c))
    | KHour => Ok (c_set_tmask (mask HOUR) (c_set_tm (set_hour val tm) c))
    | KMinute => Ok (c_set_tmask (mask MINUTE) (c_set_tm (set_min val tm) c))
    | KSecond =>
        let c := c_set_tmask (mask SECOND) (c_set_tm (set_sec val tm) c) in
        if dot then
          let* fs := parse_fractional_second md s in
          Ok (c_set_tmask DTK_ALL_SECS_M (c_set_fsec fs c))
        else Ok c
    | KJulian =>
        if val <? 0 then Err EOverflow
        else
          let* q := julian2date md val in
          let '(y, m, d) := q in
          let c := c_set_julian true (c_set_tmask DTK_DATE_M (c_set_tm (set_ymd y m d tm) c)) in
          if dot then
            let* q := str2d s in
            let time := fmul (fst q) (f64_of_Z USECS_PER_DAY) in
            let* q := date2time md (f64_to_i64 time) in
            let '(h, mi, se, fs) := q in
            Ok (c_set_tmask (Z.lor DTK_DATE_M DTK_TIME_M)
                  (c_set_fsec fs (c_set_tm (set_sec se (set_min mi (set_hour h (c_tm c)))) c)))
          else Ok c
    | KTime =>
        let* c := ctx_number_field str (Z.lor (c_fmask c) DTK_DATE_M) c in
        if negb (c_tmask c =? DTK_TIME_M) then Err EInvalid else Ok c
    | _ => Err EInvalid
    end in
  Ok (c_set_dtype KDate (c_set_ptype KNumber c)).

(** src/parse.rs:1434-1619 [DecodeDateTimeCtx::decode_number_token] *)
Definition decode_number_token (md : mode) (str : bytes) (order : date_order) (c : ctx) : res ctx :=
  if negb (is_num (c_ptype c)) then prefixed_number md str c
  else
    let count := blen (before 46 str) in
    let len := blen str in
    if negb (count =? len) && (Z.land (c_fmask c) DTK_DATE_M =? 0) && (len <=? 14) then
      ctx_decode_date md str order c
    else if negb (count =? len) && (2 <? count) then ctx_number_field str (c_fmask c) c
    else if (6 <=? len)
            && ((Z.land (c_fmask c) DTK_DATE_M =? 0) || (Z.land (c_fmask c) DTK_TIME_M =? 0)) then
      ctx_number_field str (c_fmask c) c
    else ctx_decode_number md str (c_fmask c) order c.

(** Reading a field type that may be uninitialised *)
Definition read_type (t : option tfield) : res tfield :=
  match t with Some k => Ok k | None => Fault FUninit end.

(** The type test of src/parse.rs:1760-1762 and 2296-2298 on the field after "t" *)
Definition time_like (k : tfield) : bool := tfeq k KNumber || tfeq k KTime || tfeq k KDate.

(** src/parse.rs:1621-1791 [decode_string_and_special_token]; [next] is the field after this one,
    if any. [None] as result: the word is ignored (`continue`). Time zone abbreviations and names
    are stubs in the source (1130-1138, 1152-1156) that never find anything. *)
Definition decode_string_token (field : bytes) (next : option token) (c : ctx)
  : res (option ctx) :=
  let* tv := decode_special field in
  let '(ty, val) := tv in
  if tteq ty IgnoreDtf then Ok None
  else
    let c := c_set_tmask (mask ty) c in
    let* c :=
      match ty with
      | RESERV =>
          let* k := tfield_of val in
          match k with
          | KCurrent | KNow | KYesterday | KToday | KTomorrow => Err EInvalid
          | KZulu =>
              Ok (c_set_dtype KDate (c_set_tmask (Z.lor DTK_TIME_M (mask TZ))
                   (c_set_tm (set_sec 0 (set_min 0 (set_hour 0 (c_tm c)))) c)))
          | _ => Ok (c_set_dtype k c)
          end
      | MONTH =>
          let tm := c_tm c in
          let c :=
            if has (c_fmask c) (mask MONTH) && negb (c_tmon c) && negb (has (c_fmask c) (mask DAY))
               && (1 <=? tm_mon tm) && (tm_mon tm <=? 31)
            then c_set_tmask (mask DAY) (c_set_tm (set_mday (tm_mon tm) tm) c) else c in
          Ok (c_set_tm (set_mon val (c_tm c)) (c_set_tmon true c))
      | AMPM => Ok (c_set_mer val c)
      | ADBC => Ok (c_set_bc (val =? BC) c)
      | DOW => Ok (c_set_tm (set_wday val (c_tm c)) c)
      | UNITS => let* k := tfield_of val in Ok (c_set_ptype k (c_set_tmask 0 c))
      | ISOTIME =>
          let c := c_set_tmask 0 c in
          if negb (Z.land (c_fmask c) DTK_DATE_M =? DTK_DATE_M) then Err EInvalid
          else
            match next with
            | None => Fault FIndex (* ftypes[field_id + 1] in the error message, line 1767 *)
            | Some (t, _) =>
                let* k := read_type t in
                if negb (time_like k) then Err EInvalid
                else let* k := tfield_of val in Ok (c_set_ptype k c)
            end
      | _ => Err EInvalid
      end in
    Ok (Some c).

(** src/parse.rs:1158-1169 [check_mask_set], then `f_mask |= t_mask` (1864-1865) *)
Definition merge_mask (c : ctx) : res ctx :=
  if has (c_fmask c) (c_tmask c) then Err EInvalid
  else Ok (c_set_fmask (Z.lor (c_fmask c) (c_tmask c)) c).

(** src/parse.rs:1807-1866: one field of [decode_date_time] *)
Definition date_time_field (md : mode) (order : date_order) (t : token) (next : option token)
  (c : ctx) : res ctx :=
  let* k := read_type (fst t) in
  let field := snd t in
  match k with
  | KDate => let* c := decode_date_token md field order c in merge_mask c
  | KTime =>
      let* c :=
        if negb (is_num (c_ptype c)) then
          if negb (tfeq (c_ptype c) KTime) then Err EInvalid else Ok (c_set_ptype KNumber c)
        else Ok c in
      let* x := time_field md field (c_tm c, c_fsec c) in
      let '(tm, fs) := x in
      if (HOURS_PER_DAY <? tm_hour tm)
         || ((tm_hour tm =? HOURS_PER_DAY) && ((0 <? tm_min tm) || (0 <? tm_sec tm) || (0 <? fs)))
      then Err EOverflow
      else merge_mask (c_set_tmask DTK_TIME_M (c_set_tm tm (c_set_fsec fs c)))
  | KNumber => let* c := decode_number_token md field order c in merge_mask c
  | KString | KSpecial =>
      let* o := decode_string_token field next c in
      match o with None => Ok c | Some c => merge_mask c end
  | _ => Err EInvalid
  end.

Fixpoint date_time_fields (md : mode) (order : date_order) (ts : list token) (c : ctx) : res ctx :=
  match ts with
  | [] => Ok c
  | t :: rest =>
      let* c := date_time_field md order t (hd_error rest) c in
      date_time_fields md order rest c
  end.

(** src/parse.rs:1870-1878 and 2389-2397: AM/PM *)
Definition apply_mer (md : mode) (mer : Z) (tm : pgtime) : res pgtime :=
  if negb (mer =? HR24) && (Z.quot HOURS_PER_DAY 2 <? tm_hour tm) then Err EOverflow
  else if (mer =? AM) && (tm_hour tm =? Z.quot HOURS_PER_DAY 2) then Ok (set_hour 0 tm)
  else if (mer =? PM) && negb (tm_hour tm =? Z.quot HOURS_PER_DAY 2) then
    let* h := add32 md (tm_hour tm) (Z.quot HOURS_PER_DAY 2) in Ok (set_hour h tm)
  else Ok tm.

(** src/parse.rs:1794-1892 [decode_date_time] with tz = None: tm, type and fractional seconds. The
    first component of the Rust result (1 for "time without date") is ignored by both callers. *)
Definition decode_date_time (md : mode) (order : date_order) (ts : list token)
  : res (pgtime * tfield * Z) :=
  let* c := date_time_fields md order ts ctx_new in
  let* tm := validate_date md (c_fmask c) (c_julian c) (c_2d c) (c_bc c) (c_tm c) in
  let* tm := apply_mer md (c_mer c) tm in
  if tfeq (c_dtype c) KDate && negb (Z.land (c_fmask c) DTK_DATE_M =? DTK_DATE_M) then
    if Z.land (c_fmask c) DTK_TIME_M =? DTK_TIME_M then Ok (tm, c_dtype c, c_fsec c)
    else Err EInvalid
  else Ok (tm, c_dtype c, c_fsec c).

(** src/date.rs:201-252 [Date::try_from_str] *)
Definition date_try_from_str (md : mode) (s : bytes) (order : date_order) : res Z :=
  let* ts := parse_date_time s in
  let* q := decode_date_time md order ts in
  let '(tm, k, _) := q in
  match k with
  | KDate =>
      if negb (is_valid_julian (tm_year tm) (tm_mon tm)) then Err EInvalid
      else
        let* j := date2julian md (tm_year tm) (tm_mon tm) (tm_mday tm) in
        let* d := sub32 md j POSTGRES_EPOCH_JDATE in
        if negb (is_valid_date d) then Err EInvalid else Ok d
  | KLate => Ok i32_max
  | KEarly => Ok i32_min
  | _ => Err EInvalid
  end.

(** src/timestamp.rs:149-190 [from_pgtime_with_type], [Timestamp::try_from_str] *)
Definition timestamp_try_from_str (md : mode) (s : bytes) (type_mod : Z) (order : date_order)
  : res Z :=
  let* ts := parse_date_time s in
  let* q := decode_date_time md order ts in
  let '(tm, k, fsec) := q in
  let* v :=
    match k with
    | KDate => to_timestamp md tm fsec
    | KLate => Ok i64_max
    | KEarly => Ok i64_min
    | _ => Err EInvalid
    end in
  timestamp_adjust_by_typmod md v type_mod.

(** ** Time of day *)

(** src/parse.rs:1925-2011 [DecodeTimeOnlyCtx::decode_date_token], tz is always Some. [id] is the
    position of the field, [types] the types of all fields. *)
Definition time_date_token (md : mode) (id : nat) (types : list (option tfield)) (field : bytes)
  (order : date_order) (c : ctx) : res ctx :=
  let n := length types in
  if Nat.eqb id 0 && Nat.leb 2 n then
    let* last := read_type (nth (n - 1) types None) in
    let* yes :=
      (if tfeq last KDate then Ok true
       else let* second := read_type (nth 1 types None) in Ok (tfeq second KTime)) in
    if yes : bool then ctx_decode_date md field order c else Err EInvalid
  else Err EInvalid.

(** src/parse.rs:2013-2220 [DecodeTimeOnlyCtx::decode_number_token]. Simplification: the writes
    f_types[field_id] = .. (2145, 2186, 2202) are dropped, because only types of later fields are
    read after that point. *)
Definition time_number_token (md : mode) (id : nat) (types : list (option tfield)) (field : bytes)
  (order : date_order) (c : ctx) : res ctx :=
  if negb (is_num (c_ptype c)) then prefixed_number md field c
  else
    let count := blen (before 46 field) in
    let len := blen field in
    let n := length types in
    if negb (count =? len) then
      let* is_date :=
        (if Nat.eqb id 0 && Nat.leb 2 n then
           let* last := read_type (nth (n - 1) types None) in Ok (tfeq last KDate)
         else Ok false) in
      if is_date : bool then ctx_decode_date md field order c
      else if 2 <? count then ctx_number_field field (Z.lor (c_fmask c) DTK_DATE_M) c
      else Err EInvalid
    else if 4 <? len then ctx_number_field field (Z.lor (c_fmask c) DTK_DATE_M) c
    else ctx_decode_number md field (Z.lor (c_fmask c) DTK_DATE_M) order c.

(** src/parse.rs:2222-2326 [DecodeTimeOnlyCtx::decode_string_and_special_token] *)
Definition time_string_token (field : bytes) (next : option token) (c : ctx)
  : res (option ctx) :=
  let* tv := decode_special field in
  let '(ty, val) := tv in
  if tteq ty IgnoreDtf then Ok None
  else
    let c := c_set_tmask (mask ty) c in
    let* c :=
      match ty with
      | RESERV =>
          let* k := tfield_of val in
          match k with
          | KZulu =>
              Ok (c_set_dtype KTime (c_set_tmask (Z.lor DTK_TIME_M (mask TZ))
                   (c_set_tm (set_isdst 0 (set_sec 0 (set_min 0 (set_hour 0 (c_tm c))))) c)))
          | _ => Err EInvalid
          end
      | AMPM => Ok (c_set_mer val c)
      | ADBC => Ok (c_set_bc (val =? BC) c)
      | UNITS => let* k := tfield_of val in Ok (c_set_ptype k (c_set_tmask 0 c))
      | ISOTIME =>
          let c := c_set_tmask 0 c in
          match next with
          | None => Err EInvalid
          | Some (t, _) =>
              let* k := read_type t in
              if negb (time_like k) then Err EInvalid
              else let* k := tfield_of val in Ok (c_set_ptype k c)
          end
      | _ => Err EInvalid
      end in
    Ok (Some c).

(** src/parse.rs:2342-2385: one field of [decode_time_only] *)
Definition time_only_field (md : mode) (order : date_order) (id : nat)
  (types : list (option tfield)) (t : token) (next : option token) (c : ctx) : res ctx :=
  let* k := read_type (fst t) in
  let field := snd t in
  match k with
  | KDate => let* c := time_date_token md id types field order c in merge_mask c
  | KTime =>
      let* x := time_field md field (c_tm c, c_fsec c) in
      merge_mask (c_set_tmask DTK_TIME_M (c_set_tm (fst x) (c_set_fsec (snd x) c)))
  | KTz => let* _ := decode_timezone in Ok c
  | KNumber => let* c := time_number_token md id types field order c in merge_mask c
  | KString | KSpecial =>
      let* o := time_string_token field next c in
      match o with None => Ok c | Some c => merge_mask c end
  | _ => Err EInvalid
  end.

Fixpoint time_only_fields (md : mode) (order : date_order) (id : nat)
  (types : list (option tfield)) (ts : list token) (c : ctx) : res ctx :=
  match ts with
  | [] => Ok c
  | t :: rest =>
      let* c := time_only_field md order id types t (hd_error rest) c in
      time_only_fields md order (S id) types rest c
  end.

(** src/parse.rs:2329-2415 [decode_time_only] *)
Definition decode_time_only (md : mode) (order : date_order) (ts : list token) : res tmf :=
  let* c := time_only_fields md order 0 (List.map fst ts) ts ctx_new in
  let* tm := validate_date md (c_fmask c) (c_julian c) (c_2d c) (c_bc c) (c_tm c) in
  let* tm := apply_mer md (c_mer c) tm in
  if (tm_hour tm <? 0) || (tm_min tm <? 0) || (MINS_PER_HOUR - 1 <? tm_min tm)
     || (tm_sec tm <? 0) || (SECS_PER_MINUTE <? tm_sec tm) || (HOURS_PER_DAY <? tm_hour tm)
     || ((tm_hour tm =? HOURS_PER_DAY)
         && ((0 <? tm_min tm) || (0 <? tm_sec tm) || (0 <? c_fsec c)))
     || (c_fsec c <? 0) || (USECS_PER_SEC <? c_fsec c)
  then Err EOverflow
  else Ok (tm, c_fsec c).

(** src/time.rs:105-131 [Time::try_from_str] *)
Definition time_try_from_str (md : mode) (s : bytes) (type_mod : Z) (order : date_order) : res Z :=
  let* ts := parse_date_time s in
  let* x := decode_time_only md order ts in
  let* t := time_from_pgtime md (fst x) (snd x) in
  time_adjust_by_typmod md t type_mod.

(** ** Intervals *)

(** A computation on (tm, fsec) that may fail part way; what was written stays. *)
Definition tm_step (A : Type) : Type := (tmf * res A)%type.
Definition step_bind {A B} (m : tm_step A) (f : tmf -> A -> tm_step B) : tm_step B :=
  let '(x, r) := m in
  match r with Ok a => f x a | Err e => (x, Err e) | Fault y => (x, Fault y) end.
(** assignment of a field computed from the old state *)
Definition step_set (x : tmf) (r : res Z) (set : Z -> tmf -> tmf) : tm_step unit :=
  match r with Ok v => (set v x, Ok tt) | Err e => (x, Err e) | Fault y => (x, Fault y) end.
Definition s_sec v (x : tmf) : tmf := (set_sec v (fst x), snd x).
Definition s_min v (x : tmf) : tmf := (set_min v (fst x), snd x).
Definition s_hour v (x : tmf) : tmf := (set_hour v (fst x), snd x).
Definition s_mday v (x : tmf) : tmf := (set_mday v (fst x), snd x).
Definition s_mon v (x : tmf) : tmf := (set_mon v (fst x), snd x).
Definition s_year v (x : tmf) : tmf := (set_year v (fst x), snd x).
Definition s_fsec v (x : tmf) : tmf := (fst x, v).

Notation "'step' x <- m 'in' k" := (step_bind m (fun x _ => k))
  (at level 200, x name, m at level 100, k at level 200).

Definition fnz (x : f64) : bool := negb (feq x f0).

(** src/parse.rs:2420-2440 [adjust_fract_seconds] *)
Definition adjust_fract_seconds (md : mode) (frac : f64) (scale : Z) (x : tmf) : tm_step unit :=
  if negb (fnz frac) then (x, Ok tt)
  else
    let frac := fmul frac (f64_of_Z scale) in
    let sec := f64_to_i32 frac in
    step x <- step_set x (ok_or (chk32 (tm_sec (fst x) + sec)) EOverflow) s_sec in
    let frac := fsub frac (f64_of_Z sec) in
    step_set x (add64 md (snd x) (usecs_of frac)) s_fsec.

(** src/parse.rs:2444-2464 [adjust_fract_days] *)
Definition adjust_fract_days (md : mode) (frac : f64) (scale : Z) (x : tmf) : tm_step unit :=
  if negb (fnz frac) then (x, Ok tt)
  else
    let frac := fmul frac (f64_of_Z scale) in
    let extra := f64_to_i32 frac in
    step x <- step_set x (ok_or (chk32 (tm_mday (fst x) + extra)) EOverflow) s_mday in
    adjust_fract_seconds md (fsub frac (f64_of_Z extra)) SECS_PER_DAY x.

(** src/parse.rs:2475-2500: the unit of a number without one, from the typmod range *)
Definition default_unit (ty range : Z) : Z :=
  if ty =? tt_code IgnoreDtf then
    if range =? INTERVAL_MASK_Y then kcode KYear
    else if (range =? INTERVAL_MASK_M) || (range =? INTERVAL_MASK_YM) then kcode KMonth
    else if range =? INTERVAL_MASK_D then kcode KDay
    else if (range =? INTERVAL_MASK_H) || (range =? INTERVAL_MASK_DH) then kcode KHour
    else if (range =? INTERVAL_MASK_MIN) || (range =? INTERVAL_MASK_HM)
            || (range =? INTERVAL_MASK_DHM) then kcode KMinute
    else kcode KSecond
  else ty.

Definition starts_minus (field : bytes) : res bool :=
  match field with [] => Fault FIndex | c :: _ => Ok (c =? 45) end.

(** src/parse.rs:2502-2545: the numeric value of the field: unit, integer and fraction.
    Simplification: the f64 comparison at 2521-2523 is on exact integers, modelled on Z. *)
Definition interval_number (md : mode) (field : bytes) (ty : Z) : res (Z * Z * f64) :=
  let* p := str2i32 field in
  let '(val, s) := p in
  match s with
  | [] => Ok (ty, val, f0)
  | c :: r =>
      if c =? 45 then
        let* p := str2i32 r in
        let '(val2, s) := p in
        if (val2 <? 0) || (MONTHS_PER_YEAR <=? val2) then Err EOverflow
        else
          match s with
          | _ :: _ => Err EInvalid
          | [] =>
              let* minus := starts_minus field in
              let* val2 := (if minus : bool then neg32 md val2 else Ok val2) in
              let total := val * MONTHS_PER_YEAR + val2 in
              if (i32_max <? total) || (total <? i32_min) then Err EOverflow
              else
                let* m := mul32 md val MONTHS_PER_YEAR in
                let* v := add32 md m val2 in
                Ok (kcode KMonth, v, f0)
          end
      else if c =? 46 then
        let* p := str2d s in
        let '(v, s) := p in
        match s with
        | _ :: _ => Err EInvalid
        | [] =>
            let* minus := starts_minus field in
            Ok (ty, val, if minus : bool then fneg v else v)
        end
      else Err EInvalid
  end.

(** `tm.year += val * k; if fval != 0 { tm.mon += (fval * 12 [* k]) as i32 }`,
    src/parse.rs:2606-2636 *)
Definition add_years (md : mode) (val k : Z) (f_val : f64) (months : f64) (x : tmf) : tm_step unit :=
  step x <- step_set x (let* v := mul32 md val k in add32 md (tm_year (fst x)) v) s_year in
  if fnz f_val then step_set x (add32 md (tm_mon (fst x)) (f64_to_i32 months)) s_mon
  else (x, Ok tt).

(** src/parse.rs:2466-2646 [decode_interval_number_field]: new unit and t_mask *)
Definition interval_number_field (md : mode) (field : bytes) (ty range : Z) (x : tmf)
  : tm_step (Z * Z) :=
  match interval_number md field (default_unit ty range) with
  | Err e => (x, Err e)
  | Fault f => (x, Fault f)
  | Ok (ty, val, f_val) =>
      let ret (m : tm_step unit) (ty' t_mask : Z) : tm_step (Z * Z) :=
        step x <- m in (x, Ok (ty', t_mask)) in
      match tfield_of ty with
      | Err e => (x, Err e)
      | Fault f => (x, Fault f)
      | Ok k =>
          match k with
          | KMicrosec =>
              ret (step_set x (add64 md (snd x)
                                 (f64_to_i64 (fround (fadd (f64_of_Z val) f_val)))) s_fsec)
                ty (mask MICROSECOND)
          | KMillisec =>
              ret (step x <- step_set x (add32 md (tm_sec (fst x)) (Z.quot val 1000)) s_sec in
                   let val := val - Z.quot val 1000 * 1000 in
                   step_set x (add64 md (snd x)
                     (f64_to_i64 (fround (fmul (fadd (f64_of_Z val) f_val) (f64_of_Z 1000)))))
                     s_fsec)
                ty (mask MILLISECOND)
          | KSecond =>
              ret (step x <- step_set x (add32 md (tm_sec (fst x)) val) s_sec in
                   step_set x (add64 md (snd x) (usecs_of f_val)) s_fsec)
                ty (if fnz f_val then DTK_ALL_SECS_M else mask SECOND)
          | KMinute =>
              ret (step x <- step_set x (add32 md (tm_min (fst x)) val) s_min in
                   adjust_fract_seconds md f_val SECS_PER_MINUTE x) ty (mask MINUTE)
          | KHour =>
              ret (step x <- step_set x (add32 md (tm_hour (fst x)) val) s_hour in
                   adjust_fract_seconds md f_val SECS_PER_HOUR x) (kcode KDay) (mask HOUR)
          | KDay =>
              ret (step x <- step_set x (add32 md (tm_mday (fst x)) val) s_mday in
                   adjust_fract_seconds md f_val SECS_PER_DAY x) ty (mask DAY)
          | KWeek =>
              ret (step x <- step_set x (let* v := mul32 md val 7 in
                                         add32 md (tm_mday (fst x)) v) s_mday in
                   adjust_fract_days md f_val 7 x) ty (mask WEEK)
          | KMonth =>
              ret (step x <- step_set x (add32 md (tm_mon (fst x)) val) s_mon in
                   adjust_fract_days md f_val DAYS_PER_MONTH x) ty (mask MONTH)
          | KYear =>
              ret (add_years md val 1 f_val (fmul f_val (f64_of_Z 12)) x) ty (mask YEAR)
          | KDecade =>
              ret (add_years md val 10 f_val (fmul (fmul f_val (f64_of_Z 12)) (f64_of_Z 10)) x)
                ty (mask DECADE)
          | KCentury =>
              ret (add_years md val 100 f_val (fmul (fmul f_val (f64_of_Z 12)) (f64_of_Z 100)) x)
                ty (mask CENTURY)
          | KMillennium =>
              ret (add_years md val 1000 f_val (fmul (fmul f_val (f64_of_Z 12)) (f64_of_Z 1000)) x)
                ty (mask MILLENNIUM)
          | _ => (x, Err EInvalid)
          end
      end
  end.

(** Negation of the clock fields, src/parse.rs:2740-2745 *)
Definition negate_clock (md : mode) (x : tmf) : tm_step unit :=
  step x <- step_set x (neg32 md (tm_hour (fst x))) s_hour in
  step x <- step_set x (neg32 md (tm_min (fst x))) s_min in
  step x <- step_set x (neg32 md (tm_sec (fst x))) s_sec in
  step_set x (neg64 md (snd x)) s_fsec.

(** Loop state of [decode_interval]: unit, f_mask, is_before, d_type *)
Record ist := mkI { i_ty : Z; i_fmask : Z; i_before : bool; i_dtype : tfield }.

Definition merge_i (t_mask : Z) (i : ist) (x : tmf) : tm_step ist :=
  if has (i_fmask i) t_mask then (x, Err EInvalid)
  else (x, Ok (mkI (i_ty i) (Z.lor (i_fmask i) t_mask) (i_before i) (i_dtype i))).

Definition i_set_ty v (i : ist) := mkI v (i_fmask i) (i_before i) (i_dtype i).

(** src/parse.rs:2715-2811: one field of [decode_interval] *)
Definition interval_field (md : mode) (range : Z) (t : token) (i : ist) (x : tmf) : tm_step ist :=
  let field := snd t in
  let number :=
    step_bind (interval_number_field md field (i_ty i) range x)
      (fun x r => merge_i (snd r) (i_set_ty (fst r) i) x) in
  match fst t with
  | None => (x, Fault FUninit)
  | Some KTime =>
      step x <- decode_time md field range x in
      merge_i DTK_TIME_M (i_set_ty (kcode KDay) i) x
  | Some KTz =>
      match field with
      | [] => (x, match md with Debug => Fault FIndex | Release => Err EInvalid end)
      | c :: r =>
          match debug_assert md ((c =? 45) || (c =? 43)) with
          | Err e => (x, Err e)
          | Fault f => (x, Fault f)
          | Ok _ =>
              if existsb (fun b => b =? 58) field then
                step x <- decode_time md r range x in
                step x <- (if c =? 45 then negate_clock md x else (x, Ok tt)) in
                merge_i DTK_TIME_M (i_set_ty (kcode KDay) i) x
              else number
          end
      end
  | Some KDate | Some KNumber => number
  | Some KString | Some KSpecial =>
      match decode_units field with
      | Err e => (x, Err e)
      | Fault f => (x, Fault f)
      | Ok (ty, val) =>
          match ty with
          | IgnoreDtf => (x, Ok i)
          | UNITS => merge_i 0 (i_set_ty val i) x
          | AGO => merge_i 0 (mkI val (i_fmask i) true (i_dtype i)) x
          | RESERV =>
              match tfield_of val with
              | Ok k => merge_i (Z.lor DTK_DATE_M DTK_TIME_M)
                          (mkI (i_ty i) (i_fmask i) (i_before i) k) x
              | Err e => (x, Err e)
              | Fault f => (x, Fault f)
              end
          | _ => (x, Err EInvalid)
          end
      end
  | Some _ => (x, Err EInvalid)
  end.

Fixpoint interval_fields (md : mode) (range : Z) (rev_ts : list token) (i : ist) (x : tmf)
  : tm_step ist :=
  match rev_ts with
  | [] => (x, Ok i)
  | t :: rest =>
      step_bind (interval_field md range t i x) (fun x i => interval_fields md range rest i x)
  end.

(** src/parse.rs:2816-2821: carry whole seconds out of the fraction *)
Definition carry_fsec (md : mode) (x : tmf) : tm_step unit :=
  if nz (snd x) then
    let sec := Z.quot (snd x) USECS_PER_SEC in
    let x := (fst x, snd x - sec * USECS_PER_SEC) in
    step_set x (add32 md (tm_sec (fst x)) (wrap32 sec)) s_sec
  else (x, Ok tt).

(** src/parse.rs:2847-2871: force every field negative; `-v` of a positive value cannot
    overflow *)
Definition neg_pos (v : Z) : Z := if 0 <? v then - v else v.
Definition force_negative (x : tmf) : tmf :=
  let tm := fst x in
  (set_year (neg_pos (tm_year tm)) (set_mon (neg_pos (tm_mon tm)) (set_mday (neg_pos (tm_mday tm))
    (set_hour (neg_pos (tm_hour tm)) (set_min (neg_pos (tm_min tm))
      (set_sec (neg_pos (tm_sec tm)) tm))))), neg_pos (snd x)).

(** src/parse.rs:2875-2883: AGO negates everything *)
Definition negate_all (md : mode) (x : tmf) : tm_step unit :=
  step x <- step_set x (neg64 md (snd x)) s_fsec in
  step x <- step_set x (neg32 md (tm_sec (fst x))) s_sec in
  step x <- step_set x (neg32 md (tm_min (fst x))) s_min in
  step x <- step_set x (neg32 md (tm_hour (fst x))) s_hour in
  step x <- step_set x (neg32 md (tm_mday (fst x))) s_mday in
  step x <- step_set x (neg32 md (tm_mon (fst x))) s_mon in
  step_set x (neg32 md (tm_year (fst x))) s_year.

Definition starts_sign (t : token) : bool :=
  match snd t with c :: _ => (c =? 45) || (c =? 43) | [] => false end.

(** src/parse.rs:2696-2886 [decode_interval]: the type *)
Definition decode_interval (md : mode) (ts : list token) (range : Z) (style : interval_style)
  (x : tmf) : tm_step tfield :=
  let x := (fst x, 0) in
  step_bind (interval_fields md range (rev ts) (mkI (tt_code IgnoreDtf) 0 false KDelta) x)
    (fun x i =>
       if i_fmask i =? 0 then (x, Err EInvalid)
       else
         step x <- carry_fsec md x in
         match ts with
         | [] => (x, Fault FIndex)
         | t :: rest =>
             let sql := match style with ISQLStandard => true | _ => false end in
             match starts_minus (snd t), sql with
             | Fault f, true => (x, Fault f)
             | m, _ =>
                 let minus := match m with Ok b => b | _ => false end in
                 let x := if sql && minus && negb (existsb starts_sign rest)
                          then force_negative x else x in
                 step x <- (if i_before i then negate_all md x else (x, Ok tt)) in
                 (x, Ok (i_dtype i))
             end
         end).

(** src/parse.rs:2893-2930 [parse_iso8601_number]: integer part, fraction, rest. Line 2905 accepts
    'c' where '-' was meant. *)
Definition parse_iso8601_number (s : bytes) : res (Z * f64 * bytes) :=
  match s with
  | [] => Err EInvalid
  | c :: _ =>
      if negb (is_digit c || (c =? 99) || (c =? 46)) then Err EInvalid
      else
        let* p := str2d s in
        let '(val, rest) := p in
        if Nat.eqb (length rest) (length s) then Err EInvalid
        else if flt val (f64_of_Z i32_min) || fgt val (f64_of_Z i32_max) then Err EOverflow
        else
          let ipart := if fge val f0 then f64_to_i32 (ffloor val)
                       else f64_to_i32 (fneg (ffloor val)) in
          Ok (ipart, fsub val (f64_of_Z ipart), rest)
  end.

(** src/parse.rs:2934-2944 [iso8601_integer_width] *)
Definition iso8601_integer_width (s : bytes) : Z :=
  let s := match s with c :: r => if c =? 45 then r else s | [] => s end in blen (fst (eat is_digit s)).

(** The ISO 8601 decoder's errors are final, so its state is dropped on error. *)
Definition done {A} (m : tm_step A) : res (tmf * A) :=
  let '(x, r) := m in let* a := r in Ok (x, a).
Definition upd (x : tmf) (r : res Z) (set : Z -> tmf -> tmf) : res tmf :=
  let* v := r in Ok (set v x).
Definition fract_secs md frac scale x : res tmf :=
  let* p := done (adjust_fract_seconds md frac scale x) in Ok (fst p).
Definition fract_days md frac scale x : res tmf :=
  let* p := done (adjust_fract_days md frac scale x) in Ok (fst p).
Definition add_year md val x := upd x (add32 md (tm_year (fst x)) val) s_year.
Definition add_mon md val x := upd x (add32 md (tm_mon (fst x)) val) s_mon.
Definition add_mday md val x := upd x (add32 md (tm_mday (fst x)) val) s_mday.
Definition add_hour md val x := upd x (add32 md (tm_hour (fst x)) val) s_hour.
Definition add_min md val x := upd x (add32 md (tm_min (fst x)) val) s_min.
Definition add_sec md val x := upd x (add32 md (tm_sec (fst x)) val) s_sec.

(** src/parse.rs:2947-3016 [decode_date_part_left]: [None]: finished, [Some s]: go on with [s] in
    the time part *)
Definition decode_date_part_left (md : mode) (s : bytes) (unit : Z) (havefield : bool) (val : Z)
  (fval : f64) (x : tmf) : res (tmf * option bytes) :=
  if havefield then Err EInvalid
  else
    let* x := add_year md val x in
    let* x := add_mon md (f64_to_i32 (fmul fval (f64_of_Z MONTHS_PER_YEAR))) x in
    if unit =? 0 then Ok (x, None)
    else if unit =? 84 then Ok (x, Some s)
    else
      let* q := parse_iso8601_number s in
      let '(val, fval, s) := q in
      let* x := add_mon md val x in
      let* x := fract_days md fval DAYS_PER_MONTH x in
      match s with
      | [] => Ok (x, None)
      | c :: r =>
          if c =? 84 then Ok (x, Some s)
          else if negb (c =? 45) then Err EInvalid
          else
            let* q := parse_iso8601_number r in
            let '(val, fval, s) := q in
            let* x := add_mday md val x in
            let* x := fract_secs md fval SECS_PER_DAY x in
            match s with
            | [] => Ok (x, None)
            | c :: _ => if c =? 84 then Ok (x, Some s) else Err EInvalid
            end
      end.

(** src/parse.rs:3019-3063 [decode_time_part_left] *)
Definition decode_time_part_left (md : mode) (s : bytes) (unit : Z) (havefield : bool) (val : Z)
  (fval : f64) (x : tmf) : res tmf :=
  if havefield then Err EInvalid
  else
    let* x := add_hour md val x in
    let* x := fract_secs md fval SECS_PER_HOUR x in
    if unit =? 0 then Ok x
    else
      let* q := parse_iso8601_number s in
      let '(val, fval, s) := q in
      let* x := add_min md val x in
      let* x := fract_secs md fval SECS_PER_MINUTE x in
      match s with
      | [] => Ok x
      | c :: r =>
          if negb (c =? 58) then Err EInvalid
          else
            let* q := parse_iso8601_number r in
            let '(val, fval, s) := q in
            let* x := add_sec md val x in
            let* x := fract_secs md fval 1 x in
            match s with [] => Ok x | _ => Err EInvalid end
      end.

(** src/parse.rs:3098-3240: the loop of [decode_iso8601_interval] *)
Fixpoint iso_loop (md : mode) (fuel : nat) (s : bytes) (datepart havefield : bool) (x : tmf)
  : res tmf :=
  match fuel with
  | O => Fault FFuel
  | S fuel' =>
      match s with
      | [] => Ok x
      | c0 :: s' =>
          if c0 =? 84 then iso_loop md fuel' s' false false x else
          let field_start := s in
          let* q := parse_iso8601_number s in
          let '(val, fval, s) := q in
          let '(unit, s) := match s with c :: r => (c, r) | [] => (0, []) end in
          let next (x : tmf) := iso_loop md fuel' s datepart true x in
          let left :=
            let* q := decode_date_part_left md s unit havefield val fval x in
            match q with
            | (x, None) => Ok x
            | (x, Some s) => iso_loop md fuel' s false false x
            end in
          if datepart then
            if unit =? 89 then
              let* x := add_year md val x in
              let* x := add_mon md (f64_to_i32 (fmul fval (f64_of_Z MONTHS_PER_YEAR))) x in
              next x
            else if unit =? 77 then
              let* x := add_mon md val x in
              let* x := fract_days md fval DAYS_PER_MONTH x in
              next x
            else if unit =? 87 then
              let* w := mul32 md val 7 in
              let* x := add_mday md w x in
              let* x := fract_days md fval 7 x in
              next x
            else if unit =? 68 then
              let* x := add_mday md val x in
              let* x := fract_secs md fval SECS_PER_DAY x in
              next x
            else if (unit =? 84) || (unit =? 0) then
              if (iso8601_integer_width field_start =? 8) && negb havefield then
                let* x := add_year md (Z.quot val 10000) x in
                let* x := add_mon md (Z.rem (Z.quot val 100) 100) x in
                let* x := add_mday md (Z.rem val 100) x in
                let* x := fract_secs md fval SECS_PER_DAY x in
                if unit =? 0 then Ok x else iso_loop md fuel' s false false x
              else left
            else if unit =? 45 then left
            else Err EInvalid
          else
            if unit =? 72 then
              let* x := add_hour md val x in
              let* x := fract_secs md fval SECS_PER_HOUR x in
              next x
            else if unit =? 77 then
              let* x := add_min md val x in
              let* x := fract_secs md fval SECS_PER_MINUTE x in
              next x
            else if unit =? 83 then
              let* x := add_sec md val x in
              let* x := fract_secs md fval 1 x in
              next x
            else if unit =? 0 then
              if (iso8601_integer_width field_start =? 6) && negb havefield then
                let* x := add_hour md (Z.quot val 10000) x in
                let* x := add_min md (Z.rem (Z.quot val 100) 100) x in
                let* x := add_sec md (Z.rem val 100) x in
                fract_secs md fval 1 x
              else decode_time_part_left md s unit havefield val fval x
            else if unit =? 58 then decode_time_part_left md s unit havefield val fval x
            else Err EInvalid
      end
  end.

(** src/parse.rs:3080-3241 [decode_iso8601_interval] *)
Definition decode_iso8601_interval (md : mode) (s : bytes) (x : tmf) : res tmf :=
  let x := (fst x, 0) in
  match s with
  | c :: ((_ :: _) as r) => if c =? 80 then iso_loop md (S (length r)) r true false x else Err EInvalid
  | _ => Err EInvalid
  end.

(** src/interval.rs:535-585 [Interval::try_from_str] *)
Definition interval_try_from_str (md : mode) (s : bytes) (type_mod : Z) (style : interval_style)
  : res interval :=
  let range := if 0 <=? type_mod then interval_range type_mod else INTERVAL_FULL_RANGE in
  let* ts := parse_date_time s in
  let '(x, r) := decode_interval md ts range style (tm_new, 0) in
  let* q :=
    match r with
    | Ok k => Ok (x, k)
    | Err EInvalid => let* x := decode_iso8601_interval md s x in Ok (x, KDelta)
    | Err e => Err e
    | Fault f => Fault f
    end in
  let '(x, k) := q in
  let* a :=
    match k with
    | KDelta => interval_from_pgtime md (fst x) (snd x)
    | _ => Err EInvalid
    end in
  interval_adjust_by_typmod md a type_mod.
