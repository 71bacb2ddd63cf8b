(** C01-C06: dates. Statements use the model's API functions ([date_try_from_ymd], ...) and the
    specifications Spec.Calendar (calendar by "next day") and Spec.Ranges. *)
From Verif Require Import Model.DateTime Spec.Calendar Spec.Ranges Proofs.DateP Proofs.TsP.
From Coq Require Import Lia.

(** C01. The number of a constructed date is the number of days from 2000-01-01. *)
Theorem C01_day_number : forall md y m d n,
  in_i32 y -> y <> i32_min ->
  date_try_from_ymd md y m d = Ok n -> day_number (astro y, m, d) n.
Proof. exact try_from_ymd_number. Qed.
Print Assumptions C01_day_number.
Example C01_day_number_ex : date_try_from_ymd Debug (-1) 2 29 = Ok (-730426).
Proof. reflexivity. Qed.

(** C01. Successive days get successive numbers, over every month end and the BC/AD boundary. *)
Theorem C01_successive : forall md y m d y' m' d' n n',
  in_i32 y -> y <> i32_min -> in_i32 y' -> y' <> i32_min ->
  date_try_from_ymd md y m d = Ok n -> date_try_from_ymd md y' m' d' = Ok n' ->
  next_day (astro y, m, d) = (astro y', m', d') -> n' = n + 1.
Proof. exact try_from_ymd_next. Qed.
Print Assumptions C01_successive.
Example C01_successive_ex :
  date_try_from_ymd Release (-1) 12 31 = Ok (-730120) /\
  date_try_from_ymd Release 1 1 1 = Ok (-730119) /\
  next_day (astro (-1), 12, 31) = (astro 1, 1, 1).
Proof. repeat split; reflexivity. Qed.

(** C02. Every valid day number decodes to a real calendar day of the supported range that has
    this number ... *)
Theorem C02_calendar_of_number : forall md n, valid_date n ->
  exists c, julian2date md (n + POSTGRES_EPOCH_JDATE) = Ok c /\ valid_ymd c /\ day_number c n
    /\ ymd_le first_day c /\ ymd_le c last_day.
Proof. exact date_calendar. Qed.
Print Assumptions C02_calendar_of_number.
(** ... which is the only such day, and a day has only one number. *)
Theorem C02_unique_day : forall c1 c2 n, valid_ymd c1 -> valid_ymd c2 ->
  day_number c1 n -> day_number c2 n -> c1 = c2.
Proof. exact day_number_inj. Qed.
Print Assumptions C02_unique_day.
Theorem C02_unique_number : forall c n1 n2, valid_ymd c ->
  day_number c n1 -> day_number c n2 -> n1 = n2.
Proof. exact day_number_unique. Qed.
Print Assumptions C02_unique_number.
(** Decoding and constructing again gives the number back. *)
Theorem C02_roundtrip : forall md n y m d, valid_date n ->
  julian2date md (n + POSTGRES_EPOCH_JDATE) = Ok (y, m, d) ->
  date_try_from_ymd md (if y <=? 0 then y - 1 else y) m d = Ok n.
Proof. exact date_calendar_inv. Qed.
Print Assumptions C02_roundtrip.
Example C02_ex : valid_date (-730426) /\
  julian2date Debug (-730426 + POSTGRES_EPOCH_JDATE) = Ok (0, 2, 29).
Proof. split; [unfold valid_date; lia|reflexivity]. Qed.

(** C03. Construction accepts exactly the real dates in range ... *)
Theorem C03_accepts_iff : forall md y m d, in_i32 y -> y <> i32_min ->
  (exists n, date_try_from_ymd md y m d = Ok n) <->
  y <> 0 /\ valid_ymd (astro y, m, d)
  /\ ymd_le first_day (astro y, m, d) /\ ymd_le (astro y, m, d) last_day.
Proof. exact try_from_ymd_iff. Qed.
Print Assumptions C03_accepts_iff.
(** ... refuses the rest with Overflow, without panicking ... *)
Theorem C03_refuses : forall md y m d, in_i32 y -> y <> i32_min ->
  (exists n, date_try_from_ymd md y m d = Ok n) \/ date_try_from_ymd md y m d = Err EOverflow.
Proof. exact try_from_ymd_total. Qed.
Print Assumptions C03_refuses.
(** ... and is an order isomorphism. *)
Theorem C03_order : forall md y m d y' m' d' n n',
  in_i32 y -> y <> i32_min -> in_i32 y' -> y' <> i32_min ->
  date_try_from_ymd md y m d = Ok n -> date_try_from_ymd md y' m' d' = Ok n' ->
  (n < n' <-> ymd_lt (astro y, m, d) (astro y', m', d')).
Proof. exact date_order. Qed.
Print Assumptions C03_order.
(** Boundary finding: year i32::MIN panics in debug builds, whatever month and day. *)
Theorem C03_min_year : forall md m d,
  date_try_from_ymd md i32_min m d =
  match md with Debug => Fault FArith | Release => Err EOverflow end.
Proof. exact try_from_ymd_min. Qed.
Print Assumptions C03_min_year.
Example C03_ex :
  date_try_from_ymd Debug (-4714) 11 24 = Ok (-2451545) /\
  date_try_from_ymd Debug (-4714) 11 23 = Err EOverflow /\
  date_try_from_ymd Debug 5874897 12 31 = Ok 2145031948 /\
  date_try_from_ymd Debug 5874898 1 1 = Err EOverflow /\
  date_try_from_ymd Debug 1900 2 29 = Err EOverflow /\
  date_try_from_ymd Debug 0 1 1 = Err EOverflow.
Proof. repeat split; reflexivity. Qed.

(** C04. Adding/subtracting days, for any finite (also out-of-range) date value. *)
Theorem C04_add_days : forall d n, d <> neg_inf_date -> d <> pos_inf_date ->
  (valid_date (d + n) -> date_add_days d n = Ok (d + n)) /\
  (~ valid_date (d + n) -> date_add_days d n = Err EOverflow).
Proof. exact add_days_spec. Qed.
Print Assumptions C04_add_days.
Theorem C04_sub_days : forall d n, d <> neg_inf_date -> d <> pos_inf_date ->
  (valid_date (d - n) -> date_sub_days d n = Ok (d - n)) /\
  (~ valid_date (d - n) -> exists e, date_sub_days d n = Err e).
Proof. exact sub_days_spec. Qed.
Print Assumptions C04_sub_days.
Theorem C04_infinite : forall n,
  date_add_days pos_inf_date n = Ok pos_inf_date /\ date_add_days neg_inf_date n = Ok neg_inf_date /\
  date_sub_days pos_inf_date n = Ok pos_inf_date /\ date_sub_days neg_inf_date n = Ok neg_inf_date.
Proof. repeat split; reflexivity. Qed.
Print Assumptions C04_infinite.
Theorem C04_add_then_sub : forall d n r,
  valid_date d -> date_add_days d n = Ok r -> date_sub_days r n = Ok d.
Proof. exact add_sub_days. Qed.
Print Assumptions C04_add_then_sub.
Theorem C04_sub_then_add : forall d n r,
  valid_date d -> date_sub_days d n = Ok r -> date_add_days r n = Ok d.
Proof. exact sub_add_days. Qed.
Print Assumptions C04_sub_then_add.
(** In calendar terms: k days later is k "next day" steps. *)
Theorem C04_add_days_calendar : forall md y m d a k b, in_i32 y -> y <> i32_min ->
  date_try_from_ymd md y m d = Ok a -> date_add_days a (Z.of_nat k) = Ok b ->
  day_number (walk k (astro y, m, d)) b.
Proof. exact add_days_walk. Qed.
Print Assumptions C04_add_days_calendar.
Theorem C04_sub_days_calendar : forall md y m d a k b y' m' d', in_i32 y -> y <> i32_min ->
  date_try_from_ymd md y m d = Ok a -> date_sub_days a (Z.of_nat k) = Ok b ->
  valid_ymd (y', m', d') -> day_number (y', m', d') b ->
  walk k (y', m', d') = (astro y, m, d).
Proof. exact sub_days_walk. Qed.
Print Assumptions C04_sub_days_calendar.
Example C04_ex :
  date_try_from_ymd Debug 2020 2 28 = Ok 7363 /\ date_add_days 7363 2 = Ok 7365 /\
  date_sub_days 7365 2 = Ok 7363 /\ walk 2 (2020, 2, 28) = (2020, 3, 1) /\
  date_add_days 2145031948 1 = Err EOverflow /\ date_add_days 2145031948 2147483647 = Err EOverflow.
Proof. repeat split; reflexivity. Qed.

(** C05 *)
Theorem C05_sub_date_exact : forall md a b, valid_date a -> valid_date b ->
  date_sub_date md a b = Ok (a - b).
Proof. exact sub_date_ok. Qed.
Print Assumptions C05_sub_date_exact.
Theorem C05_add_back : forall md a b n, valid_date a -> valid_date b ->
  date_sub_date md a b = Ok n -> date_add_days b n = Ok a /\ date_sub_date md b a = Ok (- n).
Proof.
  intros md a b n A B E. rewrite sub_date_ok in E by auto. injection E as <-.
  destruct (valid_not_inf b B). destruct (add_days_spec b (a - b)) as [S _]; auto.
  replace (b + (a - b)) with a in S by lia. split; [auto|].
  rewrite sub_date_ok by auto. f_equal. lia.
Qed.
Print Assumptions C05_add_back.
Theorem C05_infinite : forall md a b,
  a = neg_inf_date \/ a = pos_inf_date \/ b = neg_inf_date \/ b = pos_inf_date ->
  date_sub_date md a b = Err EInvalid.
Proof. exact sub_date_inf. Qed.
Print Assumptions C05_infinite.
(** Finding: for raw (out of range) values the subtraction overflows. *)
Theorem C05_raw_refuted : exists a b, in_i32 a /\ in_i32 b /\
  date_sub_date Debug a b = Fault FArith /\ date_sub_date Release a b = Ok (a - b - 4294967296).
Proof.
  exists 2147483646, (-2147483647). unfold in_i32, i32_min, i32_max.
  repeat split; try lia; reflexivity.
Qed.
Print Assumptions C05_raw_refuted.
Example C05_ex : valid_date 7363 /\ valid_date (-730426) /\
  date_sub_date Debug 7363 (-730426) = Ok 737789.
Proof. unfold valid_date. repeat split; try lia; reflexivity. Qed.

(** C06 *)
Theorem C06_midnight : forall md d, ts_date d -> timestamp_of_date md d = Ok (d * usecs_day).
Proof. exact ts_of_date_ok. Qed.
Print Assumptions C06_midnight.
Theorem C06_too_late : forall md d, valid_date d -> ~ ts_date d ->
  timestamp_of_date md d = Err EOverflow.
Proof. exact ts_of_date_err. Qed.
Print Assumptions C06_too_late.
(** The first refused date is 1 January 294277. *)
Theorem C06_limit : forall md d, valid_date d ->
  (~ ts_date d <-> exists n, date_try_from_ymd md 294277 1 1 = Ok n /\ n <= d).
Proof.
  intros md d V. assert (date_try_from_ymd md 294277 1 1 = Ok 106751983) as -> by (destruct md; reflexivity).
  unfold ts_date, valid_date in *. split.
  - intros H. exists 106751983. split; [reflexivity|lia].
  - intros (n & [= <-] & H). lia.
Qed.
Print Assumptions C06_limit.
Theorem C06_infinite : forall md,
  timestamp_of_date md neg_inf_date = Ok neg_inf_ts /\
  timestamp_of_date md pos_inf_date = Ok pos_inf_ts.
Proof. exact ts_of_date_inf. Qed.
Print Assumptions C06_infinite.
Theorem C06_monotone : forall md a b x y, ts_date a -> ts_date b ->
  timestamp_of_date md a = Ok x -> timestamp_of_date md b = Ok y -> (a < b <-> x < y).
Proof.
  intros md a b x y A B. rewrite !ts_of_date_ok by auto. intros [= <-] [= <-].
  unfold usecs_day. lia.
Qed.
Print Assumptions C06_monotone.
Theorem C06_roundtrip : forall md d t, ts_date d \/ d = neg_inf_date \/ d = pos_inf_date ->
  timestamp_of_date md d = Ok t -> date_of_timestamp md t = Ok d.
Proof.
  intros md d t [H|[->| ->]] E.
  - pose proof (date_ts_date md d H) as R. rewrite E in R. exact R.
  - injection E as <-. reflexivity.
  - injection E as <-. reflexivity.
Qed.
Print Assumptions C06_roundtrip.
Example C06_ex : ts_date (-2451545) /\ ts_date 106751982 /\
  timestamp_of_date Debug 106751982 = Ok 9223371244800000000 /\
  timestamp_of_date Debug 106751983 = Err EOverflow.
Proof. unfold ts_date. repeat split; try lia; reflexivity. Qed.
