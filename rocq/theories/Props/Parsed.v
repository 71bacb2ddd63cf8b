(** Ranges of parsed values: C43. *)
From Coq Require Import String.
From Verif Require Import Model.Parse Spec.Calendar Spec.Ranges Spec.Text Proofs.ParsedP.
From Coq Require Import List ZArith Bool Lia.
Import ListNotations.
Open Scope Z_scope.

(** A parsed date is in range or infinite, whatever the text. *)
Theorem C43_date : forall md s order n, date_try_from_str md s order = Ok n ->
  valid_date n \/ n = pos_inf_date \/ n = neg_inf_date.
Proof. exact date_range. Qed.
Print Assumptions C43_date.

(** So is a timestamp, unless its precision is cut down. *)
Theorem C43_timestamp : forall md s order p t, p = -1 \/ p = 6 -> timestamp_try_from_str md s p order = Ok t ->
  valid_ts t \/ t = pos_inf_ts \/ t = neg_inf_ts.
Proof. exact timestamp_range. Qed.
Print Assumptions C43_timestamp.

(** With any precision only one more value can appear, the first one after the supported range ... *)
Theorem C43_timestamp_any_typmod : forall md s order p t, timestamp_try_from_str md s p order = Ok t ->
  (valid_ts t \/ t = 9223371331200000000) \/ t = pos_inf_ts \/ t = neg_inf_ts.
Proof. exact timestamp_typmod_range. Qed.
Print Assumptions C43_timestamp_any_typmod.

(** ... and it does appear: the range is not checked again after rounding. *)
Theorem C43_timestamp_typmod_refuted : exists s t, forall md,
  timestamp_try_from_str md s 0 YMD = Ok t /\ ~ (valid_ts t \/ t = pos_inf_ts \/ t = neg_inf_ts).
Proof.
  exists (bs "294276-12-31 23:59:59.6"), 9223371331200000000. intros md. split; [destruct md; vm_compute; reflexivity|].
  unfold valid_ts, pos_inf_ts, neg_inf_ts. lia.
Qed.
Print Assumptions C43_timestamp_typmod_refuted.

(** A parsed time of day is between 00:00:00 and 24:00:01, for any precision. *)
Theorem C43_time : forall md s p order t, time_try_from_str md s p order = Ok t -> 0 <= t <= 86401000000.
Proof. exact time_range. Qed.
Print Assumptions C43_time.

(** The bound is reached. *)
Theorem C43_time_tight : forall md, time_try_from_str md (bs "23:59:60.9999999") (-1) YMD = Ok 86401000000.
Proof. destruct md; vm_compute; reflexivity. Qed.
Print Assumptions C43_time_tight.

(** If the text gave a year, a month and a day (the mask of fields seen is complete), the year, month
    and day decoded from it are a day of the calendar and the result is the number of that day.
    Props/DateText.v says which day that is for numeric dates. *)
Theorem C43_calendar : forall md order ts c s n,
  parse_date_time s = Ok ts -> date_time_fields md order ts ctx_new = Ok c ->
  Z.land (c_fmask c) DTK_DATE_M = DTK_DATE_M -> date_try_from_str md s order = Ok n ->
  (exists tm k fs, decode_date_time md order ts = Ok (tm, k, fs)
     /\ valid_ymd (tm_year tm, tm_mon tm, tm_mday tm) /\ day_number (tm_year tm, tm_mon tm, tm_mday tm) n)
  \/ n = pos_inf_date \/ n = neg_inf_date.
Proof. exact date_complete. Qed.
Print Assumptions C43_calendar.

(** A text with a time and no date is accepted as year 0, month 0, day 0, which is no day: the
    "no date" result of the decoder is ignored. *)
Theorem C43_calendar_refuted : exists s ts n, forall md,
  parse_date_time s = Ok ts /\ decode_date_time md YMD ts = Ok (set_hour 10 tm_new, KDate, 0)
  /\ ~ valid_ymd (tm_year tm_new, tm_mon tm_new, tm_mday tm_new)
  /\ date_try_from_str md s YMD = Ok n /\ valid_date n.
Proof.
  exists (bs "10:00:00"), [(Some KTime, bs "10:00:00")], (-730517). intros md.
  split; [reflexivity|]. split; [destruct md; vm_compute; reflexivity|]. split; [cbn; lia|].
  split; [destruct md; vm_compute; reflexivity|]. unfold valid_date. lia.
Qed.
Print Assumptions C43_calendar_refuted.

Example C43_example :
  date_try_from_str Debug (bs "5874897-12-31") YMD = Ok 2145031948
  /\ date_try_from_str Debug (bs "5874898-01-01") YMD = Err EInvalid
  /\ date_try_from_str Debug (bs "infinity") YMD = Ok pos_inf_date
  /\ timestamp_try_from_str Debug (bs "4714-11-23 23:59:59 BC") (-1) YMD = Err EInvalid
  /\ timestamp_try_from_str Debug (bs "-infinity") 3 YMD = Ok neg_inf_ts
  /\ (exists ts c, parse_date_time (bs "2 Jan 2000") = Ok ts /\ date_time_fields Debug DMY ts ctx_new = Ok c
      /\ Z.land (c_fmask c) DTK_DATE_M = DTK_DATE_M /\ date_try_from_str Debug (bs "2 Jan 2000") DMY = Ok 1).
Proof.
  do 5 (split; [vm_compute; reflexivity|]).
  do 2 eexists. split; [vm_compute; reflexivity|]. split; [vm_compute; reflexivity|].
  split; vm_compute; reflexivity.
Qed.
