(** C07-C10: timestamps, decomposition and interval addition. *)
From Verif Require Import Model.DateTime Spec.Calendar Spec.Ranges Spec.Clock Spec.Shift
  Proofs.DateP Proofs.TsP Proofs.AddP Proofs.Arith.
From Coq Require Import Lia.

(** C07. The break-down used by every accessor is a real calendar day and clock reading of the
    instant. *)
Theorem C07_decompose : forall md t, valid_ts t ->
  exists tm us, timestamp2time md t = Ok (tm, us) /\
    reading (tm_year tm, tm_mon tm, tm_mday tm) (tm_hour tm) (tm_min tm) (tm_sec tm) us t.
Proof.
  intros md t V. destruct (ts2t_reading md t V) as (c & h & mi & s & us & E & R).
  exists (mk c h mi s), us. destruct (tm_mk c h mi s) as (-> & -> & -> & ->). auto.
Qed.
Print Assumptions C07_decompose.
Theorem C07_recompose : forall md t tm us, valid_ts t ->
  timestamp2time md t = Ok (tm, us) -> to_timestamp md tm us = Ok t.
Proof. exact ts_recompose. Qed.
Print Assumptions C07_recompose.
(** A reading determines the instant and the instant the reading. *)
Theorem C07_reading_unique : forall c h mi s us c' h' mi' s' us' t,
  reading c h mi s us t -> reading c' h' mi' s' us' t ->
  c = c' /\ h = h' /\ mi = mi' /\ s = s' /\ us = us'.
Proof. exact reading_unique. Qed.
Print Assumptions C07_reading_unique.
Theorem C07_reading_fun : forall c h mi s us t t',
  reading c h mi s us t -> reading c h mi s us t' -> t = t'.
Proof. exact reading_fun. Qed.
Print Assumptions C07_reading_fun.
Example C07_ex : valid_ts (-1) /\ timestamp2time Debug (-1) =
  Ok (mkTm 59 59 23 31 12 1999 0 0 (-1), 999999).
Proof. unfold valid_ts. split; [lia|reflexivity]. Qed.

(** C08. Splitting into date and time. *)
Theorem C08_split : forall md t, valid_ts t ->
  exists d x, date_of_timestamp md t = Ok d /\ time_of_timestamp md t = Ok (Some x) /\
    d * usecs_day <= t < (d + 1) * usecs_day /\ x = t - d * usecs_day /\ 0 <= x < usecs_day /\
    date_add_time md d x = Ok t.
Proof.
  intros md t V. exists (day_part t), (time_part t).
  rewrite date_of_ts_ok, time_of_ts_ok, add_time_split by auto.
  unfold day_part, time_part, usecs_day. repeat split; lia.
Qed.
Print Assumptions C08_split.
Theorem C08_infinite : forall md,
  date_of_timestamp md neg_inf_ts = Ok neg_inf_date /\ date_of_timestamp md pos_inf_ts = Ok pos_inf_date /\
  time_of_timestamp md neg_inf_ts = Ok None /\ time_of_timestamp md pos_inf_ts = Ok None.
Proof. repeat split; reflexivity. Qed.
Print Assumptions C08_infinite.
Example C08_ex : valid_ts (-1) /\ date_of_timestamp Debug (-1) = Ok (-1) /\
  time_of_timestamp Debug (-1) = Ok (Some 86399999999).
Proof. unfold valid_ts. repeat split; try lia; reflexivity. Qed.

(** C09. Months, then days, then microseconds. [t1], [t2], [t3] are the instants after each step. *)
Theorem C09_add_interval : forall md c h mi s us t months days time t1,
  valid_ts t -> in_i32 months -> in_i32 days -> in_i64 time ->
  reading c h mi s us t -> reading (add_months c months) h mi s us t1 ->
  let t2 := t1 + days * usecs_day in
  let t3 := t2 + time in
  valid_ts t1 -> valid_ts t2 -> valid_ts t3 ->
  timestamp_add_interval md t (from_mdt months days time) = Ok t3.
Proof.
  intros md c h mi s us t months days time t1 V Hm Hd Ht R R1 t2 t3.
  pose proof (reading_instant _ _ _ _ _ _ R1) as ->. intros. eapply add_interval_ok; eauto.
Qed.
Print Assumptions C09_add_interval.
(** Errors instead of a wrong value when a step leaves the range. Two exceptions are genuine
    defects, see the _refuted theorems: the day step landing up to 130000 days before
    24 Nov 4714 BC, and a microsecond sum that wraps around 64 bits. *)
Theorem C09_add_interval_err : forall md c h mi s us t months days time t1,
  valid_ts t -> in_i32 months -> in_i32 days -> in_i64 time ->
  reading c h mi s us t -> reading (add_months c months) h mi s us t1 ->
  let t2 := t1 + days * usecs_day in
  let t3 := t2 + time in
  ~ valid_ts t1
  \/ (valid_ts t1 /\ ~ valid_ts t2 /\ ~ (-130000 <= t2 / usecs_day + 2451545 < 0))
  \/ (valid_ts t1 /\ valid_ts t2 /\ ~ valid_ts t3 /\ in_i64 t3) ->
  exists e, timestamp_add_interval md t (from_mdt months days time) = Err e.
Proof.
  intros md c h mi s us t months days time t1 V Hm Hd Ht R R1 t2 t3.
  pose proof (reading_instant _ _ _ _ _ _ R1) as ->. intros. eapply add_interval_err; eauto.
Qed.
Print Assumptions C09_add_interval_err.
(** Range closure, for every finite raw timestamp and interval. *)
Theorem C09_range : forall md t sp r, t <> neg_inf_ts -> t <> pos_inf_ts ->
  timestamp_add_interval md t sp = Ok r -> valid_ts r.
Proof. exact add_interval_range. Qed.
Print Assumptions C09_range.
Theorem C09_infinite : forall md sp,
  timestamp_add_interval md neg_inf_ts sp = Ok neg_inf_ts /\
  timestamp_add_interval md pos_inf_ts sp = Ok pos_inf_ts.
Proof. exact add_interval_inf. Qed.
Print Assumptions C09_infinite.
(** Finding: a day step to before 4714 BC panics in debug builds and can return a wrong but
    valid timestamp in release builds. *)
Theorem C09_early_days_refuted : exists t days r,
  valid_ts t /\ in_i32 days /\ ~ valid_ts (t + days * usecs_day) /\
  timestamp_add_interval Debug t (from_mdt 0 days 0) = Fault FArith /\
  timestamp_add_interval Release t (from_mdt 0 days 0) = Ok r /\ r <> t + days * usecs_day.
Proof.
  exists (-211813488000000000), (-40000), (-207649699200000000). unfold valid_ts, in_i32, i32_min, i32_max, usecs_day.
  repeat split; try lia; try (vm_compute; reflexivity).
Qed.
Print Assumptions C09_early_days_refuted.
(** Finding: the final 64-bit addition wraps, so a huge positive interval can move time back. *)
Theorem C09_wrap_refuted : exists t time r,
  valid_ts t /\ in_i64 time /\ 0 < time /\ (forall md,
  timestamp_add_interval md t (from_mdt 0 0 time) = Ok r) /\ r < t.
Proof.
  exists 9223371331199999999, 9223372036854775807, (-705654775810).
  unfold valid_ts, in_i64, i64_min, i64_max. repeat split; try lia.
  all: intros []; vm_compute; reflexivity.
Qed.
Print Assumptions C09_wrap_refuted.
Example C09_ex :
  timestamp_try_from_ymd_hms Debug 2020 1 31 10 0 (F64.f64_of_Z 0) = Ok 633780000000000 /\
  add_months (2020, 1, 31) 1 = (2020, 2, 29) /\
  timestamp_add_interval Debug 633780000000000 (from_mdt 1 1 1) = Ok 636372000000001 /\
  timestamp_try_from_ymd_hms Debug 2020 3 1 10 0 (F64.f64_of_Z 0) = Ok 636372000000000.
Proof. repeat split; vm_compute; reflexivity. Qed.

(** C10 *)
Theorem C10_sub_interval : forall md t sp n, interval_negate sp = Ok n ->
  timestamp_sub_interval md t sp = timestamp_add_interval md t n /\
  (forall d, date_sub_interval md d sp = date_add_interval md d n).
Proof.
  intros md t sp n E. unfold timestamp_sub_interval, date_sub_interval, date_add_interval,
    timestamp_sub_interval. rewrite E. split; reflexivity.
Qed.
Print Assumptions C10_sub_interval.
Theorem C10_negation : forall a, in_i32 (iv_month a) -> in_i32 (iv_day a) -> in_i64 (iv_time a) ->
  interval_negate a =
  if (iv_month a =? i32_min) || (iv_day a =? i32_min) || (iv_time a =? i64_min) then Err EOverflow
  else Ok (from_mdt (- iv_month a) (- iv_day a) (- iv_time a)).
Proof. exact negate_spec. Qed.
Print Assumptions C10_negation.
Theorem C10_no_negation : forall md t d sp,
  in_i32 (iv_month sp) -> in_i32 (iv_day sp) -> in_i64 (iv_time sp) ->
  iv_month sp = i32_min \/ iv_day sp = i32_min \/ iv_time sp = i64_min ->
  timestamp_sub_interval md t sp = Err EOverflow /\
  (ts_date d -> date_sub_interval md d sp = Err EOverflow).
Proof.
  intros md t d sp Hm Hd Ht H.
  assert (interval_negate sp = Err EOverflow) as E.
  { rewrite negate_spec by auto.
    destruct (Z.eqb_spec (iv_month sp) i32_min), (Z.eqb_spec (iv_day sp) i32_min),
      (Z.eqb_spec (iv_time sp) i64_min); try reflexivity; tauto. }
  unfold timestamp_sub_interval, date_sub_interval. rewrite E. split; [reflexivity|].
  intros D. rewrite ts_of_date_ok by auto. cbn. unfold timestamp_sub_interval. now rewrite E.
Qed.
Print Assumptions C10_no_negation.
Theorem C10_sub_undoes_add_time : forall md t x r,
  valid_ts t -> in_i64 x -> x <> i64_min -> valid_ts (t + x) ->
  timestamp_add_time md t x = Ok r -> r = t + x /\ timestamp_sub_time md r x = Ok t.
Proof. exact sub_time_add_time. Qed.
Print Assumptions C10_sub_undoes_add_time.
Example C10_ex : interval_negate (from_mdt 1 (-2) 3) = Ok (from_mdt (-1) 2 (-3)) /\
  timestamp_sub_interval Debug 636372000000000 (from_mdt 1 0 0) = Ok 633866400000000 /\
  timestamp_add_time Debug 5 7 = Ok 12 /\ timestamp_sub_time Debug 12 7 = Ok 5.
Proof. repeat split; vm_compute; reflexivity. Qed.
