(** C11, C18-C20, C23-C27, C29, C30: intervals and times of day. *)
From Verif Require Import Model.DateTime Spec.Calendar Spec.Ranges Spec.Clock Spec.IntervalS
  Proofs.Arith Proofs.TsP Proofs.AddP Proofs.IntervalP Proofs.TimeP.
From Coq Require Import Lia.

(** C11. Difference of timestamps. *)
Theorem C11_sub_timestamp : forall md a b, valid_ts a -> valid_ts b -> in_i64 (a - b) ->
  exists i, timestamp_sub_timestamp md a b = Ok i /\ iv_month i = 0 /\
    Z.abs (iv_time i) < usecs_day /\ agree (iv_day i) (iv_time i) /\
    iv_day i * usecs_day + iv_time i = a - b /\ timestamp_add_interval md b i = Ok a.
Proof. exact sub_timestamp_ok. Qed.
Print Assumptions C11_sub_timestamp.
Theorem C11_infinite : forall md a b,
  a = pos_inf_ts \/ a = neg_inf_ts \/ b = pos_inf_ts \/ b = neg_inf_ts ->
  timestamp_sub_timestamp md a b = Err EInvalid.
Proof. exact sub_timestamp_inf. Qed.
Print Assumptions C11_infinite.
(** Finding: the 64-bit subtraction is unchecked. *)
Theorem C11_far_apart_refuted : exists a b i, valid_ts a /\ valid_ts b /\
  timestamp_sub_timestamp Debug a b = Fault FArith /\
  timestamp_sub_timestamp Release a b = Ok i /\ iv_day i * usecs_day + iv_time i <> a - b.
Proof.
  exists 9223371331199999999, (-211813488000000000), (from_mdt 0 (-104300454) (-28909551617)).
  unfold valid_ts. repeat split; try lia; vm_compute; try reflexivity; discriminate.
Qed.
Print Assumptions C11_far_apart_refuted.
Example C11_ex : valid_ts (-1) /\ valid_ts 86400000000 /\
  timestamp_sub_timestamp Debug (-1) 86400000000 = Ok (from_mdt 0 (-1) (-1)) /\
  timestamp_add_interval Debug 86400000000 (from_mdt 0 (-1) (-1)) = Ok (-1).
Proof. unfold valid_ts. repeat split; try lia; reflexivity. Qed.

(** C18. Time of day arithmetic. *)
Theorem C18_range : forall md t i,
  (exists r, time_add_interval md t i = Ok r /\ 0 <= r < usecs_day) /\
  (exists r, time_sub_interval md t i = Ok r /\ 0 <= r < usecs_day).
Proof.
  intros. rewrite time_add_ok, time_sub_ok. split; eexists; (split; [reflexivity|]);
  apply wrap64_mod_range.
Qed.
Print Assumptions C18_range.
Theorem C18_add : forall md t m d x, in_i64 (t + x) ->
  exists r k, time_add_interval md t (from_mdt m d x) = Ok r /\ r = t + x + k * usecs_day.
Proof.
  intros. rewrite time_add_ok. cbn [from_mdt iv_time]. rewrite wrap64_id by auto.
  exists ((t + x) mod usecs_day), (- ((t + x) / usecs_day)). split; [reflexivity|].
  unfold usecs_day. lia.
Qed.
Print Assumptions C18_add.
Theorem C18_sub : forall md t m d x, in_i64 (t - x) ->
  exists r k, time_sub_interval md t (from_mdt m d x) = Ok r /\ r = t - x + k * usecs_day.
Proof.
  intros. rewrite time_sub_ok. cbn [from_mdt iv_time]. rewrite wrap64_id by auto.
  exists ((t - x) mod usecs_day), (- ((t - x) / usecs_day)). split; [reflexivity|].
  unfold usecs_day. lia.
Qed.
Print Assumptions C18_sub.
Theorem C18_ignores_days : forall md t m d m' d' x,
  time_add_interval md t (from_mdt m d x) = time_add_interval md t (from_mdt m' d' x) /\
  time_sub_interval md t (from_mdt m d x) = time_sub_interval md t (from_mdt m' d' x).
Proof. split; reflexivity. Qed.
Print Assumptions C18_ignores_days.
Theorem C18_undo : forall md t i r, 0 <= t < usecs_day -> in_i64 (t + iv_time i) ->
  i64_min + usecs_day <= iv_time i ->
  time_add_interval md t i = Ok r -> time_sub_interval md r i = Ok t.
Proof.
  intros md t i r T H H2. rewrite time_add_ok, time_sub_ok. rewrite wrap64_id by auto.
  intros [= <-]. unfold usecs_day in *. rewrite wrap64_id.
  - f_equal. lia.
  - rng. lia.
Qed.
Print Assumptions C18_undo.
Example C18_ex : time_add_interval Debug 82800000000 (from_mdt 5 7 7200000000) = Ok 3600000000 /\
  time_sub_interval Debug 3600000000 (from_mdt 5 7 7200000000) = Ok 82800000000 /\
  in_i64 (82800000000 + 7200000000).
Proof. rng. repeat split; try lia; reflexivity. Qed.

(** C19 *)
Theorem C19_sub_time : forall md a b, 0 <= a < usecs_day -> 0 <= b < usecs_day ->
  time_sub_time a b = from_mdt 0 0 (a - b) /\
  time_add_interval md b (time_sub_time a b) = Ok a.
Proof.
  intros md a b A B. unfold time_sub_time, usecs_day in *.
  rewrite wrap64_id by (rng; lia). split; [reflexivity|].
  rewrite time_add_ok. cbn [from_mdt iv_time]. rewrite wrap64_id by (rng; lia). f_equal.
  unfold usecs_day. lia.
Qed.
Print Assumptions C19_sub_time.
Theorem C19_antisymmetric : forall a b, 0 <= a <= usecs_day -> 0 <= b <= usecs_day ->
  iv_time (time_sub_time a b) = - iv_time (time_sub_time b a).
Proof.
  intros a b A B. unfold time_sub_time, usecs_day in *. cbn [from_mdt iv_time].
  rewrite !wrap64_id by (rng; lia). lia.
Qed.
Print Assumptions C19_antisymmetric.
Example C19_ex : time_sub_time 1000000 82800000000 = from_mdt 0 0 (-82799000000) /\
  time_add_interval Debug 82800000000 (from_mdt 0 0 (-82799000000)) = Ok 1000000.
Proof. split; reflexivity. Qed.

(** C20. The floor remainder of the interval's time part. *)
Theorem C20_of_interval : forall md i, in_i64 (iv_time i) -> i64_min + usecs_day < iv_time i ->
  exists r k, time_of_interval md i = Ok r /\ 0 <= r < usecs_day /\ iv_time i = k * usecs_day + r.
Proof.
  intros md i H H2. rewrite time_of_interval_ok by auto.
  exists (iv_time i mod usecs_day), (iv_time i / usecs_day). unfold usecs_day.
  split; [reflexivity|]. lia.
Qed.
Print Assumptions C20_of_interval.
Theorem C20_near_min_refuted : exists i r, fields_ok i /\
  time_of_interval Debug i = Fault FArith /\
  time_of_interval Release i = Ok r /\ ~ 0 <= r < usecs_day.
Proof.
  exists (from_mdt 0 0 (-9223372036854775808)), 100854775808.
  unfold fields_ok. cbn [from_mdt iv_month iv_day iv_time]. rng.
  split; [lia|]. split; [vm_compute; reflexivity|].
  split; [vm_compute; reflexivity|unfold usecs_day; lia].
Qed.
Print Assumptions C20_near_min_refuted.
Example C20_ex : time_of_interval Debug (from_mdt 1 1 (-1)) = Ok 86399999999 /\
  time_of_interval Debug (from_mdt 1 1 172800000005) = Ok 5.
Proof. split; reflexivity. Qed.

(** C23. Interval algebra. *)
Theorem C23_add : forall a b r, interval_add a b = Ok r <->
  fields_ok r /\ r = from_mdt (iv_month a + iv_month b) (iv_day a + iv_day b) (iv_time a + iv_time b).
Proof. exact interval_add_spec. Qed.
Print Assumptions C23_add.
Theorem C23_sub : forall a b r, interval_sub a b = Ok r <->
  fields_ok r /\ r = from_mdt (iv_month a - iv_month b) (iv_day a - iv_day b) (iv_time a - iv_time b).
Proof. exact interval_sub_spec. Qed.
Print Assumptions C23_sub.
Theorem C23_negate : forall a r, interval_negate a = Ok r <->
  fields_ok r /\ r = from_mdt (- iv_month a) (- iv_day a) (- iv_time a).
Proof. exact interval_neg_spec. Qed.
Print Assumptions C23_negate.
(** Otherwise the answer is an Overflow error, never a panic. *)
Theorem C23_total : forall a b,
  ok_or_overflow (interval_add a b) /\ ok_or_overflow (interval_sub a b) /\
  ok_or_overflow (interval_negate a).
Proof. auto using interval_add_total, interval_sub_total, interval_neg_total. Qed.
Print Assumptions C23_total.
Theorem C23_add_comm : forall a b, interval_add a b = interval_add b a.
Proof.
  intros a b. unfold interval_add. now rewrite (Z.add_comm (iv_month a)), (Z.add_comm (iv_day a)),
    (Z.add_comm (iv_time a)).
Qed.
Print Assumptions C23_add_comm.
Theorem C23_add_assoc : forall a b c x y r s,
  interval_add a b = Ok x -> interval_add x c = Ok r ->
  interval_add b c = Ok y -> interval_add a y = Ok s -> r = s.
Proof.
  intros a b c x y r s. rewrite !interval_add_spec. intros (_ & ->) (_ & ->) (_ & ->) (_ & ->).
  cbn [from_mdt iv_month iv_day iv_time]. unfold from_mdt. f_equal; ring.
Qed.
Print Assumptions C23_add_assoc.
Theorem C23_sub_is_add_neg : forall a b n, interval_negate b = Ok n -> interval_sub a b = interval_add a n.
Proof.
  intros a b n. rewrite interval_neg_spec. intros (_ & ->). unfold interval_sub, interval_add.
  cbn [from_mdt iv_month iv_day iv_time]. rewrite !Z.add_opp_r. reflexivity.
Qed.
Print Assumptions C23_sub_is_add_neg.
Theorem C23_sub_self : forall a, interval_sub a a = Ok (from_mdt 0 0 0).
Proof.
  intros a. apply interval_sub_spec. rewrite !Z.sub_diag. split; [|reflexivity].
  unfold fields_ok. cbn. rng. lia.
Qed.
Print Assumptions C23_sub_self.
Theorem C23_neg_neg : forall a n, fields_ok a -> interval_negate a = Ok n -> interval_negate n = Ok a.
Proof.
  intros a n F. rewrite !interval_neg_spec. intros (_ & ->). split; [exact F|].
  destruct a as [t d m]. cbn [from_mdt iv_month iv_day iv_time]. rewrite !Z.opp_involutive. reflexivity.
Qed.
Print Assumptions C23_neg_neg.
Theorem C23_operator : forall a b,
  (forall r, interval_add a b = Ok r -> interval_op_add a b = Ok r) /\
  (forall e, interval_add a b = Err e -> interval_op_add a b = Fault FUnwrap).
Proof. intros. unfold interval_op_add. split; intros ? ->; reflexivity. Qed.
Print Assumptions C23_operator.
Example C23_ex : interval_add (from_mdt 1 2 3) (from_mdt 10 (-20) 30) = Ok (from_mdt 11 (-18) 33) /\
  interval_add (from_mdt 2147483647 0 0) (from_mdt 1 0 0) = Err EOverflow /\
  interval_negate (from_mdt 0 (-2147483648) 0) = Err EOverflow.
Proof. repeat split. Qed.

(** C24. Ordering by the 30-day-month span. *)
Theorem C24_cmp : forall a b, interval_cmp a b = Z.compare (span_of a) (span_of b).
Proof. intros. unfold interval_cmp. now rewrite !to_i128_span. Qed.
Print Assumptions C24_cmp.
Theorem C24_antisym : forall a b, interval_cmp b a = CompOpp (interval_cmp a b).
Proof. intros. apply Z.compare_antisym. Qed.
Print Assumptions C24_antisym.
Theorem C24_trans : forall a b c o, interval_cmp a b = o -> interval_cmp b c = o ->
  interval_cmp a c = o.
Proof.
  intros a b c o. rewrite !C24_cmp. intros <-.
  destruct (Z.compare_spec (span_of a) (span_of b)), (Z.compare_spec (span_of b) (span_of c)),
    (Z.compare_spec (span_of a) (span_of c)); intros; try reflexivity; try discriminate; lia.
Qed.
Print Assumptions C24_trans.
(** 128-bit arithmetic is wide enough for every partial sum. *)
Theorem C24_no_overflow : forall a, fields_ok a ->
  Z.abs (iv_time a) < 2 ^ 127 /\ Z.abs (iv_day a * usecs_day) < 2 ^ 127 /\
  Z.abs (iv_time a + iv_day a * usecs_day) < 2 ^ 127 /\
  Z.abs (iv_month a * 30 * usecs_day) < 2 ^ 127 /\ Z.abs (span_of a) < 2 ^ 127.
Proof.
  intros a (M & D & T). unfold span_of, span, usecs_day. rng. lia.
Qed.
Print Assumptions C24_no_overflow.
(** Finding: Ord calls intervals Equal that == distinguishes. *)
Theorem C24_eq_inconsistent_refuted : exists a b, fields_ok a /\ fields_ok b /\
  interval_cmp a b = Eq /\ interval_eqb a b = false.
Proof.
  exists (from_mdt 1 0 0), (from_mdt 0 30 0). unfold fields_ok. cbn [from_mdt iv_month iv_day iv_time].
  rng. repeat split; try lia; reflexivity.
Qed.
Print Assumptions C24_eq_inconsistent_refuted.
Theorem C24_eqb : forall a b, interval_eqb a b = true <-> a = b.
Proof.
  intros [t d m] [t' d' m']. unfold interval_eqb. cbn [iv_time iv_day iv_month].
  rewrite !Bool.andb_true_iff, !Z.eqb_eq. split; [intros ((-> & ->) & ->); reflexivity|].
  intros [= -> -> ->]. auto.
Qed.
Print Assumptions C24_eqb.
Example C24_ex : interval_cmp (from_mdt 1 (-1) 0) (from_mdt 0 29 1) = Lt /\
  interval_cmp (from_mdt 0 1 0) (from_mdt 0 0 86399999999) = Gt.
Proof. split; reflexivity. Qed.

(** C25. justify_hours *)
Theorem C25_normalises : forall md a, fields_ok a ->
  exists r, justify_hours md a = Ok r /\ fields_ok r /\ iv_month r = iv_month a /\
    Z.abs (iv_time r) < usecs_day /\ agree (iv_day r) (iv_time r).
Proof.
  intros md a F. destruct (justify_hours_total md a F) as (r & E & Fr). exists r.
  destruct (justify_hours_norm md a r F E) as (? & ? & ?). auto.
Qed.
Print Assumptions C25_normalises.
(** [whole] is the number of whole days in the time part, toward zero. *)
Theorem C25_keeps_span : forall md a r whole, fields_ok a ->
  toward_zero usecs_day (iv_time a) (whole * usecs_day) -> in_i32 (iv_day a + whole) ->
  justify_hours md a = Ok r ->
  iv_day r * usecs_day + iv_time r = iv_day a * usecs_day + iv_time a.
Proof.
  intros md a r w F W I. apply justify_hours_span; auto. unfold jh_day.
  assert (w = Z.quot (iv_time a) usecs_day) as <-; [|exact I].
  assert (w * usecs_day = Z.quot (iv_time a) usecs_day * usecs_day) as E.
  { apply (toward_zero_fun usecs_day (iv_time a)); [unfold usecs_day; lia|exact W|].
    apply (trunc_to_spec (iv_time a) usecs_day). unfold usecs_day; lia. }
  unfold usecs_day in *. lia.
Qed.
Print Assumptions C25_keeps_span.
Theorem C25_unique : forall d t d' t', Z.abs t < usecs_day -> Z.abs t' < usecs_day ->
  agree d t -> agree d' t' -> d * usecs_day + t = d' * usecs_day + t' -> d = d' /\ t = t'.
Proof. exact hours_normal_unique. Qed.
Print Assumptions C25_unique.
Theorem C25_idempotent : forall md a r, fields_ok a -> justify_hours md a = Ok r ->
  justify_hours md r = Ok r.
Proof.
  intros md a r F E. destruct (justify_hours_total md a F) as (r' & E' & Fr).
  rewrite E in E'. injection E' as <-.
  destruct (justify_hours_norm md a r F E) as (? & ? & ?). apply justify_hours_fixed; auto.
Qed.
Print Assumptions C25_idempotent.
Example C25_ex : justify_hours Debug (from_mdt 3 2 (-90000000000)) = Ok (from_mdt 3 0 82800000000) /\
  2 * 86400000000 - 90000000000 = 82800000000 /\
  toward_zero usecs_day (-90000000000) ((-1) * usecs_day).
Proof. split; [reflexivity|]. unfold toward_zero, agree, usecs_day. split; [lia|]. exists (-1). lia. Qed.

(** C26. justify_days *)
Theorem C26_normalises : forall md a, fields_ok a ->
  exists r, justify_days md a = Ok r /\ fields_ok r /\ iv_time r = iv_time a /\
    Z.abs (iv_day r) < 30 /\ agree (iv_month r) (iv_day r).
Proof.
  intros md a F. destruct (justify_days_total md a F) as (r & E & Fr). exists r.
  destruct (justify_days_norm md a r F E) as (? & ? & ?). auto.
Qed.
Print Assumptions C26_normalises.
Theorem C26_keeps_span : forall md a r whole, fields_ok a ->
  toward_zero 30 (iv_day a) (whole * 30) -> in_i32 (iv_month a + whole) ->
  justify_days md a = Ok r -> iv_month r * 30 + iv_day r = iv_month a * 30 + iv_day a.
Proof.
  intros md a r w F W I. apply justify_days_span; auto.
  assert (w = Z.quot (iv_day a) 30) as <-; [|exact I].
  assert (w * 30 = Z.quot (iv_day a) 30 * 30) as E.
  { apply (toward_zero_fun 30 (iv_day a)); [lia|exact W|]. apply (trunc_to_spec (iv_day a) 30). lia. }
  lia.
Qed.
Print Assumptions C26_keeps_span.
Theorem C26_unique : forall m d m' d', Z.abs d < 30 -> Z.abs d' < 30 ->
  agree m d -> agree m' d' -> m * 30 + d = m' * 30 + d' -> m = m' /\ d = d'.
Proof. exact days_normal_unique. Qed.
Print Assumptions C26_unique.
Theorem C26_idempotent : forall md a r, fields_ok a -> justify_days md a = Ok r ->
  justify_days md r = Ok r.
Proof.
  intros md a r F E. destruct (justify_days_total md a F) as (r' & E' & Fr).
  rewrite E in E'. injection E' as <-.
  destruct (justify_days_norm md a r F E) as (? & ? & ?). apply justify_days_fixed; auto.
Qed.
Print Assumptions C26_idempotent.
Example C26_ex : justify_days Debug (from_mdt 2 (-35) 7) = Ok (from_mdt 0 25 7) /\
  toward_zero 30 (-35) ((-1) * 30).
Proof. split; [reflexivity|]. unfold toward_zero, agree. exists (-1). lia. Qed.

(** C27. justify_interval *)
Theorem C27_normalises : forall md a, fields_ok a ->
  exists r, justify_interval md a = Ok r /\ fields_ok r /\
    Z.abs (iv_time r) < usecs_day /\ Z.abs (iv_day r) < 30 /\
    agree (iv_month r) (iv_day r) /\ agree (iv_month r) (iv_time r) /\ agree (iv_day r) (iv_time r).
Proof. exact justify_interval_total. Qed.
Print Assumptions C27_normalises.
Theorem C27_keeps_span : forall md a r wd wm, fields_ok a ->
  toward_zero usecs_day (iv_time a) (wd * usecs_day) -> in_i32 (iv_day a + wd) ->
  toward_zero 30 (iv_day a + wd) (wm * 30) -> in_i32 (iv_month a + wm) ->
  justify_interval md a = Ok r -> span_of r = span_of a.
Proof.
  intros md a r wd wm F W I W2 I2.
  assert (wd = Z.quot (iv_time a) usecs_day) as E.
  { assert (wd * usecs_day = Z.quot (iv_time a) usecs_day * usecs_day) as E.
    { apply (toward_zero_fun usecs_day (iv_time a)); [unfold usecs_day; lia|exact W|].
      apply (trunc_to_spec (iv_time a) usecs_day). unfold usecs_day; lia. }
    unfold usecs_day in *. lia. }
  assert (iv_day a + wd = jh_day a) as E1 by (unfold jh_day; lia). rewrite E1 in *.
  assert (wm = Z.quot (jh_day a) 30) as E2.
  { assert (wm * 30 = Z.quot (jh_day a) 30 * 30) as E2.
    { apply (toward_zero_fun 30 (jh_day a)); [lia|exact W2|]. apply (trunc_to_spec (jh_day a) 30). lia. }
    lia. }
  apply justify_interval_span; auto. unfold ji_month. now rewrite <- E2.
Qed.
Print Assumptions C27_keeps_span.
Theorem C27_unique : forall a b, normal3 a -> normal3 b -> span_of a = span_of b -> a = b.
Proof. exact normal3_unique. Qed.
Print Assumptions C27_unique.
Theorem C27_idempotent : forall md a r, fields_ok a -> justify_interval md a = Ok r ->
  justify_interval md r = Ok r.
Proof.
  intros md a r F E. destruct (justify_interval_total md a F) as (r' & E' & Fr & N).
  rewrite E in E'. injection E' as <-. apply justify_interval_fixed; auto.
Qed.
Print Assumptions C27_idempotent.
Example C27_ex : justify_interval Debug (from_mdt 1 0 (-3600000000)) = Ok (from_mdt 0 29 82800000000) /\
  span 1 0 (-3600000000) = span 0 29 82800000000.
Proof. split; reflexivity. Qed.

(** C29. Precision. *)
Theorem C29_time : forall md t p, 0 <= t <= usecs_day + 60000000 -> 0 <= p <= 6 ->
  exists r, time_adjust_by_typmod md t p = Ok r /\ rounded (10 ^ (6 - p)) t r.
Proof.
  intros md t p T P. unfold time_adjust_by_typmod, usecs_day in *.
  destruct (Z.leb_spec 0 p), (Z.leb_spec p 6); try lia. apply round_scale_ok; [lia|unfold i64_max; lia].
Qed.
Print Assumptions C29_time.
Theorem C29_timestamp : forall md t p, valid_ts t -> 0 <= p <= 6 ->
  exists r, timestamp_adjust_by_typmod md t p = Ok r /\ rounded (10 ^ (6 - p)) t r.
Proof.
  intros md t p T P. unfold timestamp_adjust_by_typmod. rewrite valid_ts_finite by auto.
  destruct (Z.eqb_spec p (-1)); [lia|]. destruct (Z.eqb_spec p 6) as [->|].
  - exists t. cbn [andb negb]. split; [reflexivity|]. apply (rounded_idem _ _ t); [lia|].
    change (10 ^ (6 - 6)) with 1. lia.
  - cbn [andb negb]. destruct (Z.ltb_spec p 0), (Z.ltb_spec 6 p); try lia. cbn [orb].
    apply round_scale_ok; [lia|]. unfold valid_ts in T. unfold i64_max. lia.
Qed.
Print Assumptions C29_timestamp.
Theorem C29_interval : forall md a p, 0 <= p <= 6 ->
  - (i64_max - 500000) <= iv_time a <= i64_max - 500000 ->
  exists r, interval_adjust_by_typmod md a (32767 * 65536 + p) = Ok (from_mdt (iv_month a) (iv_day a) r)
    /\ rounded (10 ^ (6 - p)) (iv_time a) r.
Proof.
  intros md a p P V. rewrite adjust_split by lia.
  destruct (range_step_ok RFull a) as (b & E & R & _). cbn [restricted] in R. subst b.
  change 32767 with (range_code RFull). rewrite E. cbn [bind].
  destruct (Z.eqb_spec p 65535); [lia|]. destruct (Z.ltb_spec 6 p); [lia|]. cbn [negb].
  destruct (round_scale_ok md (iv_time a) p P V) as (r & Er & Rr). exists r. rewrite Er. auto.
Qed.
Print Assumptions C29_interval.
(** No precision, or an unsupported one. *)
Theorem C29_none : forall md t a p,
  (p < 0 \/ 6 < p -> time_adjust_by_typmod md t p = Ok t) /\
  timestamp_adjust_by_typmod md t (-1) = Ok t /\
  (valid_ts t -> (p < -1 \/ 6 < p) -> timestamp_adjust_by_typmod md t p = Err EInvalid) /\
  (p < 0 -> interval_adjust_by_typmod md a p = Ok a) /\
  (6 < p < 65535 -> exists e, interval_adjust_by_typmod md a (32767 * 65536 + p) = Err e).
Proof.
  intros md t a p. split; [|split; [|split; [|split]]].
  - intros H. unfold time_adjust_by_typmod. destruct (Z.leb_spec 0 p), (Z.leb_spec p 6); try lia; reflexivity.
  - unfold timestamp_adjust_by_typmod. cbn [Z.eqb Pos.eqb negb]. rewrite Bool.andb_false_r. reflexivity.
  - intros V H. unfold timestamp_adjust_by_typmod. rewrite valid_ts_finite by auto.
    destruct (Z.eqb_spec p (-1)); [lia|]. destruct (Z.eqb_spec p 6); [lia|]. cbn [andb negb].
    destruct (Z.ltb_spec p 0), (Z.ltb_spec 6 p); try lia; reflexivity.
  - intros H. unfold interval_adjust_by_typmod. destruct (Z.leb_spec 0 p); [lia|reflexivity].
  - intros H. rewrite adjust_split by lia.
    destruct (range_step_ok RFull a) as (b & E & R & _). change 32767 with (range_code RFull).
    rewrite E. cbn [bind]. destruct (Z.eqb_spec p 65535); [lia|]. destruct (Z.ltb_spec 6 p); [|lia].
    eexists. reflexivity.
Qed.
Print Assumptions C29_none.
(** The relation is a function, at most half a unit away, idempotent and monotone. *)
Theorem C29_rounded_function : forall u v r r', 0 < u -> rounded u v r -> rounded u v r' -> r = r'.
Proof. exact rounded_fun. Qed.
Print Assumptions C29_rounded_function.
Theorem C29_rounded_monotone : forall u v w r s, 0 < u -> rounded u v r -> rounded u w s ->
  v <= w -> r <= s.
Proof. exact rounded_mono. Qed.
Print Assumptions C29_rounded_monotone.
Theorem C29_rounded_idempotent : forall u v r, 0 < u -> rounded u v r -> rounded u r r.
Proof. intros u v r U (k & E & _). eapply rounded_idem; eauto. Qed.
Print Assumptions C29_rounded_idempotent.
(** Finding: rounding leaves the valid range. *)
Theorem C29_out_of_range_refuted : exists t p r, valid_ts t /\ 0 <= p <= 6 /\
  (forall md, timestamp_adjust_by_typmod md t p = Ok r) /\ ~ valid_ts r.
Proof.
  exists 9223371331199999999, 0, 9223371331200000000. unfold valid_ts.
  repeat split; try lia. 
Qed.
Print Assumptions C29_out_of_range_refuted.
Example C29_ex : timestamp_adjust_by_typmod Debug (-1500) 3 = Ok (-2000) /\
  timestamp_adjust_by_typmod Debug 1499 3 = Ok 1000 /\ rounded 1000 (-1500) (-2000).
Proof. repeat split. exists (-2). lia. Qed.

(** C30. Interval qualifiers. *)
Theorem C30_range : forall md a r,
  exists b, interval_adjust_by_typmod md a (range_code r * 65536 + 65535) = Ok b /\ restricted r a b.
Proof.
  intros md a r. rewrite adjust_split by (destruct r; cbn; lia).
  destruct (range_step_ok r a) as (b & E & R & _). rewrite E. exists b. split; [reflexivity|exact R].
Qed.
Print Assumptions C30_range.
Theorem C30_range_precision : forall md a r p, 0 <= p <= 6 ->
  - (i64_max - 500000) <= iv_time a <= i64_max - 500000 ->
  exists b c, interval_adjust_by_typmod md a (range_code r * 65536 + p) = Ok c /\ restricted r a b /\
    iv_month c = iv_month b /\ iv_day c = iv_day b /\ rounded (10 ^ (6 - p)) (iv_time b) (iv_time c).
Proof.
  intros md a r p P V. rewrite adjust_split by (destruct r; cbn; lia).
  destruct (range_step_ok r a) as (b & E & R & _ & T). rewrite E. exists b. cbn [bind].
  destruct (Z.eqb_spec p 65535); [lia|]. destruct (Z.ltb_spec 6 p); [lia|]. cbn [negb].
  destruct (round_scale_ok md (iv_time b) p P) as (x & Er & Rr); [lia|]. rewrite Er.
  eexists. split; [reflexivity|]. auto.
Qed.
Print Assumptions C30_range_precision.
Theorem C30_unknown : forall md a c p, 0 <= c <= 32767 -> 0 <= p <= 65535 ->
  (forall r, c <> range_code r) -> interval_adjust_by_typmod md a (c * 65536 + p) = Err EInvalid.
Proof. intros md a c p C P H. rewrite adjust_split by auto. now rewrite range_step_bad. Qed.
Print Assumptions C30_unknown.
Theorem C30_negative : forall md a p, p < 0 -> interval_adjust_by_typmod md a p = Ok a.
Proof. intros md a p H. apply (C29_none md 0 a p). exact H. Qed.
Print Assumptions C30_negative.
Example C30_ex :
  interval_adjust_by_typmod Debug (from_mdt (-25) 3 4) (range_code RYear * 65536 + 65535)
    = Ok (from_mdt (-24) 0 0) /\
  interval_adjust_by_typmod Debug (from_mdt 25 3 3723000004) (range_code RDayMinute * 65536 + 65535)
    = Ok (from_mdt 25 3 3720000000).
Proof. split; vm_compute; reflexivity. Qed.
