(** Timestamps: decomposition into fields and recomposition. *)
From Verif Require Import Model.DateTime Spec.Calendar Spec.Ranges Spec.Clock
  Proofs.Arith Proofs.Cal Proofs.DateP.

Definition mk (c : ymd) (h mi s : Z) : pgtime :=
  let '(y, m, d) := c in mkTm s mi h d m y 0 0 (-1).

Definition day_part (t : Z) : Z := t / usecs_day.
Definition time_part (t : Z) : Z := t mod usecs_day.

Definition hour_of (T : Z) := T / 3600000000.
Definition min_of (T : Z) := (T mod 3600000000) / 60000000.
Definition sec_of (T : Z) := (T mod 60000000) / 1000000.
Definition usec_of (T : Z) := T mod 1000000.

Lemma clock_split T : 0 <= T < usecs_day ->
  clock_ok (hour_of T) (min_of T) (sec_of T) (usec_of T)
  /\ clock (hour_of T) (min_of T) (sec_of T) (usec_of T) = T.
Proof.
  unfold usecs_day, clock_ok, clock, hour_of, min_of, sec_of, usec_of. intros H.
  assert (T mod 3600000000 = 60000000 * (T mod 3600000000 / 60000000) + T mod 60000000) by lia.
  assert (T mod 60000000 = 1000000 * (T mod 60000000 / 1000000) + T mod 1000000) by lia.
  lia.
Qed.

Lemma date2time_ok md T : 0 <= T <= usecs_day ->
  date2time md T = Ok (hour_of T, min_of T, sec_of T, usec_of T).
Proof.
  unfold usecs_day. intros H. unfold date2time, USECS_PER_HOUR, USECS_PER_MINUTE, USECS_PER_SEC.
  rewrite (Z.quot_div_nonneg T) by lia. rewrite (wrap32_id (T / 3600000000)) by (rng; lia).
  ar_unfold. ar1. ar1.
  replace (T - T / 3600000000 * 3600000000) with (T mod 3600000000) by lia.
  set (A := T mod 3600000000). assert (0 <= A < 3600000000) by (subst A; lia).
  rewrite (Z.quot_div_nonneg A) by lia. rewrite (wrap32_id (A / 60000000)) by (rng; lia).
  ar1. ar1.
  replace (A - A / 60000000 * 60000000) with (T mod 60000000) by (subst A; lia).
  set (B := T mod 60000000). assert (0 <= B < 60000000) by (subst B; lia).
  rewrite (Z.quot_div_nonneg B) by lia. rewrite (wrap32_id (B / 1000000)) by (rng; lia).
  ar1. ar1.
  replace (B - B / 1000000 * 1000000) with (T mod 1000000) by (subst B; lia).
  reflexivity.
Qed.

Lemma ts2t_gen md t : in_i64 t -> -2451545 <= day_part t ->
  timestamp2time md t =
  let T := time_part t in
  Ok (mk (day_of (day_part t + 2451545)) (hour_of T) (min_of T) (sec_of T), usec_of T).
Proof.
  unfold day_part, time_part. intros H64 Hd. cbv zeta.
  unfold timestamp2time, timestamp_modulo, USECS_PER_DAY, POSTGRES_EPOCH_JDATE.
  assert (exists q r, Z.quot t 86400000000 = q /\ t = 86400000000 * q + r
    /\ (r < 0 -> t / usecs_day = q - 1 /\ t mod usecs_day = r + 86400000000)
    /\ (0 <= r -> t / usecs_day = q /\ t mod usecs_day = r)
    /\ -86400000000 < r < 86400000000 /\ -106751992 <= q <= 106751992
    /\ (0 < q -> 0 <= r) /\ (q < 0 -> r <= 0)) as (q & r & Eq & Et & Hn & Hp & Br & Bq & Sp & Sn).
  { exists (Z.quot t 86400000000), (Z.rem t 86400000000). unfold usecs_day. rng.
    repeat split; try lia. }
  rewrite Eq. clear Eq.
  match goal with |- bind ?e _ = _ => assert (e = Ok (r, q)) as -> end.
  { ar_unfold. destruct (Z.eqb_spec q 0); cbn [negb bind].
    - f_equal. f_equal. lia.
    - rng. ar1. ar1. f_equal. f_equal. lia. }
  cbn [bind].
  match goal with |- bind ?e _ = _ => assert (e = Ok (t mod usecs_day, t / usecs_day)) as -> end.
  { destruct (Z.ltb_spec r 0).
    - destruct Hn as [E1 E2]; [lia|]. rewrite E1, E2. ar. reflexivity.
    - destruct Hp as [E1 E2]; [lia|]. now rewrite E1, E2. }
  cbn [bind].
  assert (t / usecs_day <= 106751992) by lia.
  assert (0 <= t mod usecs_day < usecs_day) by (unfold usecs_day; lia).
  set (D := t / usecs_day) in *. set (T := t mod usecs_day) in *. clearbody D T.
  ar_unfold. ar1. unfold i32_max.
  replace (D + 2451545 <? 0) with false by lia.
  replace (2147483647 <? D + 2451545) with false by lia. cbn [orb].
  rewrite wrap32_id by (rng; lia). rewrite julian2date_ok by lia. cbn [bind].
  destruct (day_of (D + 2451545)) as [[y m] d].
  rewrite date2time_ok by lia. reflexivity.
Qed.

Lemma valid_ts_i64 t : valid_ts t -> in_i64 t.
Proof. unfold valid_ts. rng. lia. Qed.
Lemma valid_ts_day t : valid_ts t -> -2451545 <= day_part t < 106751983.
Proof. unfold valid_ts, day_part, usecs_day. lia. Qed.
Lemma time_part_bounds t : 0 <= time_part t < usecs_day.
Proof. unfold time_part, usecs_day. lia. Qed.
Lemma day_time t : t = day_part t * usecs_day + time_part t.
Proof. unfold day_part, time_part, usecs_day. lia. Qed.
Lemma day_time_uniq n T t : t = n * usecs_day + T -> 0 <= T < usecs_day ->
  day_part t = n /\ time_part t = T.
Proof. unfold day_part, time_part, usecs_day. lia. Qed.

Lemma day_of_number n : 0 <= n + 2451545 -> day_number (day_of (n + 2451545)) n.
Proof. intros. apply day_number_J; [apply day_of_valid|]. now apply J_day_of. Qed.

Lemma ts2t_reading md t : valid_ts t ->
  exists c h mi s us, timestamp2time md t = Ok (mk c h mi s, us) /\ reading c h mi s us t.
Proof.
  intros V. pose proof (valid_ts_day t V) as D. pose proof (time_part_bounds t) as B.
  rewrite ts2t_gen by (auto using valid_ts_i64; lia). cbv zeta.
  destruct (clock_split (time_part t) B) as [C1 C2].
  do 5 eexists. split; [reflexivity|].
  split; [apply day_of_valid|]. split; [exact C1|].
  exists (day_part t). split; [apply day_of_number; lia|]. rewrite C2. apply day_time.
Qed.

(** ** Recomposition *)
Lemma is_valid_timestamp_spec t : is_valid_timestamp t = true <-> valid_ts t.
Proof. unfold is_valid_timestamp, valid_ts, MIN_TIMESTAMP, END_TIMESTAMP. lia. Qed.

Lemma time2t_ok md h mi s us : -500000 <= h <= 500000 -> -100000 <= mi <= 100000 ->
  in_i32 s -> -1000000000000 <= us <= 1000000000000 ->
  time2t md h mi s us = Ok (clock h mi s us).
Proof.
  intros. unfold time2t, clock, MINS_PER_HOUR, SECS_PER_MINUTE, USECS_PER_SEC. rng. ar. reflexivity.
Qed.

Lemma J_low y m d : valid_ymd (y, m, d) -> is_valid_julian y m = false ->
  J (y, m, d) <= -24 \/ 2147483644 < J (y, m, d).
Proof.
  intros V E. destruct (Z.le_gt_cases (J (y, m, d)) (-24)); [auto|right].
  pose proof (J_in_year y m d V) as I.
  destruct (Z.le_gt_cases (-4712) y).
  - assert (5874898 <= y /\ (y = 5874898 -> 6 <= m)) as [Hy Hm].
    { unfold is_valid_julian, JULIAN_MIN_YEAR, JULIAN_MAX_YEAR, JULIAN_MIN_MONTH, JULIAN_MAX_MONTH in E. lia. }
    destruct (Z.eq_dec y 5874898) as [->|].
    + destruct V as [Vm Vd]. rewrite (J_day 5874898 m d) in *.
      pose proof (J_mono_month 5874898 6 m). assert (J (5874898, 6, 0) = 2147483644) by reflexivity. lia.
    + pose proof (J_mono_year 5874899 y). assert (J (5874899, 1, 0) = 2147483858) by reflexivity. lia.
  - exfalso. destruct (Z.eq_dec y (-4713)) as [->|].
    + assert (m < 11) by (unfold is_valid_julian, JULIAN_MIN_YEAR, JULIAN_MAX_YEAR, JULIAN_MIN_MONTH, JULIAN_MAX_MONTH in E; lia).
      destruct V as [Vm Vd]. rewrite (J_day (-4713) m d) in *.
      pose proof (J_mono_month_lt (-4713) m 11). assert (J (-4713, 11, 0) = -24) by reflexivity. lia.
    + pose proof (J_mono_year (y + 1) (-4713)). assert (J (-4713, 1, 0) = -328) by reflexivity. lia.
Qed.

Lemma J_julian_bounds y m d : valid_ymd (y, m, d) -> is_valid_julian y m = true ->
  -24 <= J (y, m, d) <= 2147483647.
Proof.
  intros V E. pose proof (is_valid_julian_bounds _ _ E) as B. destruct V as [Hm Hd].
  pose proof (J_in_year y m d (conj Hm Hd)) as I.
  assert (J (5874898, 6, 0) = 2147483644) by reflexivity.
  assert (J (-4713, 11, 0) = -24) by reflexivity.
  rewrite (J_day y m d) in *. split.
  - destruct (Z.eq_dec y (-4713)) as [->|].
    + unfold is_valid_julian, JULIAN_MIN_YEAR, JULIAN_MAX_YEAR, JULIAN_MIN_MONTH, JULIAN_MAX_MONTH in E.
      pose proof (J_mono_month (-4713) 11 m). lia.
    + pose proof (J_mono_year (-4712) y). assert (J (-4712, 1, 0) = 37) by reflexivity. lia.
  - destruct (Z.eq_dec y 5874898) as [->|].
    + pose proof (J_mono_month_lt 5874898 m 6). lia.
    + pose proof (J_mono_year (y + 1) 5874898).
      assert (J (5874898, 1, 0) = 2147483493) by reflexivity. lia.
Qed.

Lemma to_ts_gen md tm us :
  let c := (tm_year tm, tm_mon tm, tm_mday tm) in
  let T := clock (tm_hour tm) (tm_min tm) (tm_sec tm) us in
  let t := (J c - 2451545) * usecs_day + T in
  valid_ymd c ->
  -500000 <= tm_hour tm <= 500000 -> -100000 <= tm_min tm <= 100000 -> in_i32 (tm_sec tm) ->
  -1000000000000 <= us <= 1000000000000 ->
  -usecs_day <= T <= 2 * usecs_day ->
  (valid_ts t -> to_timestamp md tm us = Ok t) /\
  (~ valid_ts t -> exists e, to_timestamp md tm us = Err e).
Proof.
  intros c T t V Hh Hm Hs Hu HT. unfold to_timestamp.
  destruct (is_valid_julian (tm_year tm) (tm_mon tm)) eqn:E; cbn [negb].
  - pose proof (J_julian_bounds _ _ _ V E) as JB.
    pose proof (is_valid_julian_bounds _ _ E) as B.
    destruct V as [Vm Vd]. pose proof (month_len_bounds (tm_year tm) (tm_mon tm) Vm) as ML.
    rewrite date2julian_ok by lia. cbn [bind].
    rewrite (date2julian_ok md 2000 1 1) by lia. cbn [bind].
    change (J (2000, 1, 1)) with 2451545.
    fold c in JB |- *. ar_unfold. ar1.
    rewrite time2t_ok by auto. fold T. cbn [bind].
    unfold chk64, USECS_PER_DAY. unfold usecs_day in *. unfold valid_ts.
    destruct (in64b ((J c - 2451545) * 86400000000)) eqn:I1; cbn [ok_or bind].
    + fold t. destruct (in64b t) eqn:I2; cbn [ok_or bind].
      * destruct (is_valid_timestamp t) eqn:VT; cbn [negb].
        -- apply is_valid_timestamp_spec in VT. unfold valid_ts in VT. split; [reflexivity|tauto].
        -- split; [|eauto]. intros VT'. apply is_valid_timestamp_spec in VT'. congruence.
      * split; [|eauto]. unfold in64b, i64_min, i64_max in I2. lia.
    + split; [|eauto]. unfold in64b, i64_min, i64_max in I1. subst t. lia.
  - split; [|eauto]. destruct (J_low _ _ _ V E) as [JL|JL]; fold c in JL;
      unfold valid_ts, t, usecs_day in *; lia.
Qed.

Lemma clock_bounds h mi s us : clock_ok h mi s us -> 0 <= clock h mi s us < usecs_day.
Proof. unfold clock_ok, clock, usecs_day. lia. Qed.

Lemma to_ts_reading md tm us t :
  reading (tm_year tm, tm_mon tm, tm_mday tm) (tm_hour tm) (tm_min tm) (tm_sec tm) us t ->
  (valid_ts t -> to_timestamp md tm us = Ok t) /\
  (~ valid_ts t -> exists e, to_timestamp md tm us = Err e).
Proof.
  intros (V & C & n & N & E). pose proof (clock_bounds _ _ _ _ C) as CB.
  apply day_number_J in N; auto.
  pose proof (to_ts_gen md tm us V) as G. cbv zeta in G.
  rewrite N in G. replace (n + 2451545 - 2451545) with n in G by lia. rewrite <- E in G.
  unfold clock_ok in C. apply G; rng; lia.
Qed.

Lemma reading_unique c h mi s us c' h' mi' s' us' t :
  reading c h mi s us t -> reading c' h' mi' s' us' t ->
  c = c' /\ h = h' /\ mi = mi' /\ s = s' /\ us = us'.
Proof.
  intros (V & C & n & N & E) (V' & C' & n' & N' & E').
  pose proof (clock_bounds _ _ _ _ C) as CB. pose proof (clock_bounds _ _ _ _ C') as CB'.
  assert (n = n') by (unfold usecs_day in *; lia). subst n'.
  split; [eapply day_number_inj; eauto|].
  unfold clock_ok, clock, usecs_day in *. lia.
Qed.

Lemma reading_fun c h mi s us t t' :
  reading c h mi s us t -> reading c h mi s us t' -> t = t'.
Proof.
  intros (V & C & n & N & E) (V' & C' & n' & N' & E').
  assert (n = n') by eauto using day_number_unique. subst. reflexivity.
Qed.

Lemma tm_mk c h mi s :
  (tm_year (mk c h mi s), tm_mon (mk c h mi s), tm_mday (mk c h mi s)) = c
  /\ tm_hour (mk c h mi s) = h /\ tm_min (mk c h mi s) = mi /\ tm_sec (mk c h mi s) = s.
Proof. destruct c as [[y m] d]. repeat split. Qed.

Lemma ts_recompose md t tm us : valid_ts t -> timestamp2time md t = Ok (tm, us) ->
  to_timestamp md tm us = Ok t.
Proof.
  intros V E. destruct (ts2t_reading md t V) as (c & h & mi & s & us' & E' & R).
  rewrite E in E'. injection E' as -> ->.
  destruct (tm_mk c h mi s) as (Hc & Hh & Hm & Hs).
  apply to_ts_reading; auto. rewrite Hc, Hh, Hm, Hs. exact R.
Qed.

(** ** Splitting *)
Lemma ts_finite_spec t : ts_is_finite t = true <-> t <> neg_inf_ts /\ t <> pos_inf_ts.
Proof. unfold ts_is_finite, neg_inf_ts, pos_inf_ts, i64_min, i64_max. lia. Qed.
Lemma valid_ts_finite t : valid_ts t -> ts_is_finite t = true.
Proof. rewrite ts_finite_spec. unfold valid_ts, neg_inf_ts, pos_inf_ts. lia. Qed.

Lemma reading_year_bounds c h mi s us t : reading c h mi s us t -> valid_ts t ->
  let '(y, m, d) := c in
  0 <= J c < 109203528 /\ -4713 <= y <= 294276 /\ (y = -4713 -> 11 <= m) /\ 1 <= m <= 12 /\ 1 <= d <= 31.
Proof.
  intros (V & C & n & N & E) VT. pose proof (clock_bounds _ _ _ _ C) as CB.
  apply day_number_J in N; auto. destruct c as [[y m] d].
  assert (0 <= J (y, m, d) < 109203528) as JB by (unfold valid_ts, usecs_day in *; lia).
  destruct (J_year_bounds y m d V ltac:(lia)) as [Y1 Y2].
  pose proof (J_in_year y m d V) as I. pose proof (month_len_bounds y m) as ML.
  destruct V as [Vm Vd].
  assert (y <= 294276).
  { destruct (Z.le_gt_cases y 294276); [auto|]. pose proof (J_mono_year 294277 y).
    assert (J (294277, 1, 0) = 109203527) by reflexivity. lia. }
  lia.
Qed.

Lemma date_of_ts_ok md t : valid_ts t -> date_of_timestamp md t = Ok (day_part t).
Proof.
  intros V. unfold date_of_timestamp.
  pose proof (valid_ts_finite t V) as F. unfold ts_is_finite in F.
  replace (t =? i64_min) with false by lia. replace (t =? i64_max) with false by lia.
  destruct (ts2t_reading md t V) as (c & h & mi & s & us & E & R). rewrite E. cbn [bind].
  pose proof (reading_year_bounds _ _ _ _ _ _ R V) as Y.
  destruct R as (Vc & C & n & N & Et). pose proof (clock_bounds _ _ _ _ C) as CB.
  apply day_number_J in N; auto. destruct c as [[y m] d]. cbn [mk tm_year tm_mon tm_mday].
  rewrite date2julian_ok by lia. cbn [bind]. unfold POSTGRES_EPOCH_JDATE. ar.
  f_equal. destruct (day_time_uniq n (clock h mi s us) t) as [-> _]; auto. lia.
Qed.

Lemma time_of_ts_ok md t : valid_ts t -> time_of_timestamp md t = Ok (Some (time_part t)).
Proof.
  intros V. unfold time_of_timestamp. rewrite valid_ts_finite by auto. cbn [negb].
  destruct (ts2t_reading md t V) as (c & h & mi & s & us & E & R). rewrite E. cbn [bind].
  destruct R as (Vc & C & n & N & Et). pose proof (clock_bounds _ _ _ _ C) as CB.
  destruct (day_time_uniq n (clock h mi s us) t) as [_ ->]; auto.
  destruct (tm_mk c h mi s) as (Hc & -> & -> & ->).
  unfold clock_ok, clock in *. unfold MINS_PER_HOUR, SECS_PER_MINUTE, USECS_PER_SEC. ar. reflexivity.
Qed.

Lemma ts_inf_date md :
  date_of_timestamp md neg_inf_ts = Ok neg_inf_date /\ date_of_timestamp md pos_inf_ts = Ok pos_inf_date.
Proof. split; reflexivity. Qed.
Lemma ts_inf_time md :
  time_of_timestamp md neg_inf_ts = Ok None /\ time_of_timestamp md pos_inf_ts = Ok None.
Proof. split; reflexivity. Qed.

Lemma add_interval_time md t x : valid_ts t -> in_i64 (t + x) ->
  timestamp_add_interval md t (from_mdt 0 0 x) =
  if is_valid_timestamp (t + x) then Ok (t + x) else Err EInvalid.
Proof.
  intros V H. unfold timestamp_add_interval. rewrite valid_ts_finite by auto.
  cbn. rewrite wrap64_id by auto. now destruct (is_valid_timestamp (t + x)).
Qed.

Lemma add_time_split md t : valid_ts t ->
  date_add_time md (day_part t) (time_part t) = Ok t.
Proof.
  intros V. pose proof (valid_ts_day t V) as D. pose proof (time_part_bounds t) as B.
  pose proof (day_time t) as E.
  unfold date_add_time. rewrite ts_of_date_ok by (unfold ts_date; lia). cbn [bind].
  assert (valid_ts (day_part t * usecs_day)) as V0 by (apply ts_date_valid; unfold ts_date; lia).
  rewrite valid_ts_finite by auto.
  unfold timestamp_add_time, interval_of_time.
  rewrite add_interval_time; auto; rewrite <- E; auto using valid_ts_i64.
  apply is_valid_timestamp_spec in V. rewrite V. cbn. now rewrite V.
Qed.

(** Date -> Timestamp -> Date *)
Lemma date_ts_date md d : ts_date d ->
  (let* t := timestamp_of_date md d in date_of_timestamp md t) = Ok d.
Proof.
  intros H. rewrite ts_of_date_ok by auto. cbn [bind].
  rewrite date_of_ts_ok by now apply ts_date_valid. f_equal.
  unfold day_part, usecs_day. lia.
Qed.
