(** Operations on a timestamp act on its date and on its time of day separately: C81. *)
From Verif Require Import Model.F64 Model.Common Model.DateTime Spec.Calendar Spec.Ranges Spec.Clock Spec.Shift Spec.IntervalS Spec.Units
  Proofs.Arith Proofs.Cal Proofs.DateP Proofs.TsP Proofs.AddP Proofs.TimeP Proofs.IntervalP Proofs.TruncP Props.Dates Props.Timestamps Props.Intervals Props.Units Props.Truncate.
From Coq Require Import List ZArith Bool Lia.
Import ListNotations.
Open Scope Z_scope.

Lemma split_valid t : valid_ts t -> ts_date (day_part t) /\ valid_date (day_part t).
Proof. intros V. pose proof (valid_ts_day t V) as H. unfold ts_date, valid_date, valid_ts, day_part, usecs_day in *. lia. Qed.
Lemma move_days t n : day_part (t + n * usecs_day) = day_part t + n /\ time_part (t + n * usecs_day) = time_part t.
Proof. unfold day_part, time_part, usecs_day. lia. Qed.

(** Adding days moves the date and keeps the time of day. *)
Theorem C81_days : forall md t n, valid_ts t -> in_i32 n -> valid_ts (t + n * usecs_day) -> exists r d c,
  timestamp_add_interval md t (from_mdt 0 n 0) = Ok r /\ date_of_timestamp md t = Ok d /\ time_of_timestamp md t = Ok (Some c)
  /\ date_of_timestamp md r = date_add_days d n /\ time_of_timestamp md r = Ok (Some c).
Proof.
  intros md t n V I V'. destruct (ts2t_reading md t V) as (k & h & mi & s & us & _ & R).
  pose proof (reading_instant _ _ _ _ _ _ R) as Ei. destruct (R) as (Vk & _).
  assert (timestamp_add_interval md t (from_mdt 0 n 0) = Ok (t + n * usecs_day)) as A.
  { pose proof (add_interval_ok md k h mi s us t 0 n 0 V ltac:(rng; lia) I ltac:(rng; lia) R) as A. cbv zeta in A.
    rewrite add_months_0, <- Ei, Z.add_0_r in A by exact Vk. now apply A. }
  exists (t + n * usecs_day), (day_part t), (time_part t). destruct (move_days t n) as (M1 & M2).
  rewrite A, !date_of_ts_ok, !time_of_ts_ok, M1, M2 by assumption.
  split; [reflexivity|]. split; [reflexivity|]. split; [reflexivity|]. split; [|reflexivity].
  destruct (split_valid t V) as (_ & Vd). destruct (split_valid _ V') as (_ & Vd'). rewrite M1 in Vd'.
  destruct (valid_not_inf _ Vd) as (N1 & N2). symmetry. now apply (add_days_spec (day_part t) n N1 N2).
Qed.
Print Assumptions C81_days.

(** Adding a clock time changes the time of day as it would alone, modulo 24 hours. *)
Theorem C81_clock : forall md t x c, valid_ts t -> in_i64 x -> valid_ts (t + x) -> time_of_timestamp md t = Ok (Some c) ->
  in_i64 (c + x) -> exists r c', timestamp_add_interval md t (from_mdt 0 0 x) = Ok r
  /\ time_add_interval md c (from_mdt 0 0 x) = Ok c' /\ time_of_timestamp md r = Ok (Some c').
Proof.
  intros md t x c V I V' E Ic. rewrite time_of_ts_ok in E by exact V. injection E as <-.
  destruct (ts2t_reading md t V) as (k & h & mi & s & us & _ & R).
  pose proof (reading_instant _ _ _ _ _ _ R) as Ei. destruct (R) as (Vk & _).
  exists (t + x), ((t + x) mod usecs_day). split; [|split].
  - pose proof (add_interval_ok md k h mi s us t 0 0 x V ltac:(rng; lia) ltac:(rng; lia) I R) as A. cbv zeta in A.
    rewrite add_months_0, <- Ei, Z.mul_0_l, Z.add_0_r in A by exact Vk. now apply A.
  - rewrite time_add_ok. cbn [from_mdt iv_time]. rewrite wrap64_id by exact Ic. f_equal. unfold time_part, usecs_day. lia.
  - rewrite time_of_ts_ok by exact V'. do 2 f_equal.
Qed.
Print Assumptions C81_clock.
(** Without the last condition this is false: near the largest number the sum with the time of day wraps while
    the sum with the timestamp does not. *)
Theorem C81_clock_refuted : exists t x c c', valid_ts t /\ in_i64 x /\ valid_ts (t + x) /\ forall md,
  time_of_timestamp md t = Ok (Some c) /\ time_add_interval md c (from_mdt 0 0 x) = Ok c'
  /\ exists r y, timestamp_add_interval md t (from_mdt 0 0 x) = Ok r /\ time_of_timestamp md r = Ok (Some y) /\ y <> c'.
Proof.
  exists (-691200000001), 9223372000000000000, 86399999999, 35090448383.
  unfold valid_ts, in_i64, i64_min, i64_max. split; [lia|]. split; [lia|]. split; [lia|]. intros md.
  split; [destruct md; vm_compute; reflexivity|]. split; [destruct md; vm_compute; reflexivity|].
  exists 9223371308799999999, 63999999999. split; [destruct md; vm_compute; reflexivity|]. split; [destruct md; vm_compute; reflexivity|lia].
Qed.
Print Assumptions C81_clock_refuted.

(** Adding months keeps the time of day and moves the date as it would alone. *)
Theorem C81_months : forall md t m r, valid_ts t -> in_i32 m -> timestamp_add_interval md t (from_mdt m 0 0) = Ok r ->
  exists d r0, date_of_timestamp md t = Ok d /\ date_add_interval md d (from_mdt m 0 0) = Ok r0
  /\ date_of_timestamp md r0 = date_of_timestamp md r /\ time_of_timestamp md r = time_of_timestamp md t.
Proof.
  intros md t m r V I E. destruct (ts2t_reading md t V) as (k & h & mi & s & us & _ & R).
  pose proof (reading_instant _ _ _ _ _ _ R) as Ei. destruct (R) as (Vk & C & n & N & En).
  pose proof (add_interval_ok md k h mi s us t m 0 0 V I ltac:(rng; lia) ltac:(rng; lia) R) as A.
  pose proof (add_interval_err md k h mi s us t m 0 0 V I ltac:(rng; lia) ltac:(rng; lia) R) as B.
  cbv zeta in A, B. rewrite Z.mul_0_l, !Z.add_0_r in A, B. set (t1 := instant (add_months k m) (clock h mi s us)) in *.
  assert (valid_ts t1) as V1.
  { destruct (is_valid_timestamp t1) eqn:Q; [now apply is_valid_timestamp_spec|]. destruct B as (e & B); [|congruence].
    left. intros W. apply is_valid_timestamp_spec in W. congruence. }
  rewrite A in E by assumption. injection E as <-.
  pose proof (clock_bounds _ _ _ _ C) as CB. destruct (day_time_uniq n (clock h mi s us) t En CB) as (Dt & Tt).
  set (e := J (add_months k m) - 2451545).
  assert (t1 = e * usecs_day + clock h mi s us) as E1 by (unfold t1, instant, e; lia).
  destruct (day_time_uniq e (clock h mi s us) t1 E1 CB) as (D1 & T1).
  destruct (split_valid t V) as (Td & _). rewrite Dt in Td. destruct (split_valid t1 V1) as (Te & _). rewrite D1 in Te.
  assert (reading k 0 0 0 0 (n * usecs_day)) as R0.
  { split; [exact Vk|]. split; [unfold clock_ok; lia|]. exists n. split; [exact N|]. unfold clock. lia. }
  assert (timestamp_add_interval md (n * usecs_day) (from_mdt m 0 0) = Ok (e * usecs_day)) as A0.
  { pose proof (add_interval_ok md k 0 0 0 0 (n * usecs_day) m 0 0 (ts_date_valid n Td) I ltac:(rng; lia) ltac:(rng; lia) R0) as A0.
    cbv zeta in A0. rewrite Z.mul_0_l, !Z.add_0_r in A0.
    assert (instant (add_months k m) (clock 0 0 0 0) = e * usecs_day) as Q by (unfold instant, e, clock; lia).
    rewrite Q in A0. apply A0; now apply ts_date_valid. }
  exists n, (e * usecs_day). rewrite !date_of_ts_ok, !time_of_ts_ok by (try assumption; now apply ts_date_valid).
  rewrite Dt, D1, Tt, T1. split; [reflexivity|]. split; [|split; [|reflexivity]].
  - unfold date_add_interval. rewrite (ts_of_date_ok md n Td). exact A0.
  - f_equal. unfold day_part, usecs_day. lia.
Qed.
Print Assumptions C81_months.

(** The difference of two timestamps is the difference of their dates and of their times of day, justified. *)
Theorem C81_difference : forall md a b da ta db tb, valid_ts a -> valid_ts b -> in_i64 (a - b) ->
  date_of_timestamp md a = Ok da -> time_of_timestamp md a = Ok (Some ta) ->
  date_of_timestamp md b = Ok db -> time_of_timestamp md b = Ok (Some tb) ->
  exists n, date_sub_date md da db = Ok n
  /\ timestamp_sub_timestamp md a b = justify_hours md (from_mdt 0 n (iv_time (time_sub_time ta tb))).
Proof.
  intros md a b da ta db tb Va Vb I Da Ta Db Tb.
  rewrite date_of_ts_ok in Da, Db by assumption. rewrite time_of_ts_ok in Ta, Tb by assumption.
  injection Da as <-. injection Ta as <-. injection Db as <-. injection Tb as <-.
  destruct (split_valid a Va) as (_ & Wa). destruct (split_valid b Vb) as (_ & Wb).
  exists (day_part a - day_part b). split; [now apply C05_sub_date_exact|].
  unfold timestamp_sub_timestamp. rewrite !valid_ts_finite by assumption. cbn [negb orb].
  unfold sub64. rewrite ar64_ok by exact I. cbn [bind].
  unfold time_sub_time. cbn [from_mdt iv_time].
  pose proof (time_part_bounds a) as Ba. pose proof (time_part_bounds b) as Bb. pose proof (day_time a) as Ea. pose proof (day_time b) as Eb.
  set (D := day_part a - day_part b) in *. set (T := time_part a - time_part b) in *.
  assert (a - b = D * usecs_day + T) as E by (unfold D, T; lia).
  assert (in_i32 D) as ID by (unfold D, valid_date in *; rng; lia).
  rewrite (wrap64_id T) by (unfold usecs_day in *; rng; lia).
  rewrite !justify_hours_eq; [|unfold fields_ok; cbn [from_mdt iv_month iv_day iv_time]; unfold usecs_day in *; rng; lia..].
  unfold jh_day. cbn [from_mdt iv_month iv_day iv_time]. rewrite E.
  assert (-usecs_day < T < usecs_day) as BT by (unfold T; lia).
  assert (Z.quot T usecs_day = 0 /\ Z.rem T usecs_day = T) as (Q0 & R0).
  { clear - BT. unfold usecs_day in *. pose proof (Z.quot_rem' T 86400000000).
    assert (Z.quot T 86400000000 = 0) by (apply Z.quot_small_iff; lia). lia. }
  rewrite Q0, R0, Z.add_0_r, Z.add_0_l, (wrap32_id D) by exact ID.
  assert (Z.quot (D * usecs_day + T) usecs_day * usecs_day + Z.rem (D * usecs_day + T) usecs_day = D * usecs_day + T
    /\ Z.abs (Z.rem (D * usecs_day + T) usecs_day) < usecs_day /\ (0 <= D * usecs_day + T -> 0 <= Z.rem (D * usecs_day + T) usecs_day)
    /\ (D * usecs_day + T <= 0 -> Z.rem (D * usecs_day + T) usecs_day <= 0)) as (Q & B1 & B2 & B3).
  { set (z := D * usecs_day + T). assert (usecs_day <> 0) as NZ by (unfold usecs_day; lia).
    pose proof (Z.quot_rem' z usecs_day). pose proof (Z.rem_bound_abs z usecs_day NZ).
    split; [lia|]. split; [unfold usecs_day in *; lia|]. unfold usecs_day in *. split; intros; [apply Z.rem_nonneg; lia|apply Z.rem_nonpos; lia]. }
  set (q := Z.quot (D * usecs_day + T) usecs_day) in *. set (r := Z.rem (D * usecs_day + T) usecs_day) in *.
  clearbody q r D T. clear - Q B1 B2 B3 BT ID.
  assert (in_i32 q) as Iq by (unfold usecs_day in *; rng; lia). rewrite (wrap32_id q) by exact Iq. clear ID Iq.
  cbv zeta. unfold fixdt, USECS_PER_DAY. unfold usecs_day in *.
  repeat match goal with |- context [?x <? ?y] => destruct (Z.ltb_spec x y) end; cbn [andb fst snd]; f_equal; f_equal; lia.
Qed.
Print Assumptions C81_difference.

(** A date with a time of day has that date and that time; 24:00:00 is the start of the next day. *)
Theorem C81_join : forall md d c t, ts_date d -> 0 <= c <= usecs_day -> date_add_time md d c = Ok t ->
  (c < usecs_day -> date_of_timestamp md t = Ok d /\ time_of_timestamp md t = Ok (Some c))
  /\ (c = usecs_day -> date_of_timestamp md t = Ok (d + 1) /\ time_of_timestamp md t = Ok (Some 0)).
Proof.
  intros md d c t D B E. destruct (C49_date_interval md d (from_mdt 0 0 0) c D) as (_ & _ & A & _).
  assert (valid_ts (d * usecs_day + c)) as V.
  { destruct (is_valid_timestamp (d * usecs_day + c)) eqn:Q; [now apply is_valid_timestamp_spec|].
    exfalso. pose proof (ts_date_valid d D) as V0. unfold date_add_time, timestamp_add_time, interval_of_time in E.
    rewrite (ts_of_date_ok md d D) in E. cbn [bind] in E. rewrite (valid_ts_finite _ V0) in E.
    rewrite add_interval_time in E by (try exact V0; unfold usecs_day, valid_ts in *; rng; lia).
    rewrite Q in E. discriminate E. }
  rewrite A in E by (try exact V; unfold usecs_day in *; rng; lia). injection E as <-.
  rewrite date_of_ts_ok, time_of_ts_ok by exact V. split; intros H.
  - destruct (day_time_uniq d c (d * usecs_day + c) eq_refl ltac:(lia)) as (-> & ->). auto.
  - destruct (day_time_uniq (d + 1) 0 (d * usecs_day + c) ltac:(lia) ltac:(unfold usecs_day; lia)) as (-> & ->). auto.
Qed.
Print Assumptions C81_join.

(** Truncation to a clock unit acts on the time of day alone ... *)
Theorem C81_truncate_clock : forall md t unit r c, valid_ts t -> In unit [Hour; Minute; Second; MilliSec; MicroSec] ->
  timestamp_truncate md t FTUnit unit = Ok r -> time_of_timestamp md t = Ok (Some c) ->
  date_of_timestamp md r = date_of_timestamp md t
  /\ exists c', time_truncate md c FTUnit unit = Ok c' /\ time_of_timestamp md r = Ok (Some c').
Proof.
  intros md t unit r c V U E Ec. rewrite time_of_ts_ok in Ec by exact V. injection Ec as <-.
  assert (exists u, In (unit, u) [(Hour, 3600000000); (Minute, 60000000); (Second, 1000000); (MilliSec, 1000); (MicroSec, 1)]) as (u & Uu).
  { cbn [In] in U. decompose [or] U; subst; try contradiction; eexists; cbn [In];
      first [left; reflexivity | right; left; reflexivity | do 2 right; left; reflexivity | do 3 right; left; reflexivity | do 4 right; left; reflexivity]. }
  pose proof (time_part_bounds t) as Bt. destruct (C52_truncate_down md (time_part t) unit u Bt Uu) as (c' & Ec & Bc & Lc & k & Ek).
  assert (In unit c13_units) as U' by (cbn [In] in U; decompose [or] U; subst; try contradiction; cbn [In c13_units]; auto 14).
  destruct (truncate_inv md t unit r V U' E) as (L & Vr).
  destruct (ts2t_reading md t V) as ([[y m] d] & h & mi & s & us & _ & R). pose proof R as (Vk & C & n & N & En).
  pose proof (clock_bounds _ _ _ _ C) as CB. destruct (day_time_uniq n (clock h mi s us) t En CB) as (Dt & Tt).
  assert (exists h0 mi0 s0 us0, floor_fields unit y m d h mi s us = Some ((y, m, d), (h0, mi0, s0, us0))
    /\ clock h0 mi0 s0 us0 = c') as (h0 & mi0 & s0 & us0 & F & Ef).
  { rewrite Tt in *. unfold clock_ok, clock in *. clear - C Uu Bc Lc Ek.
    cbn [In] in Uu. decompose [or] Uu; try contradiction; match goal with H : (_, _) = (_, _) |- _ => injection H as <- <- end;
      do 4 eexists; (split; [reflexivity|]); lia. }
  destruct (floor_latest _ _ _ _ _ _ _ _ _ _ _ _ _ _ R F) as (_ & _ & L').
  pose proof (latest_unique _ _ _ _ L L') as Er. rewrite Ef in Er.
  assert (r = n * usecs_day + c') as Er'.
  { rewrite Er. unfold instant. apply day_number_J in N; [|exact Vk]. lia. }
  destruct (day_time_uniq n c' r Er' ltac:(lia)) as (Dr & Tr).
  rewrite !date_of_ts_ok, time_of_ts_ok, Dr, Dt, Tr by assumption. split; [reflexivity|]. exists c'. auto.
Qed.
Print Assumptions C81_truncate_clock.

Lemma midnight_parts d : day_part (d * usecs_day) = d /\ time_part (d * usecs_day) = 0.
Proof. unfold day_part, time_part, usecs_day. lia. Qed.

Lemma week_clock md y m k h mi sc us h' mi' sc' us' :
  truncate_timestamp_week md (mk (y, m, k) h mi sc, us) = truncate_timestamp_week md (mk (y, m, k) h' mi' sc', us').
Proof.
  unfold truncate_timestamp_week, mk. cbn [fst tm_year tm_mon tm_mday]. destruct (date_to_iso_week md y m k) as [w|e|f]; [|reflexivity..]. cbn [bind].
  destruct ((52 <=? w) && (m =? 1)); [destruct (sub32 md y 1) as [y1|e|f]; [|reflexivity..]|]; unfold set_year; cbn [bind tm_sec tm_min tm_hour tm_mday tm_wday tm_yday tm_isdst tm_year tm_mon];
    (destruct ((w <=? 1) && (m =? MONTHS_PER_YEAR)); [match goal with |- context [sub32 md ?z 1] => destruct (sub32 md z 1) as [y2|e|f]; [|reflexivity..] end|]); unfold set_year; cbn [bind tm_sec tm_min tm_hour tm_mday tm_wday tm_yday tm_isdst tm_year tm_mon];
    unfold iso_week_to_date; cbn [tm_year]; 
    (match goal with |- context [iso_week_to_julian md ?a ?b] => destruct (iso_week_to_julian md a b) as [j|e|f]; [|reflexivity..] end);
    cbn [bind]; (destruct (julian2date md j) as [[[? ?] ?]|e|f]; [|reflexivity..]); reflexivity.
Qed.

(** ... and truncation to a calendar unit depends on the date alone and gives a midnight. *)
Theorem C81_truncate_date : forall md t unit r d, valid_ts t ->
  In unit [Day; Week; Month; Quarter; Year; Decade; Century; Millennium] ->
  timestamp_truncate md t FTUnit unit = Ok r -> date_of_timestamp md t = Ok d ->
  date_truncate md d FTUnit unit = date_of_timestamp md r.
Proof.
  intros md t unit r d V U E Ed. rewrite date_of_ts_ok in Ed by exact V. injection Ed as <-.
  destruct (split_valid t V) as (Td & _). unfold date_truncate. rewrite (ts_of_date_ok md _ Td). cbn [bind].
  assert (timestamp_truncate md (day_part t * usecs_day) FTUnit unit = timestamp_truncate md t FTUnit unit) as ->; [|rewrite E; reflexivity].
  pose proof (valid_ts_day t V) as B. pose proof (ts_date_valid _ Td) as V0. pose proof (valid_ts_day _ V0) as B0.
  unfold timestamp_truncate. rewrite !ts2t_gen by (auto using valid_ts_i64; lia). cbv zeta.
  destruct (midnight_parts (day_part t)) as (-> & ->). destruct (day_of (day_part t + 2451545)) as [[y m] k].
  clear - U. cbn [In] in U. decompose [or] U; subst; try contradiction; try reflexivity.
  cbn [bind]. erewrite week_clock. reflexivity.
Qed.
Print Assumptions C81_truncate_date.

(** Clock parts are those of the time of day, calendar parts those of the date. *)
Theorem C81_clock_parts : forall md t unit c, valid_ts t -> In unit [Hour; Minute; Second; MilliSec; MicroSec] ->
  time_of_timestamp md t = Ok (Some c) -> timestamp_date_part md t FTUnit unit = time_date_part md c FTUnit unit.
Proof.
  intros md t unit c V U E. rewrite time_of_ts_ok in E by exact V. injection E as <-.
  unfold timestamp_date_part, time_date_part, time_to_pgtime. rewrite (valid_ts_finite t V). cbn [negb].
  pose proof (valid_ts_day t V) as B. pose proof (time_part_bounds t) as Bt.
  rewrite ts2t_gen by (auto using valid_ts_i64; lia). rewrite date2time_ok by lia. cbv zeta. cbn [bind].
  destruct (day_of (day_part t + 2451545)) as [[y m] k].
  clear - U. cbn [In] in U. decompose [or] U; subst; try contradiction; reflexivity.
Qed.
Print Assumptions C81_clock_parts.
Theorem C81_date_parts : forall md t unit d, valid_ts t ->
  In unit [Day; Week; Month; Quarter; Year; Decade; Century; Millennium; IsoYear; Dow; IsoDow; Doy] ->
  date_of_timestamp md t = Ok d -> timestamp_date_part md t FTUnit unit = date_date_part md d FTUnit unit.
Proof.
  intros md t unit d V U E. rewrite date_of_ts_ok in E by exact V. injection E as <-.
  destruct (split_valid t V) as (Td & _). unfold date_date_part. rewrite (ts_of_date_ok md _ Td). cbn [bind].
  pose proof (valid_ts_day t V) as B. pose proof (ts_date_valid _ Td) as V0. pose proof (valid_ts_day _ V0) as B0.
  unfold timestamp_date_part. rewrite (valid_ts_finite t V), (valid_ts_finite _ V0). cbn [negb].
  rewrite !ts2t_gen by (auto using valid_ts_i64; lia). cbv zeta.
  destruct (midnight_parts (day_part t)) as (-> & ->). destruct (day_of (day_part t + 2451545)) as [[y m] k].
  clear - U. cbn [In] in U. decompose [or] U; subst; try contradiction; reflexivity.
Qed.
Print Assumptions C81_date_parts.

(** 2000-01-31 23:00:00 plus a day, two hours and a month; its difference from 2000-01-02 23:30:00. *)
Example C81_case :
  valid_ts 2674800000000 /\ valid_ts (2674800000000 + 1 * usecs_day) /\ valid_ts (2674800000000 + 7200000000)
  /\ time_of_timestamp Debug 2674800000000 = Ok (Some 82800000000) /\ date_of_timestamp Debug 2674800000000 = Ok 30
  /\ timestamp_add_interval Debug 2674800000000 (from_mdt 0 0 7200000000) = Ok 2682000000000
  /\ time_add_interval Debug 82800000000 (from_mdt 0 0 7200000000) = Ok 3600000000
  /\ timestamp_add_interval Debug 2674800000000 (from_mdt 1 0 0) = Ok 5180400000000
  /\ date_add_interval Debug 30 (from_mdt 1 0 0) = Ok (59 * usecs_day)
  /\ date_of_timestamp Debug 5180400000000 = Ok 59
  /\ timestamp_sub_timestamp Debug 2674800000000 171000000000 = Ok (from_mdt 0 28 84600000000)
  /\ timestamp_truncate Debug 2674800000001 FTUnit Hour = Ok 2674800000000.
Proof. unfold valid_ts, usecs_day. repeat (split; [first [lia | vm_compute; reflexivity]|]). vm_compute; reflexivity. Qed.
