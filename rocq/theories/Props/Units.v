(** Age (C12), truncation of timestamps (C13, C14), calendar parts (C15, C16, C17), dates through
    timestamps (C49, C51). *)
From Coq Require Import ZArith Lia.
From Verif Require Import Model.DateTime Spec.Calendar Spec.Ranges Spec.Clock Spec.Shift Spec.Units Spec.Age
  Proofs.Arith Proofs.Cal Proofs.DateP Proofs.TsP Proofs.AddP Proofs.TruncP Proofs.WeekP Proofs.AgeP Proofs.FloatP.
Open Scope Z_scope.

(** C12 *)
Theorem C12_age : forall md a b, valid_ts a -> valid_ts b -> b <= a ->
  exists r, timestamp_age md a b = Ok r /\ calendar_distance a b r /\
    0 <= iv_month r /\ 0 <= iv_day r <= 30 /\ 0 <= iv_time r < usecs_day.
Proof.
  intros md a b Va Vb L. destruct (age_ok md a b Va Vb) as (r & D & BD & BM & E).
  destruct (Z.ltb_spec a b); [lia|]. rewrite Z.max_l, Z.min_r in D by lia.
  exists r. repeat split; auto; try lia; destruct D as (y1 & m1 & d1 & h1 & mi1 & s1 & us1 & y2 & m2 & d2 & h2 & mi2 & s2 & us2 & _ & _ & B & _); lia.
Qed.
Print Assumptions C12_age.
(** The distance determines the result. *)
Theorem C12_distance_unique : forall a b r r', calendar_distance a b r -> calendar_distance a b r' -> r = r'.
Proof. exact calendar_distance_unique. Qed.
Print Assumptions C12_distance_unique.
Theorem C12_antisymmetric : forall md a b, valid_ts a -> valid_ts b -> exists r,
  timestamp_age md a b = Ok r /\
  timestamp_age md b a = Ok (from_mdt (- iv_month r) (- iv_day r) (- iv_time r)).
Proof.
  intros md a b Va Vb. destruct (age_ok md a b Va Vb) as (r & D & _ & _ & E).
  destruct (age_ok md b a Vb Va) as (r' & D' & _ & _ & E').
  rewrite (Z.max_comm b a), (Z.min_comm b a) in D'.
  pose proof (calendar_distance_unique _ _ _ _ D D') as <-.
  destruct (Z.ltb_spec a b), (Z.ltb_spec b a); try lia.
  - eexists. split; [exact E|]. cbn. rewrite E', !Z.opp_involutive. destruct r; reflexivity.
  - eexists. split; [exact E|]. exact E'.
  - assert (a = b) by lia. subst b. rewrite Z.max_id, Z.min_id in D. exists r. split; [exact E|].
    rewrite E. f_equal. destruct D as (y1 & m1 & d1 & h1 & mi1 & s1 & us1 & y2 & m2 & d2 & h2 & mi2 & s2 & us2 & R1 & R2 & B & C & H1).
    destruct (reading_unique _ _ _ _ _ _ _ _ _ _ _ R1 R2) as (Ee & -> & -> & -> & ->). injection Ee as -> -> ->.
    replace ((d2 - d2) * usecs_day + (clock h2 mi2 s2 us2 - clock h2 mi2 s2 us2)) with 0 in H1 by lia.
    change (0 <? 0) with false in H1. cbv iota in H1. destruct r as [t d m]. cbn [iv_month iv_day iv_time] in *. unfold from_mdt, usecs_day in *. f_equal; lia.
Qed.
Print Assumptions C12_antisymmetric.
Theorem C12_self : forall md a, valid_ts a -> timestamp_age md a a = Ok (from_mdt 0 0 0).
Proof.
  intros md a V. destruct (C12_antisymmetric md a a V V) as (r & E & E'). rewrite E in E'. injection E' as E'.
  rewrite E. destruct r as [t d m]. cbn in E'. injection E' as ? ? ?. unfold from_mdt. do 2 f_equal; lia.
Qed.
Print Assumptions C12_self.
(** When the day and clock of [b] are not later in the month than those of [a], adding the age to
    [b] gives [a]. *)
Theorem C12_add_back : forall md a b r y1 m1 d1 h1 mi1 s1 us1 y2 m2 d2 h2 mi2 s2 us2,
  valid_ts a -> valid_ts b -> b <= a -> timestamp_age md a b = Ok r ->
  reading (y1, m1, d1) h1 mi1 s1 us1 a -> reading (y2, m2, d2) h2 mi2 s2 us2 b ->
  d2 < d1 \/ (d2 = d1 /\ clock h2 mi2 s2 us2 <= clock h1 mi1 s1 us1) ->
  timestamp_add_interval md b r = Ok a.
Proof. exact age_add_back. Qed.
Print Assumptions C12_add_back.
(** The condition is needed: 30 January to 1 March 2021. *)
Theorem C12_add_back_refuted : exists a b r, valid_ts a /\ valid_ts b /\ b <= a /\
  forall md, timestamp_age md a b = Ok r /\ exists a', timestamp_add_interval md b r = Ok a' /\ a' <> a.
Proof.
  exists (7730 * usecs_day), (7700 * usecs_day), (from_mdt 1 2 0). unfold valid_ts, usecs_day.
  split; [lia|]. split; [lia|]. split; [lia|].
  intros md. split; [destruct md; vm_compute; reflexivity|].
  exists (7731 * 86400000000). split; [destruct md; vm_compute; reflexivity|lia].
Qed.
Print Assumptions C12_add_back_refuted.
Theorem C12_minus_infinity : forall md t, valid_ts t ->
  timestamp_age md neg_inf_ts t = Err EOverflow /\ timestamp_age md t neg_inf_ts = Err EOverflow.
Proof.
  intros md t V. destruct (ts2t_reading md t V) as (c & h & mi & s & us & E & _).
  assert (timestamp2time md neg_inf_ts = Err EOverflow) as I by (destruct md; vm_compute; reflexivity).
  split; unfold timestamp_age; rewrite ?E, I; reflexivity.
Qed.
Print Assumptions C12_minus_infinity.
(** Finding: +infinity is treated as the finite instant 294277-01-09 04:00:54.775807. *)
Theorem C12_plus_infinity_refuted : forall md,
  timestamp_age md pos_inf_ts 0 = Ok (from_mdt 3507324 8 14454775807) /\
  timestamp_age md 0 pos_inf_ts = Ok (from_mdt (-3507324) (-8) (-14454775807)).
Proof. intros []; split; vm_compute; reflexivity. Qed.
Print Assumptions C12_plus_infinity_refuted.
Example C12_ex : valid_ts 636300000000000 /\ valid_ts 633780000000000 /\
  timestamp_age Debug 636300000000000 633780000000000 = Ok (from_mdt 0 29 14400000000).
Proof. unfold valid_ts. split; [lia|]. split; [lia|]. vm_compute. reflexivity. Qed.

(** C13 *)
Definition c13_units := [MicroSec; MilliSec; Second; Minute; Hour; Day; Month; Quarter; Year; Decade; Century; Millennium].
Lemma c13_unit unit : In unit c13_units <-> ts_unit unit = true.
Proof.
  unfold c13_units. cbn [In]. split.
  - intros H. repeat destruct H as [<-|H]; try reflexivity. contradiction.
  - destruct unit; cbn; intros; try discriminate; tauto.
Qed.
Theorem C13_truncate : forall md t unit, valid_ts t -> In unit c13_units ->
  exists r, latest_start unit t r /\
    (valid_ts r -> timestamp_truncate md t FTUnit unit = Ok r) /\
    (~ valid_ts r -> exists e, timestamp_truncate md t FTUnit unit = Err e).
Proof. intros md t unit V U. apply c13_unit in U. now apply truncate_ok. Qed.
Print Assumptions C13_truncate.
(** For the units up to the day the start is always valid, for the others it is as soon as the year
    is after 3991 BC. *)
Theorem C13_never_refused : forall md t unit, valid_ts t -> In unit c13_units ->
  In unit [MicroSec; MilliSec; Second; Minute; Hour; Day] \/ -189026092800000000 <= t ->
  exists r, latest_start unit t r /\ timestamp_truncate md t FTUnit unit = Ok r.
Proof.
  intros md t unit V U H. destruct (C13_truncate md t unit V U) as (r & L & K & _).
  exists r. split; [exact L|]. apply K. destruct L as (S & Lr & M). split; [|unfold valid_ts in V; lia].
  assert (forall b, is_start unit b -> b <= t -> -211813488000000000 <= b -> -211813488000000000 <= r) as G
    by (intros b Sb Lb Hb; pose proof (M b Sb Lb); lia).
  destruct H as [H|H].
  - apply (G (-211813488000000000)); [|apply V|lia].
    exists (-4713), 11, 24, 0, 0, 0, 0. split.
    + split; [cbv; intuition congruence|]. split; [unfold clock_ok; lia|]. exists (-2451545).
      split; [apply day_number_J; [cbv; intuition congruence|reflexivity]|reflexivity].
    + cbn in H. repeat destruct H as [<-|H]; cbn; auto. contradiction.
  - assert (is_start unit (-2187802 * usecs_day) \/ is_start unit (-2191089 * usecs_day)) as [Q|Q].
    { assert (reading (-3990, 1, 1) 0 0 0 0 (-2187802 * usecs_day)) as R1.
      { split; [cbv; intuition congruence|]. split; [unfold clock_ok; lia|]. exists (-2187802).
        split; [apply day_number_J; [cbv; intuition congruence|reflexivity]|reflexivity]. }
      assert (reading (-3999, 1, 1) 0 0 0 0 (-2191089 * usecs_day)) as R2.
      { split; [cbv; intuition congruence|]. split; [unfold clock_ok; lia|]. exists (-2191089).
        split; [apply day_number_J; [cbv; intuition congruence|reflexivity]|reflexivity]. }
      unfold c13_units in U. cbn in U.
      repeat destruct U as [<-|U]; try contradiction;
      first [ left; exists (-3990), 1, 1, 0, 0, 0, 0; split; [exact R1|cbn; lia]
            | right; exists (-3999), 1, 1, 0, 0, 0, 0; split; [exact R2|cbn; lia] ]. }
    + apply (G _ Q); unfold usecs_day; lia.
    + apply (G _ Q); unfold usecs_day; lia.
Qed.
Print Assumptions C13_never_refused.
Theorem C13_below : forall md t unit r, valid_ts t -> In unit c13_units ->
  timestamp_truncate md t FTUnit unit = Ok r -> r <= t.
Proof.
  intros md t unit r V U E. destruct (C13_truncate md t unit V U) as (r' & L & K & K').
  destruct (is_valid_timestamp r') eqn:VR.
  - apply is_valid_timestamp_spec in VR. rewrite K in E by auto. injection E as <-. apply L.
  - destruct K' as (e & K'); [rewrite <- is_valid_timestamp_spec, VR; discriminate|congruence].
Qed.
Print Assumptions C13_below.
Lemma truncate_inv md t unit r : valid_ts t -> In unit c13_units ->
  timestamp_truncate md t FTUnit unit = Ok r -> latest_start unit t r /\ valid_ts r.
Proof.
  intros V U E. destruct (C13_truncate md t unit V U) as (r' & L & K & K').
  destruct (is_valid_timestamp r') eqn:VR.
  - apply is_valid_timestamp_spec in VR. rewrite K in E by auto. injection E as <-. auto.
  - destruct K' as (e & K'); [rewrite <- is_valid_timestamp_spec, VR; discriminate|congruence].
Qed.
Theorem C13_monotone : forall md t t' unit r r', valid_ts t -> valid_ts t' -> In unit c13_units -> t <= t' ->
  timestamp_truncate md t FTUnit unit = Ok r -> timestamp_truncate md t' FTUnit unit = Ok r' -> r <= r'.
Proof.
  intros md t t' unit r r' V V' U L E E'. apply truncate_inv in E; auto. apply truncate_inv in E'; auto.
  apply (latest_mono unit t t'); tauto.
Qed.
Print Assumptions C13_monotone.
Theorem C13_idempotent : forall md t unit r, valid_ts t -> In unit c13_units ->
  timestamp_truncate md t FTUnit unit = Ok r -> timestamp_truncate md r FTUnit unit = Ok r.
Proof.
  intros md t unit r V U E. apply truncate_inv in E as [L Vr]; auto.
  destruct (C13_truncate md r unit Vr U) as (r' & L' & K & _).
  apply latest_idem in L. pose proof (latest_unique _ _ _ _ L L') as <-. auto.
Qed.
Print Assumptions C13_idempotent.
Theorem C13_bad_unit : forall md t, valid_ts t ->
  (forall unit, In unit [Delta; JULIAN; Dow; IsoDow; Doy; Tz; TzMinute; TzHour; IsoYear; Epoch] ->
    timestamp_truncate md t FTUnit unit = Err EInvalid) /\
  (forall unit, timestamp_truncate md t FTEpoch unit = Err EInvalid).
Proof.
  intros md t V. split; [|reflexivity]. intros unit U.
  destruct (ts2t_reading md t V) as (c & h & mi & s & us & E & _). unfold timestamp_truncate. rewrite E.
  cbn in U. repeat destruct U as [<-|U]; try reflexivity. contradiction.
Qed.
Print Assumptions C13_bad_unit.
(** Finding: truncating +infinity gives finite values for the three largest units (an error for
    the others), and -infinity is always an error. *)
Theorem C13_infinity_refuted : forall md,
  timestamp_truncate md pos_inf_ts FTUnit Decade = Ok 9223150406400000000 /\
  timestamp_truncate md pos_inf_ts FTUnit Year = Err EInvalid /\
  timestamp_truncate md neg_inf_ts FTUnit Year = Err EOverflow.
Proof. intros []; repeat split; vm_compute; reflexivity. Qed.
Print Assumptions C13_infinity_refuted.
(** The boundary of the era containing the first months is before the first valid instant. *)
Example C13_ex : valid_ts (-211813488000000000) /\
  timestamp_truncate Debug (-211813488000000000) FTUnit Day = Ok (-211813488000000000) /\
  timestamp_truncate Debug (-211813488000000000) FTUnit Year = Err EInvalid /\
  timestamp_truncate Debug 633823445123456 FTUnit Century = Ok 31622400000000.
Proof. unfold valid_ts. repeat split; try lia; vm_compute; reflexivity. Qed.

(** C14. Full claim: the Monday not after t. It holds except for December days that belong to
    week 1 of the next ISO year. *)
Theorem C14_week_partial : forall md t y m d h mi s us n k,
  valid_ts t -> reading (y, m, d) h mi s us t -> day_number (y, m, d) n -> monday n k ->
  ~ (m = 12 /\ exists w, iso_week n (y + 1) w) ->
  timestamp_truncate md t FTUnit Week = Ok (k * usecs_day).
Proof. exact truncate_week_ok. Qed.
Print Assumptions C14_week_partial.
(** Finding: on all those days (from 4712 BC on) the result is the Monday of the first week of the
    previous ISO year, about two years too early. *)
Theorem C14_week_refuted : forall md t y d h mi s us n w,
  valid_ts t -> reading (y, 12, d) h mi s us t -> day_number (y, 12, d) n ->
  iso_week n (y + 1) w -> -4713 < y ->
  exists k, monday k k /\ iso_week k (y - 1) 1 /\ k + 700 < n /\
    timestamp_truncate md t FTUnit Week = Ok (k * usecs_day).
Proof. exact truncate_week_december. Qed.
Print Assumptions C14_week_refuted.
(** and for 29-31 December 4714 BC debug builds panic. *)
Theorem C14_week_panic_refuted : exists t, valid_ts t /\ timestamp_truncate Debug t FTUnit Week = Fault FArith /\
  timestamp_truncate Release t FTUnit Week = Err EInvalid.
Proof. exists (-2451510 * usecs_day). unfold valid_ts, usecs_day. repeat split; try lia; vm_compute; reflexivity. Qed.
Print Assumptions C14_week_panic_refuted.
Example C14_ex : (* 2018-12-31 is a Monday, but truncates to 2017-01-02; 2019-01-03 is right *)
  timestamp_truncate Debug 599529600000000 FTUnit Week = Ok 536630400000000 /\
  monday 6939 6939 /\ 599529600000000 = 6939 * usecs_day /\
  timestamp_truncate Debug (6942 * usecs_day + 5) FTUnit Week = Ok (6939 * usecs_day).
Proof. unfold monday, usecs_day. repeat split; try lia; vm_compute; reflexivity. Qed.

(** C15 *)
Theorem C15_iso_week : forall md t y m d h mi s us n iy w,
  valid_ts t -> reading (y, m, d) h mi s us t -> day_number (y, m, d) n -> iso_week n iy w ->
  timestamp_date_part md t FTUnit IsoYear = Ok (f64_of_Z iy) /\
  timestamp_date_part md t FTUnit Week = Ok (f64_of_Z w).
Proof.
  intros md t y m d h mi s us n iy w V R N I. destruct (parts_week md t _ _ _ _ _ _ _ _ V R N) as [H _]. auto.
Qed.
Print Assumptions C15_iso_week.
Theorem C15_weekday : forall md t y m d h mi s us n,
  valid_ts t -> reading (y, m, d) h mi s us t -> day_number (y, m, d) n ->
  timestamp_date_part md t FTUnit Dow = Ok (f64_of_Z (weekday n)) /\
  timestamp_date_part md t FTUnit IsoDow = Ok (f64_of_Z (if weekday n =? 0 then 7 else weekday n)) /\
  (forall n0, day_number (y, 1, 1) n0 -> timestamp_date_part md t FTUnit Doy = Ok (f64_of_Z (n - n0 + 1))).
Proof.
  intros md t y m d h mi s us n V R N. destruct (parts_week md t _ _ _ _ _ _ _ _ V R N) as [_ H]. exact H.
Qed.
Print Assumptions C15_weekday.
(** Every day has exactly one ISO week. *)
Theorem C15_iso_week_total : forall y m d n, valid_ymd (y, m, d) -> day_number (y, m, d) n ->
  exists iy w, iso_week n iy w /\ y - 1 <= iy <= y + 1 /\ 1 <= w <= 53 /\
    forall iy' w', iso_week n iy' w' -> iy' = iy /\ w' = w.
Proof.
  intros y m d n V N. destruct (iso_week_exists n y m d V N) as (iy & w & I & B). exists iy, w.
  split; [exact I|]. split; [tauto|]. split; [tauto|]. intros iy' w' I'. exact (iso_week_unique _ _ _ _ _ I' I).
Qed.
Print Assumptions C15_iso_week_total.
(** Finding: IsoYear counts 1 BC as year 0 while Year counts it as -1. *)
Theorem C15_isoyear_bc_refuted : exists t, valid_ts t /\ forall md,
  timestamp_date_part md t FTUnit Year = Ok (f64_of_Z (-2)) /\
  timestamp_date_part md t FTUnit IsoYear = Ok (f64_of_Z (-1)).
Proof.
  exists (-730700 * usecs_day). unfold valid_ts, usecs_day. split; [lia|]. intros []; split; vm_compute; reflexivity.
Qed.
Print Assumptions C15_isoyear_bc_refuted.
Example C15_ex : (* Friday 2021-01-01 is in week 53 of 2020 *)
  weekday 7671 = 5 /\ timestamp_date_part Debug (7671 * usecs_day) FTUnit Week = Ok (f64_of_Z 53) /\
  timestamp_date_part Debug (7671 * usecs_day) FTUnit IsoYear = Ok (f64_of_Z 2020) /\
  timestamp_date_part Debug (7671 * usecs_day) FTUnit Doy = Ok (f64_of_Z 1) /\
  iso_week 7671 2020 53.
Proof.
  repeat split; try (vm_compute; reflexivity). apply iso_week_J. vm_compute. intuition congruence.
Qed.

(** C16. Years are written Y with no year 0 (api_year of the astronomical year). *)
Theorem C16_year : forall md t y m d h mi s us, valid_ts t -> reading (y, m, d) h mi s us t ->
  exists Y, (if y <=? 0 then Y = y - 1 else Y = y) /\ Y <> 0 /\
  timestamp_date_part md t FTUnit Year = Ok (f64_of_Z Y) /\
  (exists c, timestamp_date_part md t FTUnit Century = Ok (f64_of_Z c) /\ c <> 0 /\
    (0 < Y -> 100 * (c - 1) + 1 <= Y <= 100 * c) /\ (Y < 0 -> 100 * (- c - 1) + 1 <= - Y <= 100 * (- c))) /\
  (exists c, timestamp_date_part md t FTUnit Millennium = Ok (f64_of_Z c) /\ c <> 0 /\
    (0 < Y -> 1000 * (c - 1) + 1 <= Y <= 1000 * c) /\ (Y < 0 -> 1000 * (- c - 1) + 1 <= - Y <= 1000 * (- c))) /\
  (exists c, timestamp_date_part md t FTUnit Decade = Ok (f64_of_Z c) /\ 10 * c <= y < 10 * c + 10).
Proof.
  intros md t y m d h mi s us V R. destruct (parts_year md t _ _ _ _ _ _ _ V R) as (P1 & P2 & P3 & P4).
  exists (if y <=? 0 then y - 1 else y). unfold api_year in P1.
  split; [destruct (y <=? 0); reflexivity|]. split; [destruct (Z.leb_spec y 0); lia|]. split; [exact P1|].
  split; [eexists; split; [exact P3|]; destruct (Z.leb_spec y 0), (Z.ltb_spec 0 y); lia|].
  split; [eexists; split; [exact P4|]; destruct (Z.leb_spec y 0), (Z.ltb_spec 0 y); lia|].
  eexists; split; [exact P2|]. lia.
Qed.
Print Assumptions C16_year.
(** Monotone, and two instants have the same number exactly when no start of the unit separates
    them (their truncations agree). *)
Theorem C16_spans : forall md unit t t', valid_ts t -> valid_ts t' ->
  In unit [Year; Decade; Century; Millennium] ->
  exists v v', timestamp_date_part md t FTUnit unit = Ok (f64_of_Z v) /\
    timestamp_date_part md t' FTUnit unit = Ok (f64_of_Z v') /\
    (t <= t' -> v <= v') /\
    (forall r r', latest_start unit t r -> latest_start unit t' r' -> (v = v' <-> r = r')).
Proof.
  intros md unit t t' V V' U. apply year_part_spans; auto.
  cbn in U. repeat destruct U as [<-|U]; try reflexivity. contradiction.
Qed.
Print Assumptions C16_spans.
(** The f64 results are exact: integers of this size convert without loss. *)
Theorem C16_exact : forall a b, Z.abs a <= 2 ^ 53 -> Z.abs b <= 2 ^ 53 ->
  (f64_of_Z a = f64_of_Z b <-> a = b) /\ flt (f64_of_Z a) (f64_of_Z b) = (a <? b).
Proof.
  intros a b Ha Hb. pose proof (rep_int a Ha) as Ra. pose proof (rep_int b Hb) as Rb. split.
  - split; [|congruence]. intros E. rewrite E in Ra.
    pose proof (rep_lt_int _ _ a b Ra Rb) as H. pose proof (rep_lt_int _ _ b a Rb Ra) as H'.
    pose proof (rep_lt_int _ _ b b Rb Rb) as H''.
    destruct (Z.ltb_spec a b), (Z.ltb_spec b a), (Z.ltb_spec b b); try lia; congruence.
  - apply rep_lt_int; auto.
Qed.
Print Assumptions C16_exact.
Example C16_ex : (* 1 BC, first century BC; 2000 is in the 20th century *)
  timestamp_date_part Debug (-730300 * usecs_day) FTUnit Year = Ok (f64_of_Z (-1)) /\
  timestamp_date_part Debug (-730300 * usecs_day) FTUnit Century = Ok (f64_of_Z (-1)) /\
  timestamp_date_part Debug 0 FTUnit Century = Ok (f64_of_Z 20) /\
  timestamp_date_part Debug 31622400000000 FTUnit Millennium = Ok (f64_of_Z 3).
Proof. repeat split; vm_compute; reflexivity. Qed.

(** C17 *)
Theorem C17_infinite_parts : forall md ty unit,
  let part (neg : bool) : res f64 :=
    match unit with
    | MicroSec | MilliSec | Second | Minute | Hour | Day | Week | Month | Quarter | Dow | IsoDow | Doy
    | Tz | TzMinute | TzHour => Ok f0
    | Year | Decade | Century | Millennium | JULIAN | IsoYear | Epoch =>
        Ok (if neg then f64_neg_inf else f64_inf)
    | Delta => Err EInvalid
    end in
  timestamp_date_part md pos_inf_ts ty unit = part false /\
  timestamp_date_part md neg_inf_ts ty unit = part true /\
  date_date_part md pos_inf_date ty unit = part false /\
  date_date_part md neg_inf_date ty unit = part true.
Proof. intros md ty unit. destruct unit; repeat split; reflexivity. Qed.
Print Assumptions C17_infinite_parts.
Example C17_ex : is_inf f64_inf = true /\ flt f64_neg_inf (f64_of_Z (-294276)) = true /\
  flt (f64_of_Z 294276) f64_inf = true.
Proof. repeat split; vm_compute; reflexivity. Qed.

(** C49 *)
Theorem C49_date_interval : forall md d sp x, ts_date d ->
  date_add_interval md d sp = timestamp_add_interval md (d * usecs_day) sp /\
  date_sub_interval md d sp = timestamp_sub_interval md (d * usecs_day) sp /\
  (in_i64 x -> valid_ts (d * usecs_day + x) -> date_add_time md d x = Ok (d * usecs_day + x)) /\
  (forall t, timestamp_sub_date md t d = timestamp_sub_timestamp md t (d * usecs_day)).
Proof.
  intros md d sp x D. unfold date_add_interval, date_sub_interval, date_add_time, timestamp_sub_date.
  rewrite (ts_of_date_ok md d D). cbn [bind]. pose proof (ts_date_valid d D) as V.
  rewrite (valid_ts_finite _ V). repeat split; auto.
  intros X V'. unfold timestamp_add_time, interval_of_time.
  rewrite add_interval_time by (auto using valid_ts_i64). 
  assert (is_valid_timestamp (d * usecs_day + x) = true) as -> by now apply is_valid_timestamp_spec.
  cbn [bind]. assert (is_valid_timestamp (d * usecs_day + x) = true) as -> by now apply is_valid_timestamp_spec.
  reflexivity.
Qed.
Print Assumptions C49_date_interval.
Theorem C49_infinite : forall md sp x t, valid_ts t ->
  date_add_interval md pos_inf_date sp = Ok pos_inf_ts /\ date_add_interval md neg_inf_date sp = Ok neg_inf_ts /\
  date_add_time md pos_inf_date x = Ok pos_inf_ts /\ date_add_time md neg_inf_date x = Ok neg_inf_ts /\
  timestamp_sub_date md t pos_inf_date = Err EInvalid /\ timestamp_sub_date md t neg_inf_date = Err EInvalid.
Proof.
  intros md sp x t V. repeat split; try reflexivity; unfold timestamp_sub_date, timestamp_sub_timestamp;
  cbn; now rewrite (valid_ts_finite t V).
Qed.
Print Assumptions C49_infinite.
Theorem C49_beyond : forall md d sp x t, valid_date d -> ~ ts_date d ->
  date_add_interval md d sp = Err EOverflow /\ date_sub_interval md d sp = Err EOverflow /\
  date_add_time md d x = Err EOverflow /\ timestamp_sub_date md t d = Err EOverflow.
Proof.
  intros md d sp x t V N. unfold date_add_interval, date_sub_interval, date_add_time, timestamp_sub_date.
  rewrite (ts_of_date_err md d V N). repeat split; reflexivity.
Qed.
Print Assumptions C49_beyond.
Example C49_ex : ts_date 7335 /\ date_add_interval Debug 7335 (from_mdt 1 1 1) = Ok 636336000000001.
Proof. unfold ts_date. split; [lia|vm_compute; reflexivity]. Qed.

(** C51 *)
Theorem C51_part : forall md d ty unit, ts_date d ->
  date_date_part md d ty unit = timestamp_date_part md (d * usecs_day) ty unit.
Proof. intros md d ty unit D. unfold date_date_part. now rewrite (ts_of_date_ok md d D). Qed.
Print Assumptions C51_part.
(** [truncate] gives the day on which the unit starts. *)
Theorem C51_truncate : forall md d unit, ts_date d -> In unit c13_units ->
  exists r, latest_start unit (d * usecs_day) (r * usecs_day) /\ r <= d /\
    (valid_date r -> date_truncate md d FTUnit unit = Ok r) /\
    (~ valid_date r -> exists e, date_truncate md d FTUnit unit = Err e).
Proof.
  intros md d unit D U. pose proof (ts_date_valid d D) as V.
  destruct (C13_truncate md (d * usecs_day) unit V U) as (r & L & K & K').
  assert (exists n, r = n * usecs_day) as (n & En).
  { destruct (ts2t_reading md (d * usecs_day) V) as (c & h & mi & s & us & _ & R).
    assert (day_number c d /\ clock h mi s us = 0) as [_ C0].
    { destruct R as (Vc & C & n & N & E). pose proof (clock_bounds _ _ _ _ C). unfold usecs_day in *.
      assert (n = d) by lia. subst n. split; [exact N|lia]. }
    assert (h = 0 /\ mi = 0 /\ s = 0 /\ us = 0) as (-> & -> & -> & ->).
    { destruct R as (_ & C & _). unfold clock_ok, clock in *. lia. }
    destruct (match unit with MicroSec | MilliSec | Second | Minute | Hour | Day => true | _ => false end) eqn:I.
    - exists d. eapply latest_unique; [exact L|]. destruct c as [[y m] dd]. split; [|split; [lia|intros; lia]].
      exists y, m, dd, 0, 0, 0, 0. split; [exact R|]. destruct unit; try discriminate I; cbn; auto.
    - destruct L as ((y & m & dd & h & mi & s & us & R' & S) & _). destruct R' as (_ & _ & n & _ & E).
      exists n. rewrite E. assert (clock h mi s us = 0) as ->; [|lia].
      assert (h = 0 /\ mi = 0 /\ s = 0 /\ us = 0) as (-> & -> & -> & ->); [|reflexivity].
      unfold c13_units in U. cbn in U.
      repeat destruct U as [<-|U]; try discriminate I; try contradiction; cbv zeta in S; tauto. }
  subst r. exists n. split; [exact L|]. 
  assert (n <= d) as Ln by (destruct L as (_ & L & _); unfold usecs_day in L; lia).
  split; [exact Ln|]. unfold date_truncate. rewrite (ts_of_date_ok md d D). cbn [bind].
  assert (valid_ts (n * usecs_day) <-> valid_date n) as VV.
  { unfold valid_ts, valid_date, ts_date, usecs_day in *. lia. }
  split.
  - intros Vn. rewrite K by tauto. cbn [bind]. rewrite date_of_ts_ok by tauto.
    f_equal. unfold day_part, usecs_day. lia.
  - intros Nn. destruct K' as (e & ->); [tauto|]. now exists e.
Qed.
Print Assumptions C51_truncate.
Theorem C51_beyond : forall md d ty unit, valid_date d -> ~ ts_date d ->
  date_truncate md d ty unit = Err EOverflow /\ date_date_part md d ty unit = Err EOverflow.
Proof.
  intros md d ty unit V N. unfold date_truncate, date_date_part. rewrite (ts_of_date_err md d V N). split; reflexivity.
Qed.
Print Assumptions C51_beyond.
Example C51_ex : date_truncate Debug 7335 FTUnit Month = Ok 7305 /\ date_truncate Debug 7335 FTUnit Hour = Ok 7335 /\
  date_truncate Debug 7335 FTUnit Millennium = Ok 366.
Proof. repeat split; vm_compute; reflexivity. Qed.
