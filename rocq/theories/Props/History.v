(** Every value that any sequence of calls can produce stays in range: C80. *)
From Coq Require Import String.
From Verif Require Import Model.F64 Model.Parse Model.Format Model.Serde Model.DateTime Spec.Ranges Spec.Clock Spec.IntervalS Spec.Calendar
  Proofs.DateP Proofs.TsP Proofs.FormatP Proofs.RoundTripP Proofs.IntervalP Proofs.HistoryP Proofs.PartsP Proofs.IvTruncP Props.Dates Props.Timestamps Props.Intervals Props.Text Props.Serde Props.Units Props.Parts Props.Truncate.
From Verif Require Import Spec.History.
From Coq Require Import List ZArith Bool Lia Floats.SpecFloat.
Import List ListNotations.
Open Scope Z_scope.

(** By induction over the calls: a date or timestamp is in the supported range or infinite, a time of day is
    not negative, and the fields of an interval fit their types. There are two exceptions, with exact limits. *)
Theorem C80_range : forall md v, made md v -> in_range md v.
Proof. exact made_range. Qed.
Print Assumptions C80_range.

(** Both exceptions do appear: a rounded timestamp after the end of the range, and times of day after 24:00:00,
    up to the second after it with checked arithmetic and almost up to 48:00:00 without. *)
Theorem C80_exceptions : forall md, made md (VTs after_last) /\ ~ valid_ts after_last
  /\ made md (VTime (last_time md)) /\ usecs_day < last_time md.
Proof.
  intros md. split; [|split; [unfold valid_ts, after_last; lia|split; [|destruct md; unfold last_time, usecs_day; lia]]].
  - apply (M_ts_str md (bs "294276-12-31 23:59:59.6") 0 YMD). destruct md; vm_compute; reflexivity.
  - destruct md.
    + apply (M_time_str _ (bs "23:59:60.9999999") (-1) YMD). vm_compute. reflexivity.
    + apply (M_time_of_iv _ (from_mdt 0 0 (-9223371964909551618))); [|vm_compute; reflexivity].
      apply (M_iv_add _ (from_mdt 0 0 (-9223371964800000000)) (from_mdt 0 0 (-109551618))); [| |vm_compute; reflexivity].
      * apply (M_iv_sub _ (from_mdt 0 0 (-7730941129200000000)) (from_mdt 0 0 1492430835600000000)); [| |vm_compute; reflexivity].
        -- apply (M_ymwd_hms _ 0 0 0 0 (-2147483647) 0 (S754_zero false)). vm_compute. reflexivity.
        -- apply (M_ymwd_hms _ 0 0 0 0 414564121 0 (S754_zero false)). vm_compute. reflexivity.
      * apply (M_iv_str _ (bs "-109.551618") (-1) IPostgres). vm_compute. reflexivity.
Qed.
Print Assumptions C80_exceptions.

(** So whatever the calls before were, the conversions, differences and arithmetic below do not panic in any build. *)
Theorem C80_no_panic : forall md,
  (forall d, made md (VDate d) -> forall f,
     (forall n, date_add_days d n <> Fault f) /\ (forall n, date_sub_days d n <> Fault f)
     /\ timestamp_of_date md d <> Fault f /\ (forall st o, date_format md d st o <> Fault f)
     /\ (forall e, made md (VDate e) -> date_sub_date md d e <> Fault f))
  /\ (forall t, made md (VTs t) -> t <> after_last -> forall f,
     date_of_timestamp md t <> Fault f /\ time_of_timestamp md t <> Fault f
     /\ (forall st o, timestamp_format md t st o <> Fault f))
  /\ (forall t, made md (VTime t) -> forall f a, time_add_interval md t a <> Fault f /\ time_sub_interval md t a <> Fault f)
  /\ (forall a, made md (VIv a) -> forall f,
     justify_hours md a <> Fault f /\ justify_days md a <> Fault f /\ justify_interval md a <> Fault f
     /\ interval_negate a <> Fault f /\ (forall b, interval_add a b <> Fault f /\ interval_sub a b <> Fault f)).
Proof.
  intros md. split; [|split; [|split]].
  - intros d M f. pose proof (made_range _ _ M) as R. cbn [in_range] in R.
    assert ((forall n, date_add_days d n <> Fault f) /\ (forall n, date_sub_days d n <> Fault f)) as (A & B).
    { destruct R as [V|[-> | ->]].
      - split; intros n; destruct (valid_not_inf d V) as (N1 & N2);
          [destruct (add_days_spec d n N1 N2) as (S & S')|destruct (sub_days_spec d n N1 N2) as (S & S')].
        + destruct (is_valid_date (d + n)) eqn:Q.
          * rewrite S by now apply is_valid_date_spec. discriminate.
          * rewrite S'; [discriminate|]. intros W. apply is_valid_date_spec in W. congruence.
        + destruct (is_valid_date (d - n)) eqn:Q.
          * rewrite S by now apply is_valid_date_spec. discriminate.
          * destruct S' as (e & S'); [|rewrite S'; discriminate]. intros W. apply is_valid_date_spec in W. congruence.
      - split; discriminate.
      - split; discriminate. }
    split; [exact A|]. split; [exact B|]. split; [|split].
    + destruct R as [V|[-> | ->]]; [|discriminate|discriminate].
      destruct (Z.le_gt_cases 106751983 d) as [L|L].
      * rewrite C06_too_late; [discriminate|exact V|]. unfold ts_date. lia.
      * rewrite C06_midnight; [discriminate|]. unfold ts_date, valid_date in *. lia.
    + intros st o. destruct R as [V|V].
      * destruct (date_format_ok md d st o V) as (c & t & T & _). rewrite T. discriminate.
      * destruct (C33_infinity md d st o YMD V) as (t & T & _). rewrite T. discriminate.
    + intros e M'. pose proof (made_range _ _ M') as R'. cbn [in_range] in R'.
      destruct R as [V|R]; [destruct R' as [V'|R']|]; [rewrite C05_sub_date_exact by assumption; discriminate|rewrite C05_infinite by tauto; discriminate..].
  - intros t M N f. pose proof (made_range _ _ M) as R. cbn [in_range] in R.
    destruct R as [V|[H|[H|H]]]; [| | |congruence].
    + destruct (C08_split md t V) as (d & x & A & B & _). rewrite A, B. split; [discriminate|]. split; [discriminate|].
      intros st o. destruct (timestamp_format_ok md t st o V) as (c & h & mi & se & us & u & T & _). rewrite T. discriminate.
    + destruct (C08_infinite md) as (A & _ & B & _). subst t. rewrite A, B. split; [discriminate|]. split; [discriminate|].
      intros st o. destruct (C35_infinity md neg_inf_ts st o YMD) as (u & T & _); [auto|]. rewrite T. discriminate.
    + destruct (C08_infinite md) as (_ & A & _ & B). subst t. rewrite A, B. split; [discriminate|]. split; [discriminate|].
      intros st o. destruct (C35_infinity md pos_inf_ts st o YMD) as (u & T & _); [auto|]. rewrite T. discriminate.
  - intros t M f a. destruct (C18_range md t a) as ((x & E & _) & (y & E' & _)). rewrite E, E'. split; discriminate.
  - intros a M f. pose proof (made_range _ _ M) as R. cbn [in_range] in R.
    destruct (justify_hours_total md a R) as (x & E & _). destruct (justify_days_total md a R) as (y & E' & _).
    destruct (justify_interval_total md a R) as (z & E'' & _). rewrite E, E', E''.
    do 3 (split; [discriminate|]). unfold interval_negate, interval_add, interval_sub.
    split; [|intros b; split]; repeat (match goal with |- context [chk32 ?z] => destruct (chk32 z) | |- context [chk64 ?z] => destruct (chk64 z) end; cbn [ok_or bind]); discriminate.
Qed.
Print Assumptions C80_no_panic.

(** Nor do the parts, ages and truncations of a finite timestamp, except truncation to the week (C14), the parts
    and truncations of a time of day up to 24:00:00, and the parts of an interval. *)
Theorem C80_parts : forall md,
  (forall t, made md (VTs t) -> ~ In t [neg_inf_ts; pos_inf_ts; after_last] -> forall f ty unit,
     timestamp_date_part md t ty unit <> Fault f
     /\ (unit <> Week -> timestamp_truncate md t ty unit <> Fault f)
     /\ (forall u, made md (VTs u) -> ~ In u [neg_inf_ts; pos_inf_ts; after_last] -> timestamp_age md t u <> Fault f))
  /\ (forall t, made md (VTime t) -> t <= usecs_day -> forall f ty unit,
     time_date_part md t ty unit <> Fault f /\ time_truncate md t ty unit <> Fault f)
  /\ (forall a, made md (VIv a) -> forall f ty unit, interval_date_part md a ty unit <> Fault f).
Proof.
  intros md.
  assert (forall x r e f, within x r e -> x <> Fault f) as W.
  { intros x r e f (z & E & _). rewrite E. discriminate. }
  split; [|split].
  - intros t M N f ty unit.
    assert (forall u, made md (VTs u) -> ~ In u [neg_inf_ts; pos_inf_ts; after_last] -> valid_ts u) as V.
    { intros u Mu Nu. pose proof (made_range _ _ Mu) as R. cbn [in_range In] in R, Nu. intuition congruence. }
    pose proof (V t M N) as Vt. split; [|split].
    + destruct (ts2t_reading md t Vt) as ([[y m] d] & h & mi & s & us & _ & R). destruct R as (Vd & R0).
      destruct (R0) as (R1 & n & Nn & R2). assert (reading (y, m, d) h mi s us t) as R by (split; assumption).
      destruct ty; [|rewrite (proj1 (C53_refused md t unit Vt)); discriminate].
      destruct (C53_timestamp md t y m d h mi s us n Vt R Nn) as (P1 & P2 & P3 & P4 & P5 & P6 & P7 & P8 & P9).
      destruct (C16_year md t y m d h mi s us Vt R) as (Y & _ & _ & Q1 & (c & Q2 & _) & (c' & Q3 & _) & (c'' & Q4 & _)).
      destruct (C15_iso_week_total y m d n Vd Nn) as (iy & w & I & _).
      destruct (C15_iso_week md t y m d h mi s us n iy w Vt R Nn I) as (I1 & I2).
      destruct (C15_weekday md t y m d h mi s us n Vt R Nn) as (D1 & D2 & D3).
      pose proof (proj2 (C53_refused md t unit Vt)) as Bad.
      destruct unit;
        first [ eapply W; eassumption
              | match goal with E : _ = Ok _ |- _ => rewrite E; discriminate end
              | rewrite Bad by (cbn; tauto); discriminate | idtac ].
      assert (valid_ymd (y, 1, 1)) as V1 by (unfold valid_ymd, month_len; cbn; lia).
      rewrite (D3 (Cal.J (y, 1, 1) - 2451545)); [discriminate|]. apply Cal.day_number_J; [exact V1|lia].
    + intros Nw. destruct ty; [|rewrite (proj2 (C13_bad_unit md t Vt)); discriminate].
      destruct unit; try congruence;
        first [ rewrite (proj1 (C13_bad_unit md t Vt)) by (cbn; tauto); discriminate
              | match goal with |- timestamp_truncate _ _ _ ?u <> _ =>
                  destruct (C13_truncate md t u Vt) as (r & _ & A & B); [cbn; tauto|];
                  destruct (is_valid_timestamp r) eqn:Q;
                    [rewrite A by now apply is_valid_timestamp_spec|destruct B as (e & B); [intros X; apply is_valid_timestamp_spec in X; congruence|rewrite B]];
                  discriminate end ].
    + intros u Mu Nu. destruct (C12_antisymmetric md t u Vt (V u Mu Nu)) as (r & E & _). rewrite E. discriminate.
  - intros t M L f ty unit. pose proof (made_range _ _ M) as R. cbn [in_range] in R.
    assert (0 <= t <= usecs_day) as H by lia. split.
    + destruct (C53_time md t H) as (h & mi & s & us & _ & _ & _ & _ & _ & P1 & P2 & P3 & P4 & P5 & P6 & P7 & P8).
      destruct ty.
      * specialize (P7 unit). destruct unit;
          first [ eapply W; eassumption | rewrite P7; discriminate | rewrite P1; discriminate | rewrite P2; discriminate ].
      * destruct unit; first [ eapply W; eassumption | rewrite P8 by discriminate; discriminate ].
    + destruct ty; [|discriminate]. destruct (trunc_unit unit) eqn:U.
      * destruct (time_truncate_ok md t unit H U) as (r & E & _). rewrite E. discriminate.
      * rewrite C52_refused; [discriminate|unfold in_i64, i64_min, i64_max, usecs_day in *; lia|unfold usecs_day in H; lia|].
        destruct unit; try discriminate U; cbn; tauto.
  - intros a M f ty unit. pose proof (made_range _ _ M) as R. cbn [in_range] in R.
    destruct ty.
    + destruct (in32b (Z.quot (iv_time a) 3600000000)) eqn:B.
      * assert (in_i32 (Z.quot (iv_time a) 3600000000)) as B1 by (unfold in32b in B; unfold in_i32; lia).
        destruct (C54_parts md a R B1) as (P1 & P2 & P3 & P4 & P5 & P6 & P7 & P8 & P9 & Q1 & Q2 & Q3 & Q4).
        specialize (Q4 unit). destruct unit;
          first [ eapply W; eassumption | rewrite Q4; discriminate
                | match goal with E : _ = Ok _ |- _ => rewrite E; discriminate end ].
      * rewrite C54_big; [discriminate|exact R|]. intros B1. unfold in32b in B. unfold in_i32 in B1. lia.
    + destruct unit; first [ discriminate | eapply W; apply (C54_epoch md a R) ].
Qed.
Print Assumptions C80_parts.

(** And what they return can be stored as text and loaded again. *)
Theorem C80_stored : forall md,
  (forall d, made md (VDate d) -> preserved (date_ser md true d) (date_de md) d)
  /\ (forall t, made md (VTs t) -> t <> after_last -> preserved (timestamp_ser md true t) (timestamp_de md) t)
  /\ (forall t, made md (VTime t) -> t <= usecs_day -> preserved (time_ser md true t) (time_de md) t)
  /\ (forall a, made md (VIv a) -> preserved (interval_ser md false a) (interval_de md) a).
Proof.
  intros md. split; [|split; [|split]].
  - intros d M. apply C39_date_text. exact (made_range _ _ M).
  - intros t M N. apply C39_timestamp_text. pose proof (made_range _ _ M) as R. cbn [in_range] in R. tauto.
  - intros t M L. apply C39_time_text. pose proof (made_range _ _ M) as R. cbn [in_range] in R. lia.
  - intros a M. apply C39_interval_binary. exact (made_range _ _ M).
Qed.
Print Assumptions C80_stored.

(** A history: a timestamp read from text, moved on by an interval read from text, cut to its day, and the age
    of the first at the second. *)
Example C80_ex : forall md, exists t u d a, timestamp_try_from_str md (bs "2000-02-29 13:14:15") (-1) YMD = Ok t
  /\ made md (VTs t) /\ made md (VTs u) /\ u <> t /\ made md (VDate d) /\ made md (VIv a) /\ a <> from_mdt 0 0 0
  /\ timestamp_age md u t = Ok a /\ date_of_timestamp md u = Ok d.
Proof.
  intros md. exists 5145255000000, 36767665000000, 425, (from_mdt 12 1 10000000).
  assert (timestamp_try_from_str md (bs "2000-02-29 13:14:15") (-1) YMD = Ok 5145255000000) as T by (destruct md; vm_compute; reflexivity).
  assert (made md (VTs 5145255000000)) as A by exact (M_ts_str md _ _ _ _ T).
  assert (made md (VTs 36767665000000)) as B.
  { apply (M_ts_add md _ (from_mdt 12 1 10000000) _ A); [|destruct md; vm_compute; reflexivity].
    apply (M_iv_str md (bs "1 year 1 day 10 sec") (-1) IPostgres). destruct md; vm_compute; reflexivity. }
  assert (timestamp_age md 36767665000000 5145255000000 = Ok (from_mdt 12 1 10000000)) as G by (destruct md; vm_compute; reflexivity).
  assert (date_of_timestamp md 36767665000000 = Ok 425) as D by (destruct md; vm_compute; reflexivity).
  split; [exact T|]. split; [exact A|]. split; [exact B|]. split; [lia|]. split; [exact (M_date_of_ts md _ _ B D)|].
  split; [exact (M_age md _ _ _ B A G)|]. split; [unfold from_mdt; congruence|]. split; [exact G|exact D].
Qed.
