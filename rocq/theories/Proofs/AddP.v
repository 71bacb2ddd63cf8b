(** Timestamp + Interval. *)
From Verif Require Import Model.DateTime Spec.Calendar Spec.Ranges Spec.Clock Spec.Shift
  Proofs.Arith Proofs.Cal Proofs.DateP Proofs.TsP.

Lemma add_months_valid c k : valid_ymd c -> valid_ymd (add_months c k).
Proof.
  destruct c as [[y m] d]. intros [Hm Hd]. unfold add_months.
  set (t := 12 * y + (m - 1) + k).
  assert (1 <= t mod 12 + 1 <= 12) as B by lia.
  pose proof (month_len_bounds (t / 12) (t mod 12 + 1) B). split; lia.
Qed.

Definition instant (c : ymd) (T : Z) : Z := (J c - 2451545) * usecs_day + T.

Lemma reading_instant c h mi s us t : reading c h mi s us t ->
  t = instant c (clock h mi s us).
Proof.
  intros (V & C & n & N & E). apply day_number_J in N; auto. unfold instant. rewrite N, E.
  f_equal. f_equal. lia.
Qed.
Lemma instant_reading c h mi s us : valid_ymd c -> clock_ok h mi s us ->
  reading c h mi s us (instant c (clock h mi s us)).
Proof.
  intros V C. split; [auto|]. split; [auto|]. exists (J c - 2451545). split; [|reflexivity].
  apply day_number_J; auto. lia.
Qed.

(** The month step as computed. *)
Definition month_step (md : mode) (y m k : Z) : res (Z * Z) :=
  let mon := wrap32 (m + k) in
  if MONTHS_PER_YEAR <? mon then
    let* m1 := sub32 md mon 1 in
    let year := wrap32 (y + Z.quot m1 MONTHS_PER_YEAR) in
    let* m := add32 md (Z.rem m1 MONTHS_PER_YEAR) 1 in
    Ok (year, m)
  else if mon <? 1 then
    let* q := sub32 md (Z.quot mon MONTHS_PER_YEAR) 1 in
    let year := wrap32 (y + q) in
    let* m := add32 md (Z.rem mon MONTHS_PER_YEAR) MONTHS_PER_YEAR in
    Ok (year, m)
  else Ok (y, mon).

Lemma month_step_ok md y m k : -5000 <= y <= 300000 -> 1 <= m <= 12 -> in_i32 k ->
  (in_i32 (m + k) ->
   month_step md y m k = Ok ((12 * y + (m - 1) + k) / 12, (12 * y + (m - 1) + k) mod 12 + 1)) /\
  (~ in_i32 (m + k) ->
   exists y' m', month_step md y m k = Ok (y', m') /\ y' < -170000000 /\ 1 <= m' <= 12
     /\ 170000000 < (12 * y + (m - 1) + k) / 12).
Proof.
  intros Hy Hm Hk. unfold month_step, MONTHS_PER_YEAR. split.
  - intros I. rewrite (wrap32_id (m + k)) by auto.
    destruct (Z.ltb_spec 12 (m + k)).
    + rng. ar_unfold. ar1. rewrite ar32_ok by (rng; lia). cbn [bind].
      rewrite wrap32_id by (rng; lia). f_equal. f_equal; lia.
    + destruct (Z.ltb_spec (m + k) 1).
      * rng. ar_unfold. ar1. rewrite ar32_ok by (rng; lia). cbn [bind].
        rewrite wrap32_id by (rng; lia). f_equal. f_equal; lia.
      * f_equal. f_equal; lia.
  - intros I. assert (2147483647 < m + k <= 2147483659) as B by (rng; lia).
    assert (wrap32 (m + k) = m + k - 4294967296) as -> by (unfold wrap32; lia).
    replace (12 <? m + k - 4294967296) with false by lia.
    replace (m + k - 4294967296 <? 1) with true by lia.
    ar_unfold. ar1. rewrite ar32_ok by (rng; lia). cbn [bind].
    do 2 eexists. split; [reflexivity|]. rewrite wrap32_id by (rng; lia). lia.
Qed.

(** First stage: months. *)
Definition stage_months (md : mode) (t k : Z) : res Z :=
  if negb (k =? 0) then
    let* x := timestamp2time md t in
    let '(tm, fsec) := x in
    let mon := wrap32 (tm_mon tm + k) in
    let* p :=
      if MONTHS_PER_YEAR <? mon then
        let* m1 := sub32 md mon 1 in
        let year := wrap32 (tm_year tm + Z.quot m1 MONTHS_PER_YEAR) in
        let* m := add32 md (Z.rem m1 MONTHS_PER_YEAR) 1 in
        Ok (year, m)
      else if mon <? 1 then
        let* q := sub32 md (Z.quot mon MONTHS_PER_YEAR) 1 in
        let year := wrap32 (tm_year tm + q) in
        let* m := add32 md (Z.rem mon MONTHS_PER_YEAR) MONTHS_PER_YEAR in
        Ok (year, m)
      else Ok (tm_year tm, mon) in
    let '(year, mon) := p in
    let* mx := days_of_month md year mon in
    let mday := if mx <? tm_mday tm then mx else tm_mday tm in
    to_timestamp md (set_mday mday (set_mon mon (set_year year tm))) fsec
  else Ok t.

(** Second stage: days. *)
Definition stage_days (md : mode) (ts k : Z) : res Z :=
  if negb (k =? 0) then
    let* x := timestamp2time md ts in
    let '(tm, fsec) := x in
    let* j := date2julian md (tm_year tm) (tm_mon tm) (tm_mday tm) in
    let julian := wrap32 (j + k) in
    let* p := julian2date md julian in
    let '(y, m, d) := p in
    to_timestamp md (set_ymd y m d tm) fsec
  else Ok ts.

Lemma add_interval_stages md t sp :
  timestamp_add_interval md t sp =
  if negb (ts_is_finite t) then Ok t
  else
    let* a := stage_months md t (iv_month sp) in
    let* b := stage_days md a (iv_day sp) in
    let ts := wrap64 (b + iv_time sp) in
    if negb (is_valid_timestamp ts) then Err EInvalid else Ok ts.
Proof. reflexivity. Qed.

Lemma add_months_0 c : valid_ymd c -> add_months c 0 = c.
Proof.
  destruct c as [[y m] d]. intros [Hm Hd]. unfold add_months.
  replace ((12 * y + (m - 1) + 0) / 12) with y by lia.
  replace ((12 * y + (m - 1) + 0) mod 12 + 1) with m by lia.
  f_equal. lia.
Qed.

Lemma stage_months_ok md c h mi s us t k : valid_ts t -> in_i32 k -> reading c h mi s us t ->
  let t1 := instant (add_months c k) (clock h mi s us) in
  (valid_ts t1 -> stage_months md t k = Ok t1) /\
  (~ valid_ts t1 -> exists e, stage_months md t k = Err e).
Proof.
  intros V Hk R t1. unfold stage_months. destruct (Z.eqb_spec k 0) as [->|Hk0]; cbn [negb].
  - assert (t1 = t) as ->.
    { subst t1. rewrite add_months_0 by apply R. symmetry. now apply reading_instant. }
    tauto.
  - destruct (ts2t_reading md t V) as (c' & h' & mi' & s' & us' & E & R').
    destruct (reading_unique _ _ _ _ _ _ _ _ _ _ _ R R') as (<- & <- & <- & <- & <-).
    rewrite E. cbn [bind]. pose proof (reading_year_bounds _ _ _ _ _ _ R V) as Y.
    pose proof (proj1 R) as Vc. pose proof (add_months_valid c k Vc) as Va.
    destruct c as [[y m] d]. cbn [mk tm_year tm_mon tm_mday].
    destruct Y as (JB & YB & _ & MB & DB).
    destruct (month_step_ok md y m k ltac:(lia) MB Hk) as [S1 S2].
    unfold month_step in S1, S2.
    pose proof R as (_ & C & _). pose proof (clock_bounds _ _ _ _ C) as CB. unfold clock_ok in C.
    assert (in_i32 (m + k) \/ ~ in_i32 (m + k)) as [I|I] by (rng; lia).
    + rewrite (S1 I). cbn [bind].
      set (y' := (12 * y + (m - 1) + k) / 12) in *.
      set (m' := (12 * y + (m - 1) + k) mod 12 + 1) in *.
      assert (1 <= m' <= 12) as M' by (subst m'; lia).
      rewrite days_of_month_ok by auto. cbn [bind].
      match goal with |- context[to_timestamp md ?tm us] =>
        pose proof (to_ts_gen md tm us) as G end.
      cbn [set_mday set_mon set_year tm_year tm_mon tm_mday tm_hour tm_min tm_sec] in G. cbv zeta in G.
      assert ((if month_len y' m' <? d then month_len y' m' else d) = Z.min d (month_len y' m')) as Emin.
      { destruct (Z.ltb_spec (month_len y' m') d); lia. }
      rewrite Emin in *. unfold add_months in Va, t1. fold y' m' in Va, t1.
      unfold instant in t1. subst t1. cbn [set_mday set_mon set_year].
      apply G; auto; rng; unfold usecs_day in *; lia.
    + destruct (S2 I) as (y' & m' & E2 & Hy' & Hm' & Hbig). rewrite E2. cbn [bind].
      rewrite days_of_month_ok by auto. cbn [bind].
      unfold to_timestamp. cbn [set_mday set_mon set_year tm_year tm_mon].
      assert (is_valid_julian y' m' = false) as ->.
      { unfold is_valid_julian, JULIAN_MIN_YEAR, JULIAN_MAX_YEAR, JULIAN_MIN_MONTH, JULIAN_MAX_MONTH. lia. }
      cbn [negb]. split; [|eauto]. intros V1. exfalso.
      unfold t1, instant, add_months in V1.
      set (y2 := (12 * y + (m - 1) + k) / 12) in *.
      set (m2 := (12 * y + (m - 1) + k) mod 12 + 1) in *.
      unfold add_months in Va. fold y2 m2 in Va.
      pose proof (J_in_year _ _ _ Va) as I2. pose proof (J_mono_year 294277 y2) as M2.
      assert (J (294277, 1, 0) = 109203527) by reflexivity.
      unfold valid_ts, usecs_day in *. lia.
Qed.

(** Day stage when the Julian number stays non-negative as an i32. *)
Lemma stage_days_ok md t k : valid_ts t -> in_i32 k -> 0 <= day_part t + 2451545 + k ->
  let t2 := t + k * usecs_day in
  (valid_ts t2 -> stage_days md t k = Ok t2) /\
  (~ valid_ts t2 -> exists e, stage_days md t k = Err e).
Proof.
  intros V Hk Hj t2. unfold stage_days. destruct (Z.eqb_spec k 0) as [->|Hk0]; cbn [negb].
  - assert (t2 = t) as -> by (subst t2; lia). tauto.
  - destruct (ts2t_reading md t V) as (c & h & mi & s & us & E & R).
    rewrite E. cbn [bind]. pose proof (reading_year_bounds _ _ _ _ _ _ R V) as Y.
    destruct c as [[y m] d]. cbn [mk tm_year tm_mon tm_mday].
    destruct Y as (JB & YB & _ & MB & DB).
    pose proof R as (Vc & C & n & N & Et). pose proof (clock_bounds _ _ _ _ C) as CB.
    apply day_number_J in N; auto.
    destruct (day_time_uniq n (clock h mi s us) t Et CB) as [Dn Tn]. rewrite Dn in Hj.
    rewrite date2julian_ok by lia. cbn [bind]. rewrite N.
    assert (julian2date md (wrap32 (n + 2451545 + k)) = Ok (day_of (n + 2451545 + k))) as ->.
    { assert (in_i32 (n + 2451545 + k) \/ 2147483647 < n + 2451545 + k < 2147483648 + 109203528) as [I|I] by (rng; lia).
      - rewrite wrap32_id by auto. apply julian2date_ok. rng. lia.
      - assert (wrap32 (n + 2451545 + k) = n + 2451545 + k - 4294967296) as -> by (unfold wrap32; lia).
        rewrite julian2date_late by lia. f_equal. f_equal. lia. }
    cbn [bind]. pose proof (day_of_valid (n + 2451545 + k)) as Vd.
    pose proof (J_day_of (n + 2451545 + k) ltac:(lia)) as Jd.
    destruct (day_of (n + 2451545 + k)) as [[y2 m2] d2].
    match goal with |- context[to_timestamp md ?tm us] => pose proof (to_ts_gen md tm us) as G end.
    cbn [set_ymd set_mday set_mon set_year tm_year tm_mon tm_mday tm_hour tm_min tm_sec] in G. cbv zeta in G.
    rewrite Jd in G.
    replace ((n + 2451545 + k - 2451545) * usecs_day + clock h mi s us) with t2 in G
      by (subst t2; rewrite Et; lia).
    unfold clock_ok in C. apply G; auto; rng; unfold usecs_day in *; lia.
Qed.

(** Below Julian day 0 but not within the first 130000 days before it. *)
Lemma stage_days_far md t k : valid_ts t -> in_i32 k -> day_part t + 2451545 + k < -130000 ->
  exists e, stage_days md t k = Err e.
Proof.
  intros V Hk Hj. unfold stage_days. pose proof (valid_ts_day t V) as VD.
  destruct (Z.eqb_spec k 0) as [->|Hk0]; cbn [negb]; [lia|].
  destruct (ts2t_reading md t V) as (c & h & mi & s & us & E & R).
  rewrite E. cbn [bind]. pose proof (reading_year_bounds _ _ _ _ _ _ R V) as Y.
  destruct c as [[y m] d]. cbn [mk tm_year tm_mon tm_mday].
  destruct Y as (JB & YB & _ & MB & DB).
  pose proof R as (Vc & C & n & N & Et). pose proof (clock_bounds _ _ _ _ C) as CB.
  apply day_number_J in N; auto.
  destruct (day_time_uniq n (clock h mi s us) t Et CB) as [Dn Tn]. rewrite Dn in Hj, VD.
  rewrite date2julian_ok by lia. cbn [bind]. rewrite N.
  rewrite wrap32_id by (rng; lia). rewrite julian2date_late by (rng; lia). cbn [bind].
  set (M := n + 2451545 + k + 4294967296).
  pose proof (day_of_valid M) as Vd. pose proof (J_day_of M ltac:(subst M; rng; lia)) as Jd.
  destruct (day_of M) as [[y2 m2] d2].
  unfold to_timestamp. cbn [set_ymd set_mday set_mon set_year tm_year tm_mon].
  destruct (is_valid_julian y2 m2) eqn:IV; cbn [negb]; [|eauto].
  pose proof (J_julian_bounds _ _ _ Vd IV). subst M. rng. lia.
Qed.

(** The whole operation, when the day stage does not go below Julian day 0. *)
Lemma add_interval_ok md c h mi s us t months days time :
  valid_ts t -> in_i32 months -> in_i32 days -> in_i64 time -> reading c h mi s us t ->
  let t1 := instant (add_months c months) (clock h mi s us) in
  let t2 := t1 + days * usecs_day in
  let t3 := t2 + time in
  (valid_ts t1 -> valid_ts t2 -> valid_ts t3 ->
   timestamp_add_interval md t (from_mdt months days time) = Ok t3).
Proof.
  intros V Hm Hd Ht R t1 t2 t3 V1 V2 V3. rewrite add_interval_stages.
  rewrite valid_ts_finite by auto. cbn [negb from_mdt iv_month iv_day iv_time].
  destruct (stage_months_ok md c h mi s us t months V Hm R) as [S1 _].
  rewrite S1 by auto. fold t1. cbn [bind].
  assert (0 <= day_part t1 + 2451545 + days) as Hj.
  { unfold valid_ts, t2, day_part, usecs_day in *. lia. }
  destruct (stage_days_ok md t1 days V1 Hd Hj) as [S2 _].
  rewrite S2 by auto. fold t2. cbn [bind].
  rewrite wrap64_id by (apply valid_ts_i64; exact V3). fold t3.
  apply is_valid_timestamp_spec in V3. now rewrite V3.
Qed.

Lemma add_interval_err md c h mi s us t months days time :
  valid_ts t -> in_i32 months -> in_i32 days -> in_i64 time -> reading c h mi s us t ->
  let t1 := instant (add_months c months) (clock h mi s us) in
  let t2 := t1 + days * usecs_day in
  let t3 := t2 + time in
  ~ valid_ts t1
  \/ (valid_ts t1 /\ ~ valid_ts t2 /\ ~ (-130000 <= day_part t2 + 2451545 < 0))
  \/ (valid_ts t1 /\ valid_ts t2 /\ ~ valid_ts t3 /\ in_i64 t3) ->
  exists e, timestamp_add_interval md t (from_mdt months days time) = Err e.
Proof.
  intros V Hm Hd Ht R t1 t2 t3 H. rewrite add_interval_stages.
  rewrite valid_ts_finite by auto. cbn [negb from_mdt iv_month iv_day iv_time].
  destruct (stage_months_ok md c h mi s us t months V Hm R) as [S1 S1'].
  fold t1 in S1, S1'.
  destruct H as [H|[(V1 & H & Hn)|(V1 & V2 & V3 & I3)]].
  - destruct (S1' H) as [e ->]. cbn. eauto.
  - rewrite S1 by auto. cbn [bind].
    assert (day_part t2 = day_part t1 + days) as Dp by (subst t2; unfold day_part, usecs_day; lia).
    rewrite Dp in Hn. destruct (Z.le_gt_cases 0 (day_part t1 + 2451545 + days)) as [Hj|Hj].
    + destruct (stage_days_ok md t1 days V1 Hd Hj) as [_ S2]. destruct (S2 H) as [e ->]. cbn. eauto.
    + destruct (stage_days_far md t1 days V1 Hd) as [e ->]; [lia|]. cbn. eauto.
  - rewrite S1 by auto. cbn [bind].
    assert (0 <= day_part t1 + 2451545 + days) as Hj.
    { unfold valid_ts, t2, day_part, usecs_day in *. lia. }
    destruct (stage_days_ok md t1 days V1 Hd Hj) as [S2 _].
    rewrite S2 by auto. fold t2. cbn [bind].
    rewrite wrap64_id by exact I3. fold t3.
    rewrite <- is_valid_timestamp_spec in V3. destruct (is_valid_timestamp t3); [tauto|]. cbn. eauto.
Qed.

(** Range closure, for every raw i64 timestamp and every interval. *)
Lemma add_interval_range md t sp r : t <> neg_inf_ts -> t <> pos_inf_ts ->
  timestamp_add_interval md t sp = Ok r -> valid_ts r.
Proof.
  intros H1 H2 E. rewrite add_interval_stages in E.
  assert (ts_is_finite t = true) as F by now apply ts_finite_spec. rewrite F in E. cbn [negb] in E.
  apply bind_inv in E as (a & _ & E). apply bind_inv in E as (b & _ & E). cbv zeta in E.
  destruct (is_valid_timestamp _) eqn:VT; cbn in E; [|discriminate].
  injection E as <-. now apply is_valid_timestamp_spec.
Qed.

Lemma add_interval_inf md sp :
  timestamp_add_interval md neg_inf_ts sp = Ok neg_inf_ts /\
  timestamp_add_interval md pos_inf_ts sp = Ok pos_inf_ts.
Proof. split; reflexivity. Qed.

(** Pure day/time intervals. *)
Lemma add_interval_daytime md t days time :
  valid_ts t -> in_i32 days -> in_i64 time ->
  valid_ts (t + days * usecs_day) -> valid_ts (t + days * usecs_day + time) ->
  timestamp_add_interval md t (from_mdt 0 days time) = Ok (t + days * usecs_day + time).
Proof.
  intros V Hd Ht V2 V3.
  destruct (ts2t_reading md t V) as (c & h & mi & s & us & E & R).
  pose proof (add_interval_ok md c h mi s us t 0 days time V ltac:(rng; lia) Hd Ht R) as A.
  cbv zeta in A. rewrite add_months_0 in A by apply R.
  rewrite <- (reading_instant _ _ _ _ _ _ R) in A. auto.
Qed.

Lemma negate_spec a : in_i32 (iv_month a) -> in_i32 (iv_day a) -> in_i64 (iv_time a) ->
  interval_negate a =
  if (iv_month a =? i32_min) || (iv_day a =? i32_min) || (iv_time a =? i64_min) then Err EOverflow
  else Ok (from_mdt (- iv_month a) (- iv_day a) (- iv_time a)).
Proof.
  intros Hm Hd Ht. unfold interval_negate, chk64, chk32, in64b, in32b. rng.
  destruct (Z.eqb_spec (iv_time a) (-9223372036854775808)) as [E|E];
    destruct (Z.eqb_spec (iv_day a) (-2147483648)) as [E1|E1];
    destruct (Z.eqb_spec (iv_month a) (-2147483648)) as [E2|E2];
    try rewrite E; try rewrite E1; try rewrite E2; cbn;
    repeat match goal with |- context[Z.leb ?a ?b] => destruct (Z.leb_spec a b); try lia; cbn end;
    reflexivity.
Qed.

Lemma sub_time_add_time md t x r : valid_ts t -> in_i64 x -> x <> i64_min ->
  valid_ts (t + x) -> timestamp_add_time md t x = Ok r ->
  r = t + x /\ timestamp_sub_time md r x = Ok t.
Proof.
  intros V I Hx V2 E. unfold timestamp_add_time, interval_of_time in E.
  rewrite add_interval_time in E by (auto using valid_ts_i64).
  pose proof V2 as V2'. apply is_valid_timestamp_spec in V2'. rewrite V2' in E. injection E as <-.
  split; [reflexivity|].
  unfold timestamp_sub_time, timestamp_sub_interval, interval_of_time.
  rewrite negate_spec by (cbn; rng; lia). cbn.
  replace (x =? i64_min) with false by lia. cbn.
  rewrite add_interval_time by (auto; replace (t + x + - x) with t by lia; now apply valid_ts_i64).
  replace (t + x + - x) with t by lia. apply is_valid_timestamp_spec in V. now rewrite V.
Qed.
