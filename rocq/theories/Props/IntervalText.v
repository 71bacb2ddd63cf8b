(** C36-C38, C50: interval text that reads back, and the size of formatted text. *)
From Verif Require Import Model.Parse Spec.Calendar Spec.Ranges Spec.Clock Spec.Text Spec.IntervalS
  Proofs.Arith Proofs.IvTruncP Proofs.FormatP Proofs.RoundTripP Proofs.IvReadP Proofs.IvPostgresP Proofs.IvVerboseP Proofs.IvSqlP Proofs.IvIsoP Proofs.IsoNegP
  Proofs.IvLenP.
Open Scope Z_scope.

(** C36. *)
Theorem C36_roundtrip : forall md a, readable_iv a ->
  exists txt, interval_format md a ISQLStandard = Ok txt
    /\ interval_try_from_str md txt (-1) ISQLStandard = Ok a.
Proof. intros md a V. destruct (sql_ok md a (readable_writable a V)) as (txt & A & _ & B). eauto using readable_back. Qed.
Print Assumptions C36_roundtrip.
Example C36_case : readable_iv (mkInterval (-4000000000000) (-3) 14)
  /\ interval_format Debug (mkInterval (-4000000000000) (-3) 14) ISQLStandard = Ok (bs "+1-2 -3 -1111:06:40")
  /\ interval_try_from_str Debug (bs "+1-2 -3 -1111:06:40") (-1) ISQLStandard = Ok (mkInterval (-4000000000000) (-3) 14)
  /\ interval_format Debug (mkInterval (-1500000) (-3) 0) ISQLStandard = Ok (bs "-3 0:00:01.5")
  /\ interval_try_from_str Debug (bs "-3 0:00:01.5") (-1) ISQLStandard = Ok (mkInterval (-1500000) (-3) 0).
Proof. vm_compute. intuition congruence. Qed.
(** Different intervals in the domain never share a text. *)
Theorem C36_injective : forall md a b txt, readable_iv a -> readable_iv b ->
  interval_format md a ISQLStandard = Ok txt -> interval_format md b ISQLStandard = Ok txt -> a = b.
Proof.
  intros md a b txt Va Vb Ea Eb. destruct (C36_roundtrip md a Va) as (t & A1 & A2). destruct (C36_roundtrip md b Vb) as (u & B1 & B2).
  congruence.
Qed.
Print Assumptions C36_injective.
(** The domain is exact: the text of an interval that can be written is read back if and only if
    its whole minutes fit 32 bits. Otherwise a build with overflow checks panics when it reads the text,
    and one without returns the same months and days with another clock part. *)
Theorem C36_limit : forall md a, writable_iv a ->
  exists txt, interval_format md a ISQLStandard = Ok txt
    /\ read_back md a (interval_try_from_str md txt (-1) ISQLStandard).
Proof. intros md a V. destruct (sql_ok md a V) as (txt & A & _ & B). eauto. Qed.
Print Assumptions C36_limit.
Theorem C36_exact : forall md a txt, writable_iv a -> interval_format md a ISQLStandard = Ok txt ->
  (interval_try_from_str md txt (-1) ISQLStandard = Ok a <-> minutes_fit a).
Proof.
  intros md a txt V E. destruct (C36_limit md a V) as (u & E' & B). assert (u = txt) as -> by congruence.
  exact (read_back_iff md a _ B).
Qed.
Print Assumptions C36_exact.
Example C36_limit_case : let a := mkInterval (2147483648 * 60000000 - 1) 1 2 in let b := mkInterval (2147483648 * 60000000) 1 2 in
  readable_iv a /\ writable_iv b /\ ~ minutes_fit b
  /\ interval_format Debug b ISQLStandard = Ok (bs "+0-2 +1 +35791394:08:00")
  /\ interval_try_from_str Debug (bs "+0-2 +1 +35791394:08:00") (-1) ISQLStandard = Fault FArith
  /\ interval_try_from_str Release (bs "+0-2 +1 +35791394:08:00") (-1) ISQLStandard = Ok (mkInterval (-2147483648 * 60000000) 1 2)
  /\ interval_try_from_str Debug (bs "+0-2 +1 +35791394:07:59.999999") (-1) ISQLStandard = Ok a.
Proof. vm_compute. intuition congruence. Qed.
(** An interval whose whole hours do not fit 32 bits has no text in any style. *)
Theorem C36_too_long : forall md a style, fields_ok a -> ~ in_i32 (Z.quot (iv_time a) 3600000000) ->
  interval_format md a style = Err EOverflow.
Proof.
  intros md a style F H. unfold interval_format. rewrite iv_to_pgtime_ok by exact F.
  destruct (in32b _) eqn:E; [|reflexivity]. exfalso. apply H. now apply in32b_spec.
Qed.
Print Assumptions C36_too_long.
Example C36_too_long_case : fields_ok (mkInterval (-2147483649 * 3600000000) 0 0)
  /\ ~ in_i32 (Z.quot (-2147483649 * 3600000000) 3600000000).
Proof. vm_compute. intuition congruence. Qed.
(** Outside the domain. The day i32::MIN panics when formatted in debug builds and prints a text
    with two minus signs in release builds; 35791395 hours print well but are not read back. *)
Theorem C36_day_min_refuted : interval_format Debug (mkInterval 0 (-2147483648) 0) ISQLStandard = Fault FArith
  /\ interval_format Release (mkInterval 0 (-2147483648) 0) ISQLStandard = Ok (bs "--2147483648 0:00:00").
Proof. vm_compute. auto. Qed.
Print Assumptions C36_day_min_refuted.
Theorem C36_long_refuted : exists a txt, fields_ok a /\ forall md,
  interval_format md a ISQLStandard = Ok txt /\ interval_try_from_str md txt (-1) ISQLStandard <> Ok a.
Proof.
  exists (mkInterval (35791395 * 3600000000) 0 0), (bs "35791395:00:00"). split; [vm_compute; intuition congruence|].
  intros []; (split; [vm_compute; reflexivity|vm_compute; discriminate]).
Qed.
Print Assumptions C36_long_refuted.

(** C37. *)
Theorem C37_roundtrip : forall md a style, style = IPostgres \/ style = IPostgresVerbose -> readable_iv a ->
  exists txt, interval_format md a style = Ok txt /\ interval_try_from_str md txt (-1) style = Ok a.
Proof.
  intros md a style S V. pose proof (readable_writable a V) as W. destruct S as [-> | ->].
  - destruct (postgres_ok md a W) as (txt & A & _ & B). exists txt. eauto using readable_back.
  - destruct (verbose_ok md a W) as (txt & A & _ & B). exists txt. eauto using readable_back.
Qed.
Print Assumptions C37_roundtrip.
(** The limit of both styles, as in [C36_limit]. *)
Theorem C37_limit : forall md a style rs, style = IPostgres \/ style = IPostgresVerbose -> writable_iv a -> rs <> ISQLStandard ->
  exists txt, interval_format md a style = Ok txt /\ read_back md a (interval_try_from_str md txt (-1) rs).
Proof.
  intros md a style rs [-> | ->] V N.
  - destruct (postgres_ok md a V) as (txt & A & _ & B). exists txt. split; [exact A|]. apply B. now destruct rs.
  - destruct (verbose_ok md a V) as (txt & A & _ & B). exists txt. split; [exact A|]. apply B. now destruct rs.
Qed.
Print Assumptions C37_limit.
(** The reading style does not matter as long as it is not SQLStandard. *)
Theorem C37_any_style : forall md a style rs, style = IPostgres \/ style = IPostgresVerbose -> readable_iv a -> rs <> ISQLStandard ->
  exists txt, interval_format md a style = Ok txt /\ interval_try_from_str md txt (-1) rs = Ok a.
Proof.
  intros md a style rs S V N. destruct (C37_limit md a style rs S (readable_writable a V) N) as (txt & A & B).
  eauto using readable_back.
Qed.
Print Assumptions C37_any_style.
Theorem C37_exact : forall md a style rs txt, style = IPostgres \/ style = IPostgresVerbose -> writable_iv a -> rs <> ISQLStandard ->
  interval_format md a style = Ok txt -> (interval_try_from_str md txt (-1) rs = Ok a <-> minutes_fit a).
Proof.
  intros md a style rs txt S V N E. destruct (C37_limit md a style rs S V N) as (u & E' & B). assert (u = txt) as -> by congruence.
  exact (read_back_iff md a _ B).
Qed.
Print Assumptions C37_exact.
Example C37_limit_case : let b := mkInterval (-2147483649 * 60000000) 1 2 in
  writable_iv b /\ ~ minutes_fit b /\ interval_format Debug b IPostgresVerbose = Ok (bs "@ 2 mons 1 day -35791394 hours -9 mins")
  /\ interval_try_from_str Debug (bs "@ 2 mons 1 day -35791394 hours -9 mins") (-1) IISO8601 = Fault FArith
  /\ interval_try_from_str Release (bs "@ 2 mons 1 day -35791394 hours -9 mins") (-1) IISO8601 = Ok (mkInterval (2147483647 * 60000000) 1 2).
Proof. vm_compute. intuition congruence. Qed.
Example C37_case : readable_iv (mkInterval (-4000000000001) 3 (-14))
  /\ interval_format Debug (mkInterval (-4000000000001) 3 (-14)) IPostgres = Ok (bs "-1 years -2 mons +3 days -1111:06:40.000001")
  /\ interval_try_from_str Debug (bs "-1 years -2 mons +3 days -1111:06:40.000001") (-1) IPostgres = Ok (mkInterval (-4000000000001) 3 (-14))
  /\ interval_format Debug (mkInterval (-4000000000001) 3 (-14)) IPostgresVerbose
     = Ok (bs "@ 1 years 2 mons -3 days 1111 hours 6 mins 40.000001 secs ago").
Proof. vm_compute. intuition congruence. Qed.

(** C38. *)
Theorem C38_roundtrip : forall md a, readable_iv a -> 0 <= iv_month a -> 0 <= iv_day a -> 0 <= iv_time a ->
  exists txt, interval_format md a IISO8601 = Ok txt /\
  forall style, interval_try_from_str md txt (-1) style = Ok a.
Proof. intros md a V A B C. destruct (iso_ok md a (readable_writable a V) A B C) as (txt & E & _ & R). eauto using readable_back. Qed.
Print Assumptions C38_roundtrip.
(** The limit, as in [C36_limit]. *)
Theorem C38_limit : forall md a, writable_iv a -> 0 <= iv_month a -> 0 <= iv_day a -> 0 <= iv_time a ->
  exists txt, interval_format md a IISO8601 = Ok txt /\ forall style, read_back md a (interval_try_from_str md txt (-1) style).
Proof. intros md a V A B C. destruct (iso_ok md a V A B C) as (txt & E & _ & R). eauto. Qed.
Print Assumptions C38_limit.
Example C38_case : readable_iv (mkInterval 4000000000001 3 14)
  /\ interval_format Debug (mkInterval 4000000000001 3 14) IISO8601 = Ok (bs "P1Y2M3DT1111H6M40.000001S")
  /\ interval_try_from_str Debug (bs "P1Y2M3DT1111H6M40.000001S") (-1) IISO8601 = Ok (mkInterval 4000000000001 3 14).
Proof. vm_compute. intuition congruence. Qed.
(** A negative field prints a text that no style reads. *)
Theorem C38_negative_refuted : exists a txt, readable_iv a /\ interval_format Debug a IISO8601 = Ok txt
  /\ forall md style, interval_try_from_str md txt (-1) style = Err EInvalid.
Proof.
  exists (mkInterval 0 0 (-12)), (bs "P-1Y"). split; [vm_compute; intuition congruence|]. split; [vm_compute; reflexivity|].
  intros [] []; vm_compute; reflexivity.
Qed.
Print Assumptions C38_negative_refuted.

(** So it is for every interval that can be written and has a negative field: its text is refused in all styles and
    builds, and never read as another interval. *)
Theorem C38_negative : forall md a, writable_iv a -> iv_month a < 0 \/ iv_day a < 0 \/ iv_time a < 0 ->
  exists txt, interval_format md a IISO8601 = Ok txt /\ forall md' style, interval_try_from_str md' txt (-1) style = Err EInvalid.
Proof. exact iso_neg. Qed.
Print Assumptions C38_negative.
(** So the intervals whose ISO 8601 text is read back are known exactly. *)
Theorem C38_exact : forall md a style txt, writable_iv a -> interval_format md a IISO8601 = Ok txt ->
  (interval_try_from_str md txt (-1) style = Ok a <-> minutes_fit a /\ 0 <= iv_month a /\ 0 <= iv_day a /\ 0 <= iv_time a).
Proof.
  intros md a style txt V E.
  assert ((0 <= iv_month a /\ 0 <= iv_day a /\ 0 <= iv_time a) \/ (iv_month a < 0 \/ iv_day a < 0 \/ iv_time a < 0)) as [(A & B & C)|N] by lia.
  - destruct (C38_limit md a V A B C) as (u & E' & R). assert (u = txt) as -> by congruence.
    rewrite (read_back_iff md a _ (R style)). tauto.
  - destruct (C38_negative md a V N) as (u & E' & R). assert (u = txt) as -> by congruence. rewrite R.
    split; [discriminate|]. intros (_ & A & B & C). lia.
Qed.
Print Assumptions C38_exact.
Example C38_exact_case : writable_iv (mkInterval (2147483648 * 60000000) 3 14)
  /\ interval_format Debug (mkInterval (2147483648 * 60000000) 3 14) IISO8601 = Ok (bs "P1Y2M3DT35791394H8M")
  /\ interval_try_from_str Debug (bs "P1Y2M3DT35791394H8M") (-1) IISO8601 = Fault FArith.
Proof. vm_compute. intuition congruence. Qed.
Example C38_negative_case : writable_iv (mkInterval (-500000) 3 14)
  /\ interval_format Debug (mkInterval (-500000) 3 14) IISO8601 = Ok (bs "P1Y2M3DT-0.5S").
Proof. vm_compute. intuition congruence. Qed.

(** C50. *)
Theorem C50_date : forall md d style order, valid_date d \/ d = neg_inf_date \/ d = pos_inf_date ->
  exists txt, date_format md d style order = Ok txt /\ (length txt <= 18)%nat.
Proof.
  intros md d style order [V|[->| ->]].
  - destruct (date_format_ok md d style order V) as (((y & m) & dd) & t & A & B & _ & C & D). exists (t ++ era_suffix y).
    split; [exact A|]. destruct (valid_ymd_bounds _ _ _ B) as [Bm Bd]. cbn in D.
    pose proof (date_layout_len style order _ _ _ _ C ltac:(lia) ltac:(lia) ltac:(lia)) as L.
    rewrite app_length. pose proof (era_suffix_len y). lia.
  - exists (bs "-infinity"). split; [reflexivity|cbn; lia].
  - exists (bs "infinity"). split; [reflexivity|cbn; lia].
Qed.
Print Assumptions C50_date.
Theorem C50_time : forall md t, 0 <= t <= usecs_day -> exists txt, time_format md t = Ok txt /\ (length txt <= 15)%nat.
Proof.
  intros md t H. destruct (time_format_ok md t H) as (h & mi & s & us & txt & A & C & Hh & Hm & Hs & _). exists txt.
  split; [exact A|].
  pose proof (clock_len _ _ _ _ _ _ 2 C ltac:(change (10 ^ Z.of_nat 2) with 100; lia) ltac:(lia) ltac:(lia) ltac:(lia)). lia.
Qed.
Print Assumptions C50_time.
Theorem C50_timestamp : forall md t style order, valid_ts t \/ t = neg_inf_ts \/ t = pos_inf_ts ->
  exists txt, timestamp_format md t style order = Ok txt /\ (length txt <= 51)%nat.
Proof.
  intros md t style order [V|[->| ->]].
  - destruct (timestamp_format_ok md t style order V) as (((y & m) & d) & h & mi & s & us & txt & A & (B & C & _) & L & D).
    exists (txt ++ era_suffix y). split; [exact A|]. destruct (valid_ymd_bounds _ _ _ B) as [Bm Bd]. cbn in D.
    unfold clock_ok in C. apply ts_layout_len in L; try lia. rewrite app_length. pose proof (era_suffix_len y). lia.
  - exists (bs "-infinity"). split; [reflexivity|cbn; lia].
  - exists (bs "infinity"). split; [reflexivity|cbn; lia].
Qed.
Print Assumptions C50_timestamp.
(** Intervals either have an hour count beyond i32, which is reported, or format within the buffer. *)
Theorem C50_interval : forall md a style, fields_ok a -> iv_day a <> -2147483648 ->
  Z.quot (iv_time a) 3600000000 <> -2147483648 ->
  interval_format md a style = Err EOverflow /\ ~ in_i32 (Z.quot (iv_time a) 3600000000)
  \/ exists txt, interval_format md a style = Ok txt /\ (length txt <= 127)%nat.
Proof. exact interval_format_total. Qed.
Print Assumptions C50_interval.
(** The two excluded fields do panic in debug builds. *)
Theorem C50_interval_min_refuted : exists a b, fields_ok a /\ fields_ok b
  /\ interval_format Debug a IPostgresVerbose = Fault FArith
  /\ interval_format Debug b IPostgres = Fault FArith.
Proof.
  exists (mkInterval 0 (-2147483648) 0), (mkInterval (-2147483648 * 3600000000) 0 0).
  split; [vm_compute; intuition congruence|]. split; [vm_compute; intuition congruence|]. vm_compute. auto.
Qed.
Print Assumptions C50_interval_min_refuted.
Example C50_case : exists txt, interval_format Debug (mkInterval (-7730941132799999999) (-2147483647) (-2147483648)) IPostgresVerbose = Ok txt
  /\ length txt = 84%nat.
Proof. eexists. split; [vm_compute; reflexivity|reflexivity]. Qed.
