(** Dates: construction, numbering, day arithmetic, conversion to timestamps. *)
From Verif Require Import Model.DateTime Spec.Calendar Spec.Ranges Proofs.Arith Proofs.Cal.

Definition validb (y m d : Z) : bool :=
  (1 <=? m) && (m <=? 12) && (1 <=? d) && (d <=? month_len y m).
Lemma validb_spec y m d : validb y m d = true <-> valid_ymd (y, m, d).
Proof. unfold validb, valid_ymd. lia. Qed.

Lemma year_is_leap_ok y : year_is_leap y = leap y.
Proof.
  unfold year_is_leap, leap.
  assert (forall n, 0 < n -> (Z.rem y n =? 0) = (y mod n =? 0)) as H.
  { intros n Hn. pose proof (Z.rem_divide y n ltac:(lia)). pose proof (Z.mod_divide y n ltac:(lia)).
    destruct (Z.eqb_spec (Z.rem y n) 0), (Z.eqb_spec (y mod n) 0); tauto. }
  now rewrite !H by lia.
Qed.

Lemma days_of_month_ok md y m : 1 <= m <= 12 -> days_of_month md y m = Ok (month_len y m).
Proof.
  intros H. unfold days_of_month. rewrite year_is_leap_ok.
  month12 H; unfold index_minus1; cbn; destruct (leap y); reflexivity.
Qed.

Lemma has_date_Y : has DTK_DATE_M (mask YEAR) = true. Proof. reflexivity. Qed.
Lemma has_date_M : has DTK_DATE_M (mask MONTH) = true. Proof. reflexivity. Qed.
Lemma has_date_D : has DTK_DATE_M (mask DAY) = true. Proof. reflexivity. Qed.
Lemma has_date_DOY : has DTK_DATE_M (mask DOY) = false. Proof. reflexivity. Qed.
Lemma land_date : (Z.land DTK_DATE_M DTK_DATE_M =? DTK_DATE_M) = true. Proof. reflexivity. Qed.

(** validate_date for a year/month/day reading with a positive year. *)
Lemma validate_date_ymd md bc tm :
  in_i32 (tm_year tm) ->
  validate_date md DTK_DATE_M false false bc tm =
  let y := if bc then 1 - tm_year tm else tm_year tm in
  if tm_year tm <=? 0 then Err EOverflow
  else if validb y (tm_mon tm) (tm_mday tm) then Ok (set_year y tm) else Err EOverflow.
Proof.
  intros Hy. unfold validate_date.
  rewrite has_date_Y, has_date_M, has_date_D, has_date_DOY, land_date. cbn [andb].
  set (y := if bc then 1 - tm_year tm else tm_year tm).
  match goal with |- bind ?e _ = _ =>
    assert (e = if tm_year tm <=? 0 then Err EOverflow else Ok (set_year y tm)) as -> end.
  { subst y. destruct bc; destruct (Z.leb_spec (tm_year tm) 0); auto.
    - ar. now replace (- (tm_year tm - 1)) with (1 - tm_year tm) by lia.
    - destruct tm; reflexivity. }
  destruct (Z.leb_spec (tm_year tm) 0); [reflexivity|]. cbn [bind].
  assert (tm_mon (set_year y tm) = tm_mon tm) as -> by (destruct tm; reflexivity).
  assert (tm_mday (set_year y tm) = tm_mday tm) as -> by (destruct tm; reflexivity).
  assert (tm_year (set_year y tm) = y) as -> by (destruct tm; reflexivity).
  cbv zeta. unfold MONTHS_PER_YEAR, validb.
  destruct (Z.ltb_spec (tm_mon tm) 1), (Z.ltb_spec 12 (tm_mon tm)); cbn [orb]; try lia;
    try (replace (1 <=? tm_mon tm) with false by lia; reflexivity);
    try (replace (tm_mon tm <=? 12) with false by lia; rewrite ?andb_false_r; reflexivity).
  rewrite days_of_month_ok by lia.
  replace (1 <=? tm_mon tm) with true by lia. replace (tm_mon tm <=? 12) with true by lia.
  pose proof (month_len_bounds y (tm_mon tm)).
  destruct (Z.ltb_spec (tm_mday tm) 1), (Z.ltb_spec 31 (tm_mday tm)); cbn [orb]; try lia;
    try (replace (1 <=? tm_mday tm) with false by lia; reflexivity);
    try (replace (tm_mday tm <=? month_len y (tm_mon tm)) with false by lia;
         rewrite ?andb_false_r; reflexivity).
  cbn [bind]. destruct (Z.ltb_spec (month_len y (tm_mon tm)) (tm_mday tm)).
  - replace (tm_mday tm <=? _) with false by lia. rewrite ?andb_false_r; reflexivity.
  - replace (tm_mday tm <=? _) with true by lia. replace (1 <=? tm_mday tm) with true by lia.
    reflexivity.
Qed.

Lemma is_valid_date_spec n : is_valid_date n = true <-> valid_date n.
Proof. unfold is_valid_date, valid_date, POSTGRES_EPOCH_JDATE, DATE_END_JULIAN. lia. Qed.

Lemma J_last : J last_day = 2147483493. Proof. reflexivity. Qed.
Lemma valid_last : valid_ymd last_day. Proof. cbv. intuition congruence. Qed.

Lemma in_range_J c : valid_ymd c ->
  (ymd_le first_day c /\ ymd_le c last_day <-> 0 <= J c <= 2147483493).
Proof.
  intros V. unfold ymd_le.
  pose proof (J_lt_iff first_day c valid_first V) as A.
  pose proof (J_lt_iff c last_day V valid_last) as B.
  rewrite J_first in A. rewrite J_last in B.
  split.
  - intros [H K]. assert (0 <= J c) by (destruct H as [H|<-]; [apply A in H; lia|rewrite J_first; lia]).
    assert (J c <= 2147483493) by (destruct K as [K| ->]; [apply B in K; lia|rewrite J_last; lia]).
    lia.
  - intros [H K]. split.
    + destruct (Z.eq_dec (J c) 0); [right|left; apply A; lia].
      apply J_inj; auto using valid_first.
    + destruct (Z.eq_dec (J c) 2147483493); [right|left; apply B; lia].
      apply J_inj; auto using valid_last.
Qed.

(** Year bounds from the day number. *)
Lemma J_year_bounds y m d : valid_ymd (y, m, d) -> 0 <= J (y, m, d) <= 2147483493 ->
  -4713 <= y <= 5874897 /\ (y = -4713 -> 11 <= m).
Proof.
  intros V H. pose proof (J_in_year y m d V) as I.
  assert (J (5874898, 1, 0) = 2147483493) by reflexivity.
  assert (J (-4713, 1, 0) < 0) by reflexivity.
  split; [split|].
  - destruct (Z.le_gt_cases (-4713) y); [auto|]. pose proof (J_mono_year (y + 1) (-4713)). lia.
  - destruct (Z.le_gt_cases y 5874897); [auto|]. pose proof (J_mono_year 5874898 y). lia.
  - intros ->. destruct (Z.le_gt_cases 11 m); [auto|].
    destruct V as [Hm Hd]. rewrite J_day in H. pose proof (J_mono_month_lt (-4713) m 11).
    assert (J (-4713, 11, 0) = -24) by reflexivity. lia.
Qed.

Lemma is_valid_julian_bounds y m : is_valid_julian y m = true ->
  (-4713 <= y <= 5874897 \/ y = 5874898 /\ m <= 5).
Proof.
  unfold is_valid_julian, JULIAN_MIN_YEAR, JULIAN_MAX_YEAR, JULIAN_MIN_MONTH, JULIAN_MAX_MONTH. lia.
Qed.
Lemma is_valid_julian_true y m : -4713 <= y <= 5874897 -> (y = -4713 -> 11 <= m) ->
  is_valid_julian y m = true.
Proof.
  unfold is_valid_julian, JULIAN_MIN_YEAR, JULIAN_MAX_YEAR, JULIAN_MIN_MONTH, JULIAN_MAX_MONTH. lia.
Qed.

(** The core of construction, for astronomical year [y]. *)
Lemma ymd_to_date md y m d : valid_ymd (y, m, d) ->
  (if negb (is_valid_julian y m) then Err EOverflow
   else
     let* j := date2julian md y m d in
     let* date := sub32 md j POSTGRES_EPOCH_JDATE in
     if negb (is_valid_date date) then Err EOverflow else Ok date)
  = if (0 <=? J (y, m, d)) && (J (y, m, d) <=? 2147483493) then Ok (J (y, m, d) - 2451545)
    else Err EOverflow.
Proof.
  intros V. pose proof (month_len_bounds y m) as ML.
  destruct (is_valid_julian y m) eqn:E; cbn [negb].
  - pose proof (is_valid_julian_bounds _ _ E) as B. destruct V as [Hm Hd].
    rewrite date2julian_ok by lia. cbn [bind].
    unfold POSTGRES_EPOCH_JDATE.
    assert (-100 <= J (y, m, d) <= 2147483647) as JB.
    { pose proof (J_in_year y m d (conj Hm Hd)) as I.
      assert (J (5874898, 6, 0) = 2147483644) by reflexivity.
      assert (J (-4713, 11, 0) = -24) by reflexivity.
      rewrite (J_day y m d) in *. split.
      - destruct (Z.eq_dec y (-4713)) as [->|].
        + unfold is_valid_julian, JULIAN_MIN_YEAR, JULIAN_MAX_YEAR, JULIAN_MIN_MONTH, JULIAN_MAX_MONTH in E.
          pose proof (J_mono_month (-4713) 11 m). lia.
        + pose proof (J_mono_year (-4712) y). assert (J (-4712, 1, 0) = 37) by reflexivity. lia.
      - destruct (Z.eq_dec y 5874898) as [->|].
        + pose proof (J_mono_month_lt 5874898 m 6). lia.
        + pose proof (J_mono_year (y + 1) 5874898).
          assert (J (5874898, 1, 0) = 2147483493) by reflexivity. lia. }
    ar. unfold is_valid_date, DATE_END_JULIAN, POSTGRES_EPOCH_JDATE.
    destruct (Z.leb_spec (0 - 2451545) (J (y, m, d) - 2451545)),
      (Z.ltb_spec (J (y, m, d) - 2451545) (2147483494 - 2451545)); cbn [andb negb];
    destruct (Z.leb_spec 0 (J (y, m, d))), (Z.leb_spec (J (y, m, d)) 2147483493);
      cbn [andb]; auto; lia.
  - destruct (Z.leb_spec 0 (J (y, m, d))), (Z.leb_spec (J (y, m, d)) 2147483493);
      cbn [andb]; auto.
    destruct (J_year_bounds y m d V) as [B1 B2]; [lia|].
    now rewrite is_valid_julian_true in E.
Qed.

Lemma date_try_from_ymd_eq md y m d : in_i32 y -> y <> i32_min ->
  date_try_from_ymd md y m d =
  if (negb (y =? 0)) && validb (astro y) m d
     && (0 <=? J (astro y, m, d)) && (J (astro y, m, d) <=? 2147483493)
  then Ok (J (astro y, m, d) - 2451545) else Err EOverflow.
Proof.
  intros Hy Hmin. unfold date_try_from_ymd. cbn [tm_year set_mday set_mon set_year tm_new].
  unfold astro. destruct (Z.ltb_spec y 0).
  - ar_unfold. rewrite ar32_ok by (rng; lia). cbn [bind].
    rewrite validate_date_ymd by (cbn; rng; lia).
    cbn. destruct (Z.leb_spec (- y) 0); [lia|].
    replace (negb (y =? 0)) with true by lia. cbn [andb].
    replace (1 - - y) with (y + 1) by lia.
    destruct (validb (y + 1) m d) eqn:V; [|reflexivity]. cbn.
    apply ymd_to_date. now apply validb_spec.
  - cbn [bind]. rewrite validate_date_ymd by (cbn; rng; lia).
    cbn. destruct (Z.leb_spec y 0).
    + replace (y =? 0) with true by lia. reflexivity.
    + replace (negb (y =? 0)) with true by lia. cbn [andb].
      destruct (validb y m d) eqn:V; [|reflexivity]. cbn.
      apply ymd_to_date. now apply validb_spec.
Qed.

Definition in_range (c : ymd) : Prop := valid_ymd c /\ ymd_le first_day c /\ ymd_le c last_day.

Lemma try_from_ymd_iff md y m d : in_i32 y -> y <> i32_min ->
  (exists n, date_try_from_ymd md y m d = Ok n) <->
  y <> 0 /\ valid_ymd (astro y, m, d)
  /\ ymd_le first_day (astro y, m, d) /\ ymd_le (astro y, m, d) last_day.
Proof.
  intros Hy Hmin. rewrite date_try_from_ymd_eq by auto. split.
  - intros [n E].
    destruct (negb (y =? 0)) eqn:?, (validb (astro y) m d) eqn:V,
      (0 <=? J (astro y, m, d)) eqn:?, (J (astro y, m, d) <=? 2147483493) eqn:?;
      cbn in E; try discriminate.
    apply validb_spec in V. destruct (in_range_J _ V) as [_ K]. destruct K as [K1 K2]; [lia|]. repeat (split; [solve [auto|lia]|]). auto.
  - intros (H0 & V & R). apply (in_range_J _ V) in R. apply validb_spec in V. rewrite V.
    replace (negb (y =? 0)) with true by lia.
    replace (0 <=? J (astro y, m, d)) with true by lia.
    replace (J (astro y, m, d) <=? 2147483493) with true by lia. cbn. eauto.
Qed.

Lemma try_from_ymd_inv md y m d n : in_i32 y -> y <> i32_min ->
  date_try_from_ymd md y m d = Ok n ->
  y <> 0 /\ valid_ymd (astro y, m, d) /\ n = J (astro y, m, d) - 2451545 /\ valid_date n.
Proof.
  intros Hy Hmin. rewrite date_try_from_ymd_eq by auto. intros E.
  destruct (negb (y =? 0)) eqn:?, (validb (astro y) m d) eqn:V,
    (0 <=? J (astro y, m, d)) eqn:?, (J (astro y, m, d) <=? 2147483493) eqn:?;
    cbn in E; try discriminate.
  injection E as <-. apply validb_spec in V. unfold valid_date. split; [lia|]. split; [exact V|]. lia.
Qed.

Lemma try_from_ymd_total md y m d : in_i32 y -> y <> i32_min ->
  (exists n, date_try_from_ymd md y m d = Ok n) \/ date_try_from_ymd md y m d = Err EOverflow.
Proof.
  intros. rewrite date_try_from_ymd_eq by auto. destruct (_ && _); eauto.
Qed.

Lemma astro_inj y1 y2 : y1 <> 0 -> y2 <> 0 -> astro y1 = astro y2 -> y1 = y2.
Proof. unfold astro. destruct (Z.ltb_spec y1 0), (Z.ltb_spec y2 0); lia. Qed.

(** The i32::MIN year. *)
Lemma try_from_ymd_min md m d :
  date_try_from_ymd md i32_min m d =
  match md with Debug => Fault FArith | Release => Err EOverflow end.
Proof. destruct md; reflexivity. Qed.

(** Numbering *)
Lemma try_from_ymd_number md y m d n : in_i32 y -> y <> i32_min ->
  date_try_from_ymd md y m d = Ok n -> day_number (astro y, m, d) n.
Proof.
  intros Hy Hmin E. apply try_from_ymd_inv in E as (_ & V & -> & _); auto.
  apply day_number_J; auto. lia.
Qed.

Lemma day_number_unique c n1 n2 : valid_ymd c -> day_number c n1 -> day_number c n2 -> n1 = n2.
Proof. intros V. rewrite !day_number_J by auto. lia. Qed.
Lemma day_number_inj c1 c2 n : valid_ymd c1 -> valid_ymd c2 ->
  day_number c1 n -> day_number c2 n -> c1 = c2.
Proof. intros V1 V2. rewrite !day_number_J by auto. intros. apply J_inj; auto; lia. Qed.

(** Consecutive days differ by one. *)
Lemma try_from_ymd_next md y m d y' m' d' n n' :
  in_i32 y -> y <> i32_min -> in_i32 y' -> y' <> i32_min ->
  date_try_from_ymd md y m d = Ok n -> date_try_from_ymd md y' m' d' = Ok n' ->
  next_day (astro y, m, d) = (astro y', m', d') -> n' = n + 1.
Proof.
  intros ? ? ? ? E E' N. apply try_from_ymd_inv in E as (_ & V & -> & _); auto.
  apply try_from_ymd_inv in E' as (_ & V' & -> & _); auto.
  rewrite <- N, J_next by auto. lia.
Qed.

(** Day number -> calendar *)
Lemma date_calendar md n : valid_date n ->
  exists c, julian2date md (n + POSTGRES_EPOCH_JDATE) = Ok c /\ valid_ymd c /\ day_number c n
    /\ ymd_le first_day c /\ ymd_le c last_day.
Proof.
  unfold valid_date, POSTGRES_EPOCH_JDATE. intros H.
  exists (day_of (n + 2451545)). rewrite julian2date_ok by lia.
  pose proof (day_of_valid (n + 2451545)) as V.
  pose proof (J_day_of (n + 2451545) ltac:(lia)) as E.
  repeat split; auto.
  - apply day_number_J; auto.
  - apply in_range_J; auto. lia.
  - apply in_range_J; auto. lia.
Qed.

(** The API year of an astronomical year. *)
Definition api_year (y : Z) : Z := if y <=? 0 then y - 1 else y.
Lemma astro_api y : astro (api_year y) = y.
Proof. unfold astro, api_year. destruct (Z.leb_spec y 0); [destruct (Z.ltb_spec (y - 1) 0)|destruct (Z.ltb_spec y 0)]; lia. Qed.

Lemma date_calendar_inv md n y m d : valid_date n ->
  julian2date md (n + POSTGRES_EPOCH_JDATE) = Ok (y, m, d) ->
  date_try_from_ymd md (api_year y) m d = Ok n.
Proof.
  intros H E. destruct (date_calendar md n H) as ([[y0 m0] d0] & E0 & V & N & R).
  rewrite E0 in E. injection E as -> -> ->.
  assert (0 <= J (y, m, d) <= 2147483493) as JB by (apply in_range_J; auto).
  destruct (J_year_bounds y m d V JB) as [YB _].
  rewrite day_number_J in N by auto.
  rewrite date_try_from_ymd_eq, astro_api by (unfold api_year; rng; destruct (y <=? 0); lia).
  apply validb_spec in V. rewrite V.
  replace (negb (api_year y =? 0)) with true by (unfold api_year; destruct (Z.leb_spec y 0); lia).
  replace (0 <=? J (y, m, d)) with true by lia.
  replace (J (y, m, d) <=? 2147483493) with true by lia. cbn. f_equal. lia.
Qed.

Lemma date_order md y m d y' m' d' n n' :
  in_i32 y -> y <> i32_min -> in_i32 y' -> y' <> i32_min ->
  date_try_from_ymd md y m d = Ok n -> date_try_from_ymd md y' m' d' = Ok n' ->
  (n < n' <-> ymd_lt (astro y, m, d) (astro y', m', d')).
Proof.
  intros ? ? ? ? E E'. apply try_from_ymd_inv in E as (_ & V & -> & _); auto.
  apply try_from_ymd_inv in E' as (_ & V' & -> & _); auto.
  rewrite <- J_lt_iff by auto. lia.
Qed.

(** ** Day arithmetic *)
Lemma date_finite_spec d : date_is_finite d = true <-> d <> neg_inf_date /\ d <> pos_inf_date.
Proof. unfold date_is_finite, neg_inf_date, pos_inf_date, i32_min, i32_max. lia. Qed.
Lemma valid_date_finite d : valid_date d -> date_is_finite d = true.
Proof. rewrite date_finite_spec. unfold valid_date, neg_inf_date, pos_inf_date. lia. Qed.
Lemma valid_date_i32 d : valid_date d -> in_i32 d.
Proof. unfold valid_date. rng. lia. Qed.

Lemma add_days_spec d n : d <> neg_inf_date -> d <> pos_inf_date ->
  (valid_date (d + n) -> date_add_days d n = Ok (d + n)) /\
  (~ valid_date (d + n) -> date_add_days d n = Err EOverflow).
Proof.
  intros H1 H2. unfold date_add_days.
  assert (date_is_finite d = true) as -> by now apply date_finite_spec. cbn [negb]. split.
  - intros V. unfold chk32. rewrite in32b_true by now apply valid_date_i32. cbn.
    apply is_valid_date_spec in V. now rewrite V.
  - intros V. unfold chk32. destruct (in32b (d + n)); cbn; [|reflexivity].
    rewrite <- is_valid_date_spec in V. now destruct (is_valid_date (d + n)).
Qed.

Lemma sub_days_spec d n : d <> neg_inf_date -> d <> pos_inf_date ->
  (valid_date (d - n) -> date_sub_days d n = Ok (d - n)) /\
  (~ valid_date (d - n) -> exists e, date_sub_days d n = Err e).
Proof.
  intros H1 H2. unfold date_sub_days.
  assert (date_is_finite d = true) as -> by now apply date_finite_spec. cbn [negb]. split.
  - intros V. unfold chk32. rewrite in32b_true by now apply valid_date_i32.
    apply is_valid_date_spec in V. now rewrite V.
  - intros V. unfold chk32. destruct (in32b (d - n)); [|eauto].
    rewrite <- is_valid_date_spec in V. destruct (is_valid_date (d - n)); [tauto|eauto].
Qed.

Lemma add_days_inv d n r : d <> neg_inf_date -> d <> pos_inf_date ->
  date_add_days d n = Ok r -> r = d + n /\ valid_date r.
Proof.
  intros H1 H2 E. destruct (add_days_spec d n H1 H2) as [A B].
  destruct (is_valid_date (d + n)) eqn:V.
  - apply is_valid_date_spec in V. rewrite A in E by auto. injection E as <-. auto.
  - rewrite B in E; [discriminate|]. rewrite <- is_valid_date_spec. congruence.
Qed.
Lemma sub_days_inv d n r : d <> neg_inf_date -> d <> pos_inf_date ->
  date_sub_days d n = Ok r -> r = d - n /\ valid_date r.
Proof.
  intros H1 H2 E. destruct (sub_days_spec d n H1 H2) as [A B].
  destruct (is_valid_date (d - n)) eqn:V.
  - apply is_valid_date_spec in V. rewrite A in E by auto. injection E as <-. auto.
  - destruct B as [e B]; [rewrite <- is_valid_date_spec; congruence|]. congruence.
Qed.

Lemma valid_not_inf d : valid_date d -> d <> neg_inf_date /\ d <> pos_inf_date.
Proof. unfold valid_date, neg_inf_date, pos_inf_date. lia. Qed.

Lemma add_sub_days d n r : valid_date d -> date_add_days d n = Ok r -> date_sub_days r n = Ok d.
Proof.
  intros V E. destruct (valid_not_inf d V). apply add_days_inv in E as [-> V']; auto.
  destruct (valid_not_inf _ V'). destruct (sub_days_spec (d + n) n) as [A _]; auto.
  replace (d + n - n) with d in A by lia. auto.
Qed.
Lemma sub_add_days d n r : valid_date d -> date_sub_days d n = Ok r -> date_add_days r n = Ok d.
Proof.
  intros V E. destruct (valid_not_inf d V). apply sub_days_inv in E as [-> V']; auto.
  destruct (valid_not_inf _ V'). destruct (add_days_spec (d - n) n) as [A _]; auto.
  replace (d - n + n) with d in A by lia. auto.
Qed.

Lemma add_days_walk md y m d a k b : in_i32 y -> y <> i32_min ->
  date_try_from_ymd md y m d = Ok a -> date_add_days a (Z.of_nat k) = Ok b ->
  day_number (walk k (astro y, m, d)) b.
Proof.
  intros Hy Hm E A. apply try_from_ymd_inv in E as (_ & V & -> & VD); auto.
  destruct (valid_not_inf _ VD). apply add_days_inv in A as [-> _]; auto.
  apply day_number_J; [now apply walk_valid|]. rewrite J_walk by auto. lia.
Qed.
Lemma sub_days_walk md y m d a k b y' m' d' : in_i32 y -> y <> i32_min ->
  date_try_from_ymd md y m d = Ok a -> date_sub_days a (Z.of_nat k) = Ok b ->
  valid_ymd (y', m', d') -> day_number (y', m', d') b ->
  walk k (y', m', d') = (astro y, m, d).
Proof.
  intros Hy Hm E A V' N. apply try_from_ymd_inv in E as (_ & V & -> & VD); auto.
  destruct (valid_not_inf _ VD). apply sub_days_inv in A as [-> _]; auto.
  apply day_number_J in N; auto. apply J_inj; auto using walk_valid.
  rewrite J_walk by auto. lia.
Qed.

Lemma sub_date_ok md a b : valid_date a -> valid_date b -> date_sub_date md a b = Ok (a - b).
Proof.
  intros A B. unfold date_sub_date. rewrite !valid_date_finite by auto. cbn.
  unfold valid_date in *. ar. reflexivity.
Qed.
Lemma sub_date_inf md a b :
  a = neg_inf_date \/ a = pos_inf_date \/ b = neg_inf_date \/ b = pos_inf_date ->
  date_sub_date md a b = Err EInvalid.
Proof.
  intros H. unfold date_sub_date, date_is_finite, i32_min, i32_max, neg_inf_date, pos_inf_date in *.
  destruct (Z.eqb_spec a (-2147483648)), (Z.eqb_spec a 2147483647),
    (Z.eqb_spec b (-2147483648)), (Z.eqb_spec b 2147483647); try reflexivity; lia.
Qed.

(** ** Date -> Timestamp *)
Lemma ts_of_date_ok md d : ts_date d -> timestamp_of_date md d = Ok (d * usecs_day).
Proof.
  intros H. unfold timestamp_of_date, ts_date, usecs_day, i32_min, i32_max,
    TIMESTAMP_END_JULIAN, POSTGRES_EPOCH_JDATE, USECS_PER_DAY in *.
  replace (d =? -2147483648) with false by lia. replace (d =? 2147483647) with false by lia.
  ar. replace (109203528 - 2451545 <=? d) with false by lia. ar. reflexivity.
Qed.
Lemma ts_of_date_err md d : valid_date d -> ~ ts_date d -> timestamp_of_date md d = Err EOverflow.
Proof.
  intros V H. unfold timestamp_of_date, valid_date, ts_date, usecs_day, i32_min, i32_max,
    TIMESTAMP_END_JULIAN, POSTGRES_EPOCH_JDATE, USECS_PER_DAY in *.
  replace (d =? -2147483648) with false by lia. replace (d =? 2147483647) with false by lia.
  ar. replace (109203528 - 2451545 <=? d) with true by lia. reflexivity.
Qed.
Lemma ts_of_date_inf md :
  timestamp_of_date md neg_inf_date = Ok neg_inf_ts /\
  timestamp_of_date md pos_inf_date = Ok pos_inf_ts.
Proof. split; reflexivity. Qed.
Lemma ts_date_valid d : ts_date d -> valid_ts (d * usecs_day).
Proof. unfold ts_date, valid_ts, usecs_day. lia. Qed.
