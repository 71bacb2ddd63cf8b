(** ISO weeks, weekdays, day of year, week truncation. *)
From Verif Require Import Model.DateTime Spec.Calendar Spec.Ranges Spec.Clock Spec.Units
  Proofs.Arith Proofs.Cal Proofs.DateP Proofs.TsP Proofs.AddP Proofs.TruncP.
From Coq Require Import Lia.

(** Julian day of the Monday starting ISO year [y]. *)
Definition MJ (y : Z) : Z := J (y, 1, 4) - J (y, 1, 4) mod 7.

Lemma week_day_ok md j : -2000000000 <= j <= 2000000000 -> julian_to_week_day md j = Ok ((j + 1) mod 7).
Proof.
  intros H. unfold julian_to_week_day. ar_unfold. rewrite ar32_ok by (rng; lia). cbn [bind].
  destruct (Z.ltb_spec (Z.rem (j + 1) 7) 0).
  - rewrite ar32_ok by (rng; lia). f_equal. lia.
  - f_equal. lia.
Qed.

Lemma J_range y m d : -4720 <= y <= 294280 -> 1 <= m <= 12 -> 0 <= d <= 31 -> -10000 <= J (y, m, d) <= 110000000.
Proof. intros. unfold J, shift. destruct (Z.ltb_spec 2 m); lia. Qed.

Lemma day4_ok md y : -4720 <= y <= 294280 ->
  day4_day0 md y = Ok (J (y, 1, 4), J (y, 1, 4) mod 7).
Proof.
  intros H. unfold day4_day0. rewrite date2julian_ok by lia. cbn [bind].
  pose proof (J_range y 1 4 H). ar_unfold. rewrite ar32_ok by (rng; lia). cbn [bind].
  rewrite week_day_ok by lia. cbn [bind]. do 3 f_equal. lia.
Qed.

Lemma MJ_bounds y : J (y, 1, 1) - 3 <= MJ y <= J (y, 1, 1) + 3 /\ MJ y mod 7 = 0.
Proof. unfold MJ. rewrite (J_day y 1 4), (J_day y 1 1). set (a := J (y, 1, 0)). clearbody a. lia. Qed.
Lemma MJ_step y : MJ (y + 1) = MJ y + 364 \/ MJ (y + 1) = MJ y + 371.
Proof.
  pose proof (MJ_bounds y) as [B M]. pose proof (MJ_bounds (y + 1)) as [B' M'].
  pose proof (J_year_step y) as S. rewrite (J_day y 1 1), (J_day (y + 1) 1 1) in *.
  set (a := MJ y) in *. set (b := MJ (y + 1)) in *. set (j := J (y, 1, 0)) in *. set (j' := J (y + 1, 1, 0)) in *.
  clearbody a b j j'. destruct (leap y); lia.
Qed.
Lemma MJ_mono y y' : y < y' -> MJ y < MJ y'.
Proof.
  intros H. replace y' with (y + 1 + (y' - y - 1)) by lia.
  assert (0 <= y' - y - 1) as K by lia. generalize dependent (y' - y - 1). intros k K.
  revert k K. apply natlike_ind.
  - rewrite Z.add_0_r. pose proof (MJ_step y). lia.
  - intros k K IH. replace (y + 1 + Z.succ k) with (y + 1 + k + 1) by lia.
    pose proof (MJ_step (y + 1 + k)). lia.
Qed.

(** The ISO year of Julian day [j], when [j] is a day of calendar year [y]. *)
Definition iso_y (j y : Z) : Z := if j <? MJ y then y - 1 else if MJ (y + 1) <=? j then y + 1 else y.
Lemma iso_y_bounds j y m d : valid_ymd (y, m, d) -> j = J (y, m, d) ->
  MJ (iso_y j y) <= j < MJ (iso_y j y + 1).
Proof.
  intros V ->. pose proof (J_in_year y m d V) as I. unfold iso_y.
  pose proof (MJ_bounds y) as [B _]. pose proof (MJ_bounds (y + 1)) as [B' _].
  rewrite (J_day y 1 1), (J_day (y + 1) 1 1) in *.
  pose proof (MJ_step y) as S. pose proof (MJ_step (y - 1)) as S1. pose proof (MJ_step (y + 1)) as S2.
  replace (y - 1 + 1) with y in * by lia.
  destruct (Z.ltb_spec (J (y, m, d)) (MJ y)); [replace (y - 1 + 1) with y by lia; lia|].
  destruct (Z.leb_spec (MJ (y + 1)) (J (y, m, d))); lia.
Qed.

Lemma iso_week_ok md y m d : -4713 <= y <= 294276 -> valid_ymd (y, m, d) ->
  date_to_iso_week md y m d = Ok ((J (y, m, d) - MJ (iso_y (J (y, m, d)) y)) / 7 + 1) /\
  date_to_iso_year md y m d = Ok (iso_y (J (y, m, d)) y).
Proof.
  intros Y V. pose proof (iso_y_bounds _ y m d V eq_refl) as IB.
  pose proof (J_in_year y m d V) as I. destruct V as [Vm Vd]. pose proof (month_len_bounds y m Vm) as ML.
  pose proof (J_range y m d ltac:(lia) Vm ltac:(lia)) as JR.
  pose proof (J_range y 1 4 ltac:(lia) ltac:(lia) ltac:(lia)) as J4.
  pose proof (J_range (y - 1) 1 4 ltac:(lia) ltac:(lia) ltac:(lia)) as J4'.
  pose proof (J_range (y + 1) 1 4 ltac:(lia) ltac:(lia) ltac:(lia)) as J4''.
  pose proof (MJ_bounds y) as [B _]. pose proof (MJ_bounds (y + 1)) as [B' _]. pose proof (MJ_bounds (y - 1)) as [B'' _].
  rewrite (J_day y 1 1), (J_day (y + 1) 1 1), (J_day (y - 1) 1 1) in *.
  pose proof (MJ_step y) as S. pose proof (MJ_step (y - 1)) as S1.
  replace (y - 1 + 1) with y in * by lia.
  unfold date_to_iso_week, date_to_iso_year. rewrite !date2julian_ok by lia. cbn [bind].
  rewrite !day4_ok by lia. cbn [bind]. ar_unfold.
  assert (forall y, J (y, 1, 4) - J (y, 1, 4) mod 7 = MJ y) as F by reflexivity.
  assert (forall y, -10010 <= J (y, 1, 4) <= 110000000 -> in_i32 (J (y, 1, 4) - J (y, 1, 4) mod 7)) as FI
    by (intros; rng; lia).
  rewrite !(ar32_ok md (J (y, 1, 4) - _)) by (apply FI; lia). cbn [bind]. rewrite F.
  unfold iso_y in *. set (j := J (y, m, d)) in *. clearbody j.
  destruct (Z.ltb_spec j (MJ y)) as [L|L].
  - rewrite !(ar32_ok md (y - 1)) by (rng; lia). cbn [bind]. rewrite !day4_ok by lia. cbn [bind].
    rewrite !(ar32_ok md (J (y - 1, 1, 4) - _)) by (apply FI; lia). cbn [bind]. rewrite !F.
    rewrite !(ar32_ok md (j - MJ (y - 1))) by (rng; lia). cbn [bind].
    rewrite !Z.quot_div_nonneg by lia.
    assert (52 <= (j - MJ (y - 1)) / 7 + 1 <= 53) by lia.
    rewrite !(ar32_ok md ((j - MJ (y - 1)) / 7 + 1)) by (rng; lia). cbn [bind].
    destruct (Z.leb_spec 52 ((j - MJ (y - 1)) / 7 + 1)); [|lia].
    rewrite !(ar32_ok md (y + 1)) by (rng; lia). rewrite !(ar32_ok md (y - 1 + 1)) by (rng; lia). cbn [bind].
    replace (y - 1 + 1) with y by lia. rewrite !day4_ok by lia. cbn [bind].
    rewrite !(ar32_ok md (J (y, 1, 4) - _)) by (apply FI; lia).
    rewrite !(ar32_ok md (J (y + 1, 1, 4) - _)) by (apply FI; lia). cbn [bind]. rewrite !F.
    destruct (Z.leb_spec (MJ (y + 1)) j); [lia|]. destruct (Z.leb_spec (MJ y) j); [lia|].
    split; reflexivity.
  - cbn [bind]. rewrite !(ar32_ok md (J (y, 1, 4) - _)) by (apply FI; lia). cbn [bind]. rewrite !F.
    rewrite !(ar32_ok md (j - MJ y)) by (rng; lia). cbn [bind].
    rewrite !Z.quot_div_nonneg by lia.
    assert (1 <= (j - MJ y) / 7 + 1 <= 54) by (destruct (leap y); lia).
    rewrite !(ar32_ok md ((j - MJ y) / 7 + 1)) by (rng; lia). cbn [bind].
    destruct (Z.leb_spec 52 ((j - MJ y) / 7 + 1)).
    + rewrite !(ar32_ok md (y + 1)) by (rng; lia). cbn [bind].
      rewrite !day4_ok by lia. cbn [bind].
      rewrite !(ar32_ok md (J (y + 1, 1, 4) - _)) by (apply FI; lia). cbn [bind]. rewrite !F.
      destruct (Z.leb_spec (MJ (y + 1)) j).
      * rewrite !(ar32_ok md (j - MJ (y + 1))) by (rng; lia). cbn [bind].
        rewrite !Z.quot_div_nonneg by lia. split; [apply ar32_ok; rng; lia|reflexivity].
      * split; reflexivity.
    + destruct (Z.leb_spec (MJ (y + 1)) j); [lia|]. split; reflexivity.
Qed.

(** The specification of ISO weeks in Julian days. *)
Lemma monday_J n k : monday n k <-> k = n + 2451545 - (n + 2451545) mod 7 - 2451545.
Proof. unfold monday, weekday. lia. Qed.

Lemma iso_week_J n iy w : 
  iso_week n iy w <-> MJ iy <= n + 2451545 < MJ (iy + 1) /\ w = (n + 2451545 - MJ iy) / 7 + 1.
Proof.
  unfold iso_week. set (j := n + 2451545).
  pose proof (MJ_bounds iy) as [B M]. pose proof (MJ_bounds (iy + 1)) as [B' M'].
  rewrite (J_day iy 1 1), (J_day (iy + 1) 1 1) in *.
  pose proof (month_len_bounds iy 1 ltac:(lia)).
  assert (valid_ymd (iy, 1, 4)) as V4 by (split; cbn; lia).
  split.
  - intros (k & Hk & (m & d & V & N) & (n4 & k4 & N4 & K4 & E)).
    apply monday_J in Hk. apply monday_J in K4. apply day_number_J in N; auto. apply day_number_J in N4; auto.
    pose proof (J_in_year _ _ _ V) as I. fold j in Hk. rewrite <- N4 in K4. fold (MJ iy) in K4.
    set (a := MJ iy) in *. set (b := MJ (iy + 1)) in *. set (p := J (iy, 1, 0)) in *. set (q := J (iy + 1, 1, 0)) in *.
    clearbody a b p q. rewrite N in I. clear N N4 V V4. subst k k4. lia.
  - intros (L & ->). exists (j - j mod 7 - 2451545). split; [apply monday_J; reflexivity|]. split.
    + set (th := j - j mod 7 - 2451545 + 3 + 2451545).
      assert (J (iy, 1, 0) < th <= J (iy + 1, 1, 0)) as T.
      { unfold th. set (a := MJ iy) in *. set (b := MJ (iy + 1)) in *. set (p := J (iy, 1, 0)) in *. set (q := J (iy + 1, 1, 0)) in *.
        clearbody a b p q j. clear V4. lia. }
      (* the calendar day with Julian number th, found by walking from 1 January *)
      assert (valid_ymd (iy, 1, 1)) as V1 by (split; cbn; lia).
      set (c := walk (Z.to_nat (th - J (iy, 1, 1))) (iy, 1, 1)).
      assert (valid_ymd c) as Vc by (apply walk_valid; auto).
      assert (J c = th) as Jc by (apply J_surj; auto; rewrite (J_day iy 1 1); lia).
      destruct c as [[y m] d] eqn:Ec. pose proof (J_in_year _ _ _ Vc) as I. rewrite Jc in I.
      assert (y = iy).
      { destruct (Z.lt_trichotomy y iy) as [Hl|[->|Hl]]; [|reflexivity|].
        - pose proof (J_mono_year (y + 1) iy ltac:(lia)). lia.
        - pose proof (J_mono_year (iy + 1) y ltac:(lia)). lia. }
      subst y. exists m, d. split; [exact Vc|]. apply day_number_J; auto.
    + exists (J (iy, 1, 4) - 2451545), (MJ iy - 2451545). split; [apply day_number_J; auto; lia|]. split.
      * apply monday_J. unfold MJ. replace (J (iy, 1, 4) - 2451545 + 2451545) with (J (iy, 1, 4)) by lia. reflexivity.
      * set (a := MJ iy) in *. clearbody a j. clear V4. lia.
Qed.

Lemma iso_week_unique n iy w iy' w' : iso_week n iy w -> iso_week n iy' w' -> iy = iy' /\ w = w'.
Proof.
  rewrite !iso_week_J. intros [A ->] [B ->].
  assert (iy = iy') as ->; [|auto].
  destruct (Z.lt_trichotomy iy iy') as [H|[H|H]]; auto.
  - destruct (Z.eq_dec (iy + 1) iy') as [<-|]; [lia|]. pose proof (MJ_mono (iy + 1) iy' ltac:(lia)). lia.
  - destruct (Z.eq_dec (iy' + 1) iy) as [<-|]; [lia|]. pose proof (MJ_mono (iy' + 1) iy ltac:(lia)). lia.
Qed.

(** What truncation to the week computes: the Monday with the week's number, in the calendar
    year, or the previous one for early January and for late December. *)
Lemma truncate_week_gen md t y m d h mi s us n : valid_ts t -> reading (y, m, d) h mi s us t ->
  day_number (y, m, d) n ->
  let j := n + 2451545 in
  let w := (j - MJ (iso_y j y)) / 7 + 1 in
  let y' := if ((52 <=? w) && (m =? 1)) || ((w <=? 1) && (m =? 12)) then y - 1 else y in
  let r := MJ y' + 7 * (w - 1) in
  0 <= r -> timestamp_truncate md t FTUnit Week = Ok ((r - 2451545) * usecs_day).
Proof.
  intros VT R N j w y' r Hr. unfold timestamp_truncate.
  destruct (ts2t_reading md t VT) as (c1 & h1 & mi1 & s1 & us1 & E1 & R1).
  destruct (reading_unique _ _ _ _ _ _ _ _ _ _ _ R R1) as (<- & <- & <- & <- & <-).
  rewrite E1. cbn [bind]. clear E1 R1.
  pose proof (reading_year_bounds _ _ _ _ _ _ R VT) as (JB & Y & _ & Hm & Hd).
  destruct R as (V & _ & _). apply day_number_J in N; auto. fold j in N.
  unfold truncate_timestamp_week. tmcbv.
  destruct (iso_week_ok md y m d Y V) as [W _]. rewrite N in W. fold w in W. rewrite W. cbn [bind].
  pose proof (iso_y_bounds j y m d V (eq_sym N)) as IB.
  pose proof (MJ_step (iso_y j y)) as ST.
  assert (1 <= w <= 53) as WB by (unfold w; lia).
  set (tm0 := mkTm s mi h d m y 0 0 (-1)).
  set (x1 := if (52 <=? w) && (m =? 1)
             then let* y := sub32 md y 1 in Ok (mkTm s mi h d m y 0 0 (-1)) else Ok tm0).
  assert (x1 = Ok (mkTm s mi h d m (if (52 <=? w) && (m =? 1) then y - 1 else y) 0 0 (-1))) as ->.
  { unfold x1. destruct ((52 <=? w) && (m =? 1)); [|reflexivity]. ar_unfold. rewrite ar32_ok by (rng; lia). reflexivity. }
  cbn [bind]. tmcbv. unfold MONTHS_PER_YEAR.
  match goal with |- (let* y := (let* tm := ?x in _) in _) = _ => set (x2 := x) end.
  assert (x2 = Ok (mkTm s mi h d m y' 0 0 (-1))) as ->.
  { unfold x2, y', tm0. destruct (m =? 1) eqn:E1, (m =? 12) eqn:E12; try lia;
      destruct (52 <=? w), (w <=? 1); cbn [andb orb]; try reflexivity;
      ar_unfold; rewrite ar32_ok by (rng; lia); reflexivity. }
  cbn [bind]. unfold iso_week_to_date, iso_week_to_julian. tmcbv.
  assert (-4714 <= y' <= 294276) as Y' by (unfold y'; destruct (_ || _); lia).
  rewrite day4_ok by lia. cbn [bind].
  pose proof (J_range y' 1 4 ltac:(lia) ltac:(lia) ltac:(lia)) as J4.
  ar_unfold. rewrite ar32_ok by (rng; lia). cbn [bind]. rewrite ar32_ok by (rng; lia). cbn [bind].
  rewrite ar32_ok by (rng; lia). cbn [bind]. fold (MJ y').
  assert (J (y', 1, 4) - 7 < MJ y' <= J (y', 1, 4)) as MB by (unfold MJ; lia).
  replace ((w - 1) * 7 + MJ y') with r by (unfold r; lia).
  rewrite ar32_ok by (rng; unfold r in *; lia). cbn [bind].
  rewrite julian2date_ok by (unfold r in *; lia). cbn [bind].
  pose proof (day_of_valid r) as Vr. pose proof (J_day_of r Hr) as Jr.
  destruct (day_of r) as [[yr mr] dr]. tmcbv. cbn [bind fst snd].
  assert (reading (yr, mr, dr) 0 0 0 0 (instant (yr, mr, dr) 0)) as Rr.
  { apply (instant_reading (yr, mr, dr) 0 0 0 0); auto. unfold clock_ok. lia. }
  unfold instant in Rr. rewrite Jr in Rr. rewrite Z.add_0_r in Rr.
  assert (r <= j) as Rj.
  { assert (MJ (iso_y j y) <= j) by apply IB. unfold r. assert (MJ y' <= MJ (iso_y j y)) as Q.
    2:{ unfold w. set (a := MJ y') in *. set (b := MJ (iso_y j y)) in *. clearbody a b. clear - Q H. lia. }
    assert (y' <= iso_y j y) as Q.
    { pose proof (MJ_bounds y) as [B _]. pose proof (MJ_bounds (y + 1)) as [B' _]. 
      pose proof (MJ_step (y - 1)) as S1. replace (y - 1 + 1) with y in S1 by lia.
      pose proof (J_in_year y m d V) as I. rewrite (J_day y 1 1), (J_day (y + 1) 1 1) in *. rewrite N in I.
      unfold y'. unfold iso_y in *.
      destruct (Z.ltb_spec j (MJ y)) as [L|L]; [|destruct (Z.leb_spec (MJ (y + 1)) j); destruct (_ || _); lia].
      assert (52 <= w) by (unfold w; lia).
      assert (m = 1) as ->.
      { destruct (Z.eq_dec m 1); auto. exfalso.
        pose proof (J_mono_month_lt y 1 m ltac:(lia) ltac:(lia) ltac:(lia)) as Q. rewrite (J_day y m d) in N. cbn in Q. lia. }
      destruct (Z.leb_spec 52 w); [|lia]. cbn. lia. }
    destruct (Z.eq_dec y' (iso_y j y)) as [->|]; [lia|]. pose proof (MJ_mono y' (iso_y j y)). lia. }
  apply (to_ts_reading md (mkTm 0 0 0 dr mr yr 0 0 (-1)) 0); [exact Rr|].
  unfold valid_ts, usecs_day. unfold j in *. lia.
Qed.

(** December days belonging to ISO week 1. *)
Lemma truncate_week_ok md t y m d h mi s us n k : valid_ts t -> reading (y, m, d) h mi s us t ->
  day_number (y, m, d) n -> monday n k ->
  ~ (m = 12 /\ exists w, iso_week n (y + 1) w) ->
  timestamp_truncate md t FTUnit Week = Ok (k * usecs_day).
Proof.
  intros VT R N K G. pose proof (truncate_week_gen md t _ _ _ _ _ _ _ n VT R N) as W. cbv zeta in W.
  pose proof (reading_year_bounds _ _ _ _ _ _ R VT) as (JB & Y & _ & Hm & Hd).
  destruct R as (V & _ & _). apply day_number_J in N; auto. rewrite monday_J in K.
  set (j := n + 2451545) in *. set (w := (j - MJ (iso_y j y)) / 7 + 1) in *.
  pose proof (iso_y_bounds j y m d V (eq_sym N)) as IB.
  set (y' := if ((52 <=? w) && (m =? 1)) || ((w <=? 1) && (m =? 12)) then y - 1 else y) in *.
  assert (y' = iso_y j y) as Ey.
  { pose proof (MJ_bounds y) as [B _]. pose proof (MJ_bounds (y + 1)) as [B' _].
    pose proof (MJ_step y) as S. pose proof (MJ_step (y - 1)) as S1. replace (y - 1 + 1) with y in S1 by lia.
    pose proof (J_in_year y m d V) as I. rewrite (J_day y 1 1), (J_day (y + 1) 1 1) in *. rewrite N in I.
    assert (m = 12 \/ m <> 12 /\ j <= J (y, 12, 0)) as M12.
    { destruct (Z.eq_dec m 12); [auto|right; split; [auto|]]. destruct V as [Vm Vd].
      pose proof (J_mono_month_lt y m 12 ltac:(lia) ltac:(lia) ltac:(lia)) as Q. rewrite (J_day y m d) in N. lia. }
    assert (m = 1 \/ m <> 1 /\ J (y, 1, 0) + 31 < j) as M1.
    { destruct (Z.eq_dec m 1); [auto|right; split; [auto|]]. destruct V as [Vm Vd].
      pose proof (J_mono_month_lt y 1 m ltac:(lia) ltac:(lia) ltac:(lia)) as Q. cbn in Q. rewrite (J_day y m d) in N. lia. }
    pose proof (J_year y) as JY.
    assert (~ (m = 12 /\ MJ (y + 1) <= j)) as G'.
    { intros [-> L]. apply G. split; [reflexivity|]. eexists. apply iso_week_J. fold j. split; [|reflexivity].
      pose proof (MJ_step (y + 1)). lia. }
    unfold y', w, iso_y in *. clear G W K JB w y'.
    set (p := J (y, 1, 0)) in *. set (q := J (y + 1, 1, 0)) in *. set (p12 := J (y, 12, 0)) in *.
    clearbody j p q p12.
    destruct (Z.ltb_spec j (MJ y)) as [L|L].
    - assert (m = 1) as -> by lia. destruct (Z.leb_spec 52 ((j - MJ (y - 1)) / 7 + 1)); [|lia]. cbn. reflexivity.
    - destruct (Z.leb_spec (MJ (y + 1)) j) as [L'|L']; [lia|].
      destruct (Z.eqb_spec m 1), (Z.eqb_spec m 12); try lia.
      + destruct (Z.leb_spec 52 ((j - MJ y) / 7 + 1)); [lia|]. cbn. rewrite andb_false_r. reflexivity.
      + rewrite andb_false_r. cbn. destruct (Z.leb_spec ((j - MJ y) / 7 + 1) 1); [lia|]. reflexivity.
      + rewrite !andb_false_r. reflexivity. }
  rewrite Ey in *. rewrite W.
  - f_equal. f_equal. subst k. fold j. unfold w. pose proof (MJ_bounds (iso_y j y)) as [_ M].
    set (a := MJ (iso_y j y)) in *. clearbody a j. clear - IB M. lia.
  - unfold w. pose proof (MJ_bounds (iso_y j y)) as [_ M]. set (a := MJ (iso_y j y)) in *. rewrite N in JB. clearbody a j. clear - IB M JB. lia.
Qed.

(** A December day in week 1 of the next ISO year: the result is the start of the previous ISO
    year's first week instead. *)
Lemma truncate_week_december md t y d h mi s us n w : valid_ts t -> reading (y, 12, d) h mi s us t ->
  day_number (y, 12, d) n -> iso_week n (y + 1) w -> -4713 < y ->
  exists k, monday k k /\ iso_week k (y - 1) 1 /\ k + 700 < n /\
    timestamp_truncate md t FTUnit Week = Ok (k * usecs_day).
Proof.
  intros VT R N IW LY. pose proof (truncate_week_gen md t _ _ _ _ _ _ _ n VT R N) as W. cbv zeta in W.
  pose proof (reading_year_bounds _ _ _ _ _ _ R VT) as (JB & Y & _ & Hm & Hd).
  destruct R as (V & _ & _). apply day_number_J in N; auto. apply iso_week_J in IW. destruct IW as [I1 _].
  set (j := n + 2451545) in *.
  assert (iso_y j y = y + 1) as E.
  { unfold iso_y. destruct (Z.ltb_spec j (MJ y)).
    - pose proof (MJ_mono y (y + 1) ltac:(lia)). lia.
    - destruct (Z.leb_spec (MJ (y + 1)) j); lia. }
  rewrite E in W.
  pose proof (J_in_year y 12 d V) as I. pose proof (MJ_bounds (y + 1)) as [B M].
  rewrite (J_day (y + 1) 1 1) in B. rewrite N in I.
  assert ((j - MJ (y + 1)) / 7 + 1 = 1) as W1 by lia.
  rewrite W1 in W. change ((52 <=? 1) && (12 =? 1) || (1 <=? 1) && (12 =? 12)) with true in W. cbv iota in W.
  assert (0 <= MJ (y - 1)) as P.
  { destruct (Z.eq_dec y (-4712)) as [->|].
    - exfalso. change (MJ (-4712 + 1)) with 406 in I1. change (J (-4712 + 1, 1, 0)) with 403 in I. lia.
    - destruct (Z.eq_dec (y - 1) (-4712)) as [->|]; [cbv; congruence|].
      pose proof (MJ_mono (-4712) (y - 1) ltac:(lia)). change (MJ (-4712)) with 35 in *. lia. }
  exists (MJ (y - 1) - 2451545). pose proof (MJ_bounds (y - 1)) as [_ M'].
  pose proof (MJ_step (y - 1)) as S. pose proof (MJ_step y) as S'. replace (y - 1 + 1) with y in * by lia.
  split; [|split; [|split]].
  - apply monday_J. lia.
  - apply iso_week_J. replace (y - 1 + 1) with y by lia. lia.
  - lia.
  - rewrite W by lia. f_equal. lia.
Qed.

(** *** Parts *)
Lemma parts_week md t y m d h mi s us n : valid_ts t -> reading (y, m, d) h mi s us t ->
  day_number (y, m, d) n ->
  (forall iy w, iso_week n iy w ->
     timestamp_date_part md t FTUnit IsoYear = Ok (f64_of_Z iy) /\
     timestamp_date_part md t FTUnit Week = Ok (f64_of_Z w)) /\
  timestamp_date_part md t FTUnit Dow = Ok (f64_of_Z (weekday n)) /\
  timestamp_date_part md t FTUnit IsoDow = Ok (f64_of_Z (if weekday n =? 0 then 7 else weekday n)) /\
  (forall n0, day_number (y, 1, 1) n0 -> timestamp_date_part md t FTUnit Doy = Ok (f64_of_Z (n - n0 + 1))).
Proof.
  intros VT R N.
  pose proof (reading_year_bounds _ _ _ _ _ _ R VT) as (JB & Y & _ & Hm & Hd).
  destruct (ts2t_reading md t VT) as (c1 & h1 & mi1 & s1 & us1 & E1 & R1).
  destruct (reading_unique _ _ _ _ _ _ _ _ _ _ _ R R1) as (<- & <- & <- & <- & <-).
  destruct R as (V & _ & _). apply day_number_J in N; auto.
  unfold timestamp_date_part. rewrite (valid_ts_finite t VT). cbn [negb]. rewrite E1. cbn [bind].
  cbn [fst snd]. tmcbv.
  rewrite date2julian_ok by lia. cbn [bind]. rewrite week_day_ok by lia. cbn [bind].
  assert ((J (y, m, d) + 1) mod 7 = weekday n) as WD by (rewrite N; unfold weekday; clear; lia).
  rewrite WD.
  split; [|split; [|split]].
  - intros iy w IW. apply iso_week_J in IW. destruct IW as [I1 ->]. rewrite <- N in *.
    destruct (iso_week_ok md y m d Y V) as [Ew Ey]. rewrite Ew, Ey.
    pose proof (iso_y_bounds _ y m d V eq_refl) as IB. cbn [bind].
    assert (iso_y (J (y, m, d)) y = iy) as ->; [|auto].
    set (a := iso_y (J (y, m, d)) y) in *. clearbody a.
    destruct (Z.lt_trichotomy iy a) as [H|[H|H]]; [|auto|].
    + destruct (Z.eq_dec (iy + 1) a) as [E|]; [rewrite E in *; lia|].
      pose proof (MJ_mono (iy + 1) a ltac:(lia)). lia.
    + destruct (Z.eq_dec (a + 1) iy) as [E|]; [rewrite E in *; lia|].
      pose proof (MJ_mono (a + 1) iy ltac:(lia)). lia.
  - reflexivity.
  - destruct (weekday n =? 0); reflexivity.
  - intros n0 N0. apply day_number_J in N0; [|split; cbn; lia].
    rewrite date2julian_ok by lia. cbn [bind]. pose proof (J_in_year y m d V) as I.
    rewrite (J_day y 1 1) in N0. pose proof (J_year_step y) as YS.
    ar_unfold. assert (J (y, m, d) - J (y, 1, 1) = n - n0) as -> by (rewrite (J_day y 1 1); lia).
    destruct (leap y); rewrite ar32_ok by (rng; lia); cbn [bind]; rewrite ar32_ok by (rng; lia); reflexivity.
Qed.

(** Existence of the ISO week of every day. *)
Lemma iso_week_exists n y m d : valid_ymd (y, m, d) -> day_number (y, m, d) n ->
  exists iy w, iso_week n iy w /\ y - 1 <= iy <= y + 1 /\ 1 <= w <= 53.
Proof.
  intros V N. apply day_number_J in N; auto. pose proof (iso_y_bounds _ y m d V eq_refl) as IB.
  exists (iso_y (J (y, m, d)) y), ((J (y, m, d) - MJ (iso_y (J (y, m, d)) y)) / 7 + 1).
  split; [|split].
  - apply iso_week_J. rewrite <- N. auto.
  - unfold iso_y. destruct (_ <? _); [lia|]. destruct (_ <=? _); lia.
  - pose proof (MJ_step (iso_y (J (y, m, d)) y)). lia.
Qed.

(** Year numbering *)
Lemma parts_year md t y m d h mi s us : valid_ts t -> reading (y, m, d) h mi s us t ->
  timestamp_date_part md t FTUnit Year = Ok (f64_of_Z (api_year y)) /\
  timestamp_date_part md t FTUnit Decade = Ok (f64_of_Z (y / 10)) /\
  timestamp_date_part md t FTUnit Century =
    Ok (f64_of_Z (if 0 <? y then (y + 99) / 100 else - ((100 - y) / 100))) /\
  timestamp_date_part md t FTUnit Millennium =
    Ok (f64_of_Z (if 0 <? y then (y + 999) / 1000 else - ((1000 - y) / 1000))).
Proof.
  intros VT R.
  pose proof (reading_year_bounds _ _ _ _ _ _ R VT) as (JB & Y & _ & Hm & Hd).
  destruct (ts2t_reading md t VT) as (c1 & h1 & mi1 & s1 & us1 & E1 & R1).
  destruct (reading_unique _ _ _ _ _ _ _ _ _ _ _ R R1) as (<- & <- & <- & <- & <-).
  unfold timestamp_date_part. rewrite (valid_ts_finite t VT). cbn [negb]. rewrite E1. cbn [bind].
  cbn [fst snd]. tmcbv. unfold api_year. ar_unfold.
  repeat split.
  - destruct (Z.ltb_spec 0 y), (Z.leb_spec y 0); try lia; [reflexivity|]. rewrite ar32_ok by (rng; lia). reflexivity.
  - destruct (Z.leb_spec 0 y); [do 2 f_equal; lia|].
    rewrite ar32_ok by (rng; lia). cbn [bind]. rewrite ar32_ok by (rng; lia). cbn [bind].
    rewrite ar32_ok by (rng; lia). cbn [bind]. do 2 f_equal. lia.
  - destruct (Z.ltb_spec 0 y).
    + rewrite ar32_ok by (rng; lia). cbn [bind]. do 2 f_equal. lia.
    + rewrite ar32_ok by (rng; lia). cbn [bind]. rewrite ar32_ok by (rng; lia). cbn [bind].
      rewrite ar32_ok by (rng; lia). cbn [bind]. do 2 f_equal. lia.
  - destruct (Z.ltb_spec 0 y).
    + rewrite ar32_ok by (rng; lia). cbn [bind]. do 2 f_equal. lia.
    + rewrite ar32_ok by (rng; lia). cbn [bind]. rewrite ar32_ok by (rng; lia). cbn [bind].
      rewrite ar32_ok by (rng; lia). cbn [bind]. do 2 f_equal. lia.
Qed.

Definition year_unit (unit : date_unit) : bool :=
  match unit with Year | Decade | Century | Millennium => true | _ => false end.
Definition year_value (unit : date_unit) (y : Z) : Z :=
  match unit with
  | Year => api_year y
  | Decade => y / 10
  | Century => if 0 <? y then (y + 99) / 100 else - ((100 - y) / 100)
  | _ => if 0 <? y then (y + 999) / 1000 else - ((1000 - y) / 1000)
  end.
Definition year_start (unit : date_unit) (y : Z) : Z :=
  match unit with
  | Year => y
  | Decade => y / 10 * 10
  | Century => (y - 1) / 100 * 100 + 1
  | _ => (y - 1) / 1000 * 1000 + 1
  end.
Lemma year_value_start unit y y' : year_unit unit = true ->
  (year_value unit y = year_value unit y' <-> year_start unit y = year_start unit y') /\
  (y <= y' -> year_value unit y <= year_value unit y').
Proof.
  destruct unit; try discriminate; intros _; cbn [year_value year_start]; unfold api_year.
  - destruct (Z.leb_spec y 0), (Z.leb_spec y' 0); lia.
  - lia.
  - destruct (Z.ltb_spec 0 y), (Z.ltb_spec 0 y'); lia.
  - destruct (Z.ltb_spec 0 y), (Z.ltb_spec 0 y'); lia.
Qed.

Lemma year_parts md unit t y m d h mi s us : valid_ts t -> reading (y, m, d) h mi s us t ->
  year_unit unit = true -> timestamp_date_part md t FTUnit unit = Ok (f64_of_Z (year_value unit y)).
Proof.
  intros V R U. destruct (parts_year md t _ _ _ _ _ _ _ V R) as (P1 & P2 & P3 & P4).
  destruct unit; try discriminate; assumption.
Qed.

Lemma year_latest unit t y m d h mi s us r : reading (y, m, d) h mi s us t -> year_unit unit = true ->
  latest_start unit t r -> r = instant (year_start unit y, 1, 1) 0.
Proof.
  intros R U L.
  destruct (floor_latest unit y m d h mi s us t (year_start unit y, 1, 1) 0 0 0 0 R) as (_ & _ & L').
  { destruct unit; try discriminate; reflexivity. }
  exact (latest_unique _ _ _ _ L L').
Qed.

Lemma year_part_spans md unit t t' : valid_ts t -> valid_ts t' -> year_unit unit = true ->
  exists v v', timestamp_date_part md t FTUnit unit = Ok (f64_of_Z v) /\
    timestamp_date_part md t' FTUnit unit = Ok (f64_of_Z v') /\
    (t <= t' -> v <= v') /\
    (forall r r', latest_start unit t r -> latest_start unit t' r' -> (v = v' <-> r = r')).
Proof.
  intros V V' U.
  destruct (ts2t_reading md t V) as ([[y m] d] & h & mi & s & us & _ & R).
  destruct (ts2t_reading md t' V') as ([[y' m'] d'] & h' & mi' & s' & us' & _ & R').
  exists (year_value unit y), (year_value unit y').
  split; [eapply year_parts; eauto|]. split; [eapply year_parts; eauto|].
  destruct (year_value_start unit y y' U) as [S M]. split.
  - intros L. apply M. apply (reading_le _ _ _ _ _ _ _ _ _ _ _ _ R' R) in L. unfold ymd_lt in L.
    destruct L as [L|[L _]]; [lia|]. injection L as -> -> ->. lia.
  - intros r r' Lr Lr'. rewrite (year_latest _ _ _ _ _ _ _ _ _ _ R U Lr), (year_latest _ _ _ _ _ _ _ _ _ _ R' U Lr').
    rewrite S. split; [now intros ->|]. intros E. unfold instant in E.
    assert (J (year_start unit y, 1, 1) = J (year_start unit y', 1, 1)) as EJ by (unfold usecs_day in E; lia).
    apply J_inj in EJ; try (apply valid_first_of; lia). now injection EJ.
Qed.
