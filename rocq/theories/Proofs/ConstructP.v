(** Construction of times, timestamps and intervals from fields. *)
From Coq Require Import ZArith Reals Lia Lra Floats.SpecFloat.
From Flocq Require Import Core.Core IEEE754.BinarySingleNaN.
From Verif Require Import Model.DateTime Spec.Calendar Spec.Ranges Spec.Seconds Proofs.Arith Proofs.Cal Proofs.DateP
  Proofs.FloatP Proofs.TsP Proofs.ClockP Proofs.IntervalP.
Open Scope Z_scope.

Lemma bad_clock_accepted h m s x : rep s x -> (bad_clock h m s = false <-> reading_accepted h m x).
Proof. exact (bad_clock_ok h m s x). Qed.

Lemma accepted_usecs h m s x : rep s x -> reading_accepted h m x ->
  0 <= (h * 60 + m) * 60000000 + f_usecs s <= usecs_day /\ 0 <= f_usecs s <= 60000000 /\
  0 <= h <= 24 /\ 0 <= m <= 59.
Proof.
  intros R (Hh & Hm & Hx & Hc). destruct (f_usecs_60 s x R Hx) as (B & _ & Z0). unfold usecs_day.
  destruct Hc as [Hc|(-> & -> & ->)]; [lia|]. rewrite (Z0 eq_refl). lia.
Qed.

Lemma time_hms_ok md h m s x : rep s x -> reading_accepted h m x ->
  time_try_from_hms md h m s = Ok ((h * 60 + m) * 60000000 + f_usecs s).
Proof.
  intros R A. unfold time_try_from_hms. pose proof (proj2 (bad_clock_accepted h m s x R) A) as ->.
  destruct (accepted_usecs h m s x R A) as (_ & U & H & M). apply clock_usecs_ok; auto.
Qed.
Lemma time_hms_err md h m s x : rep s x -> ~ reading_accepted h m x ->
  time_try_from_hms md h m s = Err EOverflow.
Proof.
  intros R A. unfold time_try_from_hms. destruct (bad_clock h m s) eqn:E; [reflexivity|].
  apply (bad_clock_accepted h m s x R) in E. contradiction.
Qed.

Lemma f_usecs_nan : f_usecs S754_nan = 0. Proof. reflexivity. Qed.
Lemma time_hms_nan md h m : 0 <= h <= 24 -> 0 <= m <= 59 -> (h = 24 -> m = 0) ->
  time_try_from_hms md h m S754_nan = Ok ((h * 60 + m) * 60000000).
Proof.
  intros H M C. unfold time_try_from_hms. pose proof (proj2 (bad_clock_nan h m)) as B. rewrite B by lia.
  rewrite clock_usecs_ok; rewrite ?f_usecs_nan; [f_equal; lia|lia..].
Qed.

(** No input makes it panic. *)
Lemma time_hms_total md h m s : valid_binary 53 1024 s = true ->
  (exists t, time_try_from_hms md h m s = Ok t /\ 0 <= t <= usecs_day) \/ time_try_from_hms md h m s = Err EOverflow.
Proof.
  intros V. destruct (f64_cases s V) as [->|[[b ->]|[x R]]].
  - destruct (bad_clock h m S754_nan) eqn:E; [right; unfold time_try_from_hms; now rewrite E|left].
    apply bad_clock_nan in E. rewrite time_hms_nan by lia. eexists. split; [reflexivity|]. unfold usecs_day. lia.
  - right. unfold time_try_from_hms. now rewrite bad_clock_inf.
  - destruct (bad_clock h m s) eqn:E; [right; unfold time_try_from_hms; now rewrite E|left].
    apply (bad_clock_accepted h m s x R) in E. rewrite (time_hms_ok md h m s x R E). eexists. split; [reflexivity|].
    now apply (accepted_usecs h m s x R E).
Qed.

(** ** Timestamps *)
Lemma ts_hms_gen md y m d h mi s : in_i32 y -> valid_binary 53 1024 s = true ->
  timestamp_try_from_ymd_hms md y m d h mi s =
  if (0 <? y) && validb y m d && negb (is_nan s) && negb (bad_clock h mi s)
     && is_valid_timestamp ((J (y, m, d) - 2451545) * usecs_day + ((h * 60 + mi) * 60000000 + f_usecs s))
  then Ok ((J (y, m, d) - 2451545) * usecs_day + ((h * 60 + mi) * 60000000 + f_usecs s)) else Err EOverflow.
Proof.
  intros Hy Vs. unfold timestamp_try_from_ymd_hms.
  rewrite validate_date_ymd by exact Hy. cbv zeta.
  change (tm_year (set_mday d (set_mon m (set_year y tm_new)))) with y.
  change (tm_mon (set_mday d (set_mon m (set_year y tm_new)))) with m.
  change (tm_mday (set_mday d (set_mon m (set_year y tm_new)))) with d.
  destruct (Z.leb_spec y 0); [replace (0 <? y) with false by lia; reflexivity|].
  replace (0 <? y) with true by lia. cbn [andb].
  destruct (validb y m d) eqn:V; [|reflexivity]. cbn [bind andb].
  change (tm_year (set_year y (set_mday d (set_mon m (set_year y tm_new))))) with y.
  change (tm_mon (set_year y (set_mday d (set_mon m (set_year y tm_new))))) with m.
  change (tm_mday (set_year y (set_mday d (set_mon m (set_year y tm_new))))) with d.
  apply validb_spec in V.
  assert (forall b T, 0 <= T <= usecs_day -> 106752000 <= J (y, m, d) - 2451545 ->
    (if b && is_valid_timestamp ((J (y, m, d) - 2451545) * usecs_day + T)
     then Ok ((J (y, m, d) - 2451545) * usecs_day + T) else Err EOverflow) = Err EOverflow) as Far.
  { intros b T HT HJ. destruct (is_valid_timestamp _) eqn:E; [|now rewrite andb_false_r].
    apply is_valid_timestamp_spec in E. exfalso. unfold valid_ts, usecs_day in *. lia. }
  assert (bad_clock h mi s = false -> is_nan s = false ->
    0 <= (h * 60 + mi) * 60000000 + f_usecs s <= usecs_day /\ 0 <= f_usecs s <= 60000000 /\
    0 <= h <= 24 /\ 0 <= mi <= 59) as HT.
  { intros B Nn. destruct (f64_cases s Vs) as [->|[[b ->]|[x R]]]; [discriminate Nn|rewrite bad_clock_inf in B; discriminate B|].
    apply (accepted_usecs h mi s x R). now apply (bad_clock_accepted h mi s x R). }
  set (T := (h * 60 + mi) * 60000000 + f_usecs s) in *.
  assert (1721426 <= J (y, m, d)) as JP.
  { pose proof (J_in_year y m d V). pose proof (J_mono_year 1 y ltac:(lia)).
    assert (J (1, 1, 0) = 1721425) by reflexivity. lia. }
  destruct (is_valid_julian y m) eqn:E; cbn [negb].
  - pose proof (J_julian_bounds _ _ _ V E) as JB.
    pose proof (is_valid_julian_bounds _ _ E) as B.
    pose proof (month_len_bounds y m (proj1 V)) as ML. destruct V as [Vm Vd].
    rewrite date2julian_ok by lia. cbn [bind]. set (j := J (y, m, d)) in *.
    unfold POSTGRES_EPOCH_JDATE. ar_unfold. rewrite ar32_ok by (clear - JB; unfold in_i32, i32_min, i32_max; lia). cbn [bind].
    destruct (is_nan s) eqn:N; cbn [negb orb andb]; [reflexivity|].
    destruct (bad_clock h mi s) eqn:BC; cbn [negb orb andb]; [reflexivity|].
    destruct (HT eq_refl eq_refl) as (HT1 & HU & Hh & Hmi).
    rewrite clock_usecs_ok by auto. fold T. cbn [bind].
    unfold chk64, USECS_PER_DAY. unfold usecs_day in *.
    destruct (in64b ((j - 2451545) * 86400000000)) eqn:I1; cbn [ok_or bind].
    + destruct (in64b ((j - 2451545) * 86400000000 + T)) eqn:I2; cbn [ok_or bind].
      * replace (((j - 2451545) * 86400000000 + T <? 0) && (0 <? j - 2451545) || (0 <? (j - 2451545) * 86400000000 + T) && (j - 2451545 <? -1)) with false.
        2:{ symmetry. apply orb_false_intro; destruct (Z.ltb_spec ((j - 2451545) * 86400000000 + T) 0), (Z.ltb_spec 0 ((j - 2451545) * 86400000000 + T)); cbn [andb]; try reflexivity; lia. }
        destruct (is_valid_timestamp ((j - 2451545) * 86400000000 + T)); reflexivity.
      * symmetry. destruct (is_valid_timestamp _) eqn:VT; [|reflexivity].
        apply is_valid_timestamp_spec in VT. exfalso. unfold valid_ts in VT. unfold in64b, i64_min, i64_max in I2. lia.
    + symmetry. destruct (is_valid_timestamp _) eqn:VT; [|reflexivity].
      apply is_valid_timestamp_spec in VT. exfalso. unfold valid_ts in VT. unfold in64b, i64_min, i64_max in I1. lia.
  - destruct (J_low _ _ _ V E) as [JL|JL]; [exfalso; lia|].
    destruct (is_nan s) eqn:N; cbn [negb andb]; [reflexivity|].
    destruct (bad_clock h mi s) eqn:BC; cbn [negb andb]; [reflexivity|].
    symmetry. apply (Far true); [apply HT; reflexivity|lia].
Qed.

Lemma ts_hms_ok md y m d h mi s x n : in_i32 y -> valid_binary 53 1024 s = true -> rep s x ->
  0 < y -> valid_ymd (y, m, d) -> day_number (y, m, d) n -> reading_accepted h mi x ->
  let t := n * usecs_day + (h * 60 + mi) * 60000000 + f_usecs s in
  timestamp_try_from_ymd_hms md y m d h mi s = if is_valid_timestamp t then Ok t else Err EOverflow.
Proof.
  intros Hy Vs R Py V D A t. apply (day_number_J _ _ V) in D. rewrite ts_hms_gen by auto.
  pose proof (proj2 (validb_spec y m d) V) as ->. pose proof (proj2 (bad_clock_accepted h mi s x R) A) as ->.
  rewrite (rep_not_nan s x R). replace (0 <? y) with true by lia. cbn [negb andb]. rewrite D.
  replace (n + 2451545 - 2451545) with n by lia. rewrite !Z.add_assoc. reflexivity.
Qed.
Lemma ts_hms_inv md y m d h mi s t : in_i32 y -> valid_binary 53 1024 s = true ->
  timestamp_try_from_ymd_hms md y m d h mi s = Ok t ->
  exists x n, rep s x /\ 0 < y /\ valid_ymd (y, m, d) /\ day_number (y, m, d) n /\ reading_accepted h mi x /\
    t = n * usecs_day + (h * 60 + mi) * 60000000 + f_usecs s /\ valid_ts t.
Proof.
  intros Hy Vs. rewrite ts_hms_gen by auto.
  destruct (0 <? y) eqn:Py; [|discriminate]. destruct (validb y m d) eqn:V; [|discriminate].
  destruct (is_nan s) eqn:N; [discriminate|]. destruct (bad_clock h mi s) eqn:BC; [discriminate|].
  cbn [andb negb]. destruct (is_valid_timestamp _) eqn:VT; [|discriminate]. intros [= <-].
  destruct (f64_cases s Vs) as [->|[[b ->]|[x R]]]; [discriminate N|rewrite bad_clock_inf in BC; discriminate|].
  apply validb_spec in V. exists x, (J (y, m, d) - 2451545). split; [exact R|]. split; [lia|]. split; [exact V|].
  split; [apply (day_number_J _ _ V); lia|]. split; [now apply (bad_clock_accepted h mi s x R)|].
  split; [lia|]. now apply is_valid_timestamp_spec.
Qed.
Lemma ts_hms_total md y m d h mi s : in_i32 y -> valid_binary 53 1024 s = true ->
  (exists t, timestamp_try_from_ymd_hms md y m d h mi s = Ok t) \/ timestamp_try_from_ymd_hms md y m d h mi s = Err EOverflow.
Proof.
  intros Hy Vs. rewrite ts_hms_gen by auto. destruct (_ && _); eauto.
Qed.

(** ** Intervals *)
Lemma wrap32_k z : exists k, wrap32 z = z + k * 4294967296.
Proof. unfold wrap32. exists (- ((z + 2147483648) / 4294967296)). lia. Qed.
Lemma wrap32_eq z r k : in_i32 r -> z = r + k * 4294967296 -> wrap32 z = r.
Proof.
  intros H ->. unfold in_i32, i32_min, i32_max in H. unfold wrap32.
  replace (r + k * 4294967296 + 2147483648) with (r + 2147483648 + k * 4294967296) by lia.
  rewrite Z_mod_plus_full, Z.mod_small by lia. lia.
Qed.
Lemma wrap64_k z : exists k, wrap64 z = z + k * 18446744073709551616.
Proof. unfold wrap64. exists (- ((z + 9223372036854775808) / 18446744073709551616)). lia. Qed.
Lemma wrap64_eq z r k : in_i64 r -> z = r + k * 18446744073709551616 -> wrap64 z = r.
Proof.
  intros H ->. unfold in_i64, i64_min, i64_max in H. unfold wrap64.
  replace (r + k * 18446744073709551616 + 9223372036854775808) with (r + 9223372036854775808 + k * 18446744073709551616) by lia.
  rewrite Z_mod_plus_full, Z.mod_small by lia. lia.
Qed.
Lemma wrap32_sum a b : in_i32 (a + b) -> wrap32 (wrap32 a + b) = a + b.
Proof. intros H. destruct (wrap32_k a) as [k ->]. apply wrap32_eq with k; [exact H|lia]. Qed.
Lemma wrap64_sum a b c : in_i64 (a + b + c) -> wrap64 (wrap64 (wrap64 a + wrap64 b) + c) = a + b + c.
Proof.
  intros H. destruct (wrap64_k a) as [k ->]. destruct (wrap64_k b) as [k' ->].
  destruct (wrap64_k (a + k * 18446744073709551616 + (b + k' * 18446744073709551616))) as [k'' ->].
  apply wrap64_eq with (k + k' + k''); [exact H|lia].
Qed.

Lemma ymwd_ok y mo w d h mi s x : rep s x ->
  let time := h * 3600000000 + mi * 60000000 + f_usecs s in
  in_i32 (12 * y + mo) -> in_i32 (7 * w + d) -> in_i64 time ->
  interval_try_from_ymwd_hms y mo w d h mi s = Ok (from_mdt (12 * y + mo) (7 * w + d) time).
Proof.
  intros R time Hm Hd Ht. unfold interval_try_from_ymwd_hms. rewrite (rep_not_nan s x R), (rep_not_inf s x R). cbn [orb].
  fold (f_usecs s). unfold MONTHS_PER_YEAR. rewrite (Z.mul_comm y 12), (Z.mul_comm w 7).
  rewrite !wrap32_sum by assumption. unfold SECS_PER_HOUR, SECS_PER_MINUTE, USECS_PER_SEC.
  change (3600 * 1000000) with 3600000000. change (60 * 1000000) with 60000000.
  rewrite wrap64_sum by exact Ht. reflexivity.
Qed.
Lemma ymwd_total y mo w d h mi s : 
  (exists r, interval_try_from_ymwd_hms y mo w d h mi s = Ok r) \/
  ((is_inf s || is_nan s = true) /\ interval_try_from_ymwd_hms y mo w d h mi s = Err EOverflow).
Proof. unfold interval_try_from_ymwd_hms. destruct (is_inf s || is_nan s); [right|left]; eauto. Qed.

(** Microseconds of up to a billion seconds. *)
Lemma f_usecs_9 s x : rep s x -> (Rabs x <= 1000000000)%R ->
  (Rabs (IZR (f_usecs s) - x * 1000000) <= 1/2 + 1/8)%R.
Proof.
  intros R B. set (p := (x * 1000000)%R).
  assert (Rabs p <= 1000000000000000)%R as Hp.
  { unfold p. rewrite Rabs_mult, (Rabs_pos_eq 1000000) by lra. lra. }
  rewrite (f_usecs_ok s x R).
  2:{ apply small_bound with 1000000000000000; [exact Hp|]. transitivity (2 ^ 50); [cbn; lia|]. apply Z.pow_le_mono_r; lia. }
  fold p.
  assert (Rabs (rnd p - p) <= 1/8)%R as E.
  { eapply Rle_trans; [apply rnd_err_simple; eapply Rle_trans; [exact Hp|pw; lra]|].
    assert (Rabs p * / IZR (2 ^ 53) <= 1000000000000000 * / IZR (2 ^ 53))%R as M.
    { apply Rmult_le_compat_r; [|exact Hp]. apply Rlt_le, Rinv_0_lt_compat. apply IZR_lt. lia. }
    eapply Rle_trans; [apply Rplus_le_compat_r; exact M|]. pw; lra. }
  pose proof (Znearest_half (Z.leb 0) (rnd p)) as H.
  assert (-1000000000000001 <= ZnearestA (rnd p) <= 1000000000000001) as ZB.
  { apply Rabs_le_inv in H. apply Rabs_le_inv in E. apply Rabs_le_inv in Hp.
    split; apply le_IZR; rewrite ?opp_IZR; lra. }
  replace (Z.max i64_min (Z.min i64_max (ZnearestA (rnd p)))) with (ZnearestA (rnd p)) by (unfold i64_min, i64_max; lia).
  replace (IZR (ZnearestA (rnd p)) - p)%R with ((rnd p - p) - (rnd p - IZR (ZnearestA (rnd p))))%R by ring.
  unfold Rminus at 1. eapply Rle_trans; [apply Rabs_triang|]. rewrite Rabs_Ropp. lra.
Qed.
