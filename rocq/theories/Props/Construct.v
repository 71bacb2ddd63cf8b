(** C21, C22, C47, C48: construction from fields with floating point seconds, interval scaling. *)
From Coq Require Import ZArith Reals Lia Lra Floats.SpecFloat.
From Flocq Require Import IEEE754.BinarySingleNaN.
From Verif Require Import Model.DateTime Spec.Calendar Spec.Ranges Spec.Seconds
  Proofs.Arith Proofs.DateP Proofs.TsP Proofs.FloatP Proofs.ClockP Proofs.ConstructP Proofs.ScaleP.
Open Scope Z_scope.

(** Below, [rep s x] says that the double [s] is finite and its real value is [x];
    [valid_binary 53 1024 s] that [s] is a bit pattern of an f64 at all; and [f_decimal n] is the
    double nearest to n/10^6, i.e. what a seconds literal with up to six decimals denotes. *)

(** C21. *)
Theorem C21_accepts : forall md h m s x, rep s x ->
  ((exists t, time_try_from_hms md h m s = Ok t) <-> reading_accepted h m x).
Proof.
  intros md h m s x R. split.
  - intros [t H]. destruct (bad_clock h m s) eqn:E.
    + unfold time_try_from_hms in H. rewrite E in H. discriminate.
    + now apply (bad_clock_accepted h m s x R).
  - intros A. rewrite (time_hms_ok md h m s x R A). eauto.
Qed.
Print Assumptions C21_accepts.
Theorem C21_rejects : forall md h m s x, rep s x -> ~ reading_accepted h m x ->
  time_try_from_hms md h m s = Err EOverflow.
Proof. exact time_hms_err. Qed.
Print Assumptions C21_rejects.
Theorem C21_value : forall md h m s x t, rep s x -> time_try_from_hms md h m s = Ok t ->
  exists us, t = (h * 60 + m) * 60000000 + us /\ 0 <= us <= 60000000 /\ 0 <= t <= usecs_day /\
    nearest_usecs (1/1000000) x us.
Proof.
  intros md h m s x t R H.
  assert (reading_accepted h m x) as A by (apply (C21_accepts md h m s x R); eauto).
  rewrite (time_hms_ok md h m s x R A) in H. injection H as <-.
  destruct (accepted_usecs h m s x R A) as (B1 & B2 & _). exists (f_usecs s).
  repeat split; try lia. apply f_usecs_60; [exact R|]. apply A.
Qed.
Print Assumptions C21_value.
(** Seconds written with up to six decimals are exact. *)
Theorem C21_exact : forall md h m n, 0 <= h < 24 -> 0 <= m <= 59 -> 0 <= n <= 60000000 ->
  time_try_from_hms md h m (f_decimal n) = Ok ((h * 60 + m) * 60000000 + n).
Proof.
  intros md h m n Hh Hm Hn.
  assert (Z.abs n <= 2 ^ 50) as B by (change (2 ^ 50) with 1125899906842624; lia).
  rewrite (time_hms_ok md h m (f_decimal n) _ (rep_decimal n ltac:(lia))).
  - now rewrite f_usecs_decimal.
  - repeat split; try lia.
    + apply (rnd_ge_int _ 0); [lia|]. apply Rmult_le_pos; [apply IZR_le; lia|lra].
    + apply (rnd_le_int _ 60); [lia|]. apply Rmult_le_reg_r with 1000000%R; [lra|].
      unfold Rdiv. rewrite Rmult_assoc, Rinv_l, Rmult_1_r by lra. rewrite <- mult_IZR. apply IZR_le. lia.
Qed.
Print Assumptions C21_exact.
Theorem C21_never_panics : forall md h m s, valid_binary 53 1024 s = true ->
  (exists t, time_try_from_hms md h m s = Ok t /\ 0 <= t <= usecs_day) \/
  time_try_from_hms md h m s = Err EOverflow.
Proof. exact time_hms_total. Qed.
Print Assumptions C21_never_panics.
Theorem C21_infinite : forall md h m b, time_try_from_hms md h m (S754_infinity b) = Err EOverflow.
Proof. intros md h m b. unfold time_try_from_hms. now rewrite bad_clock_inf. Qed.
Print Assumptions C21_infinite.
(** "Not a number of seconds is an error" is false: NaN is taken as 0. *)
Theorem C21_nan_refuted : ~ (forall md h m, exists e, time_try_from_hms md h m S754_nan = Err e).
Proof.
  intros H. destruct (H Debug 12 30) as [e E]. vm_compute in E. discriminate.
Qed.
Print Assumptions C21_nan_refuted.
Theorem C21_nan_value : forall md h m, 0 <= h <= 24 -> 0 <= m <= 59 -> (h = 24 -> m = 0) ->
  time_try_from_hms md h m S754_nan = Ok ((h * 60 + m) * 60000000).
Proof. exact time_hms_nan. Qed.
Print Assumptions C21_nan_value.
Example C21_ex : time_try_from_hms Debug 12 34 (f_decimal 56789012) = Ok 45296789012 /\
  reading_accepted 12 34 (567/10) /\ ~ reading_accepted 24 0 1.
Proof. split; [reflexivity|]. unfold reading_accepted. split; [repeat split; try lia; lra|]. intros (_ & _ & _ & [H|(_ & _ & H)]); [lia|lra]. Qed.

(** C22. *)
Theorem C22_value : forall md y m d h mi s x n, in_i32 y -> valid_binary 53 1024 s = true -> rep s x ->
  0 < y -> valid_ymd (y, m, d) -> day_number (y, m, d) n -> reading_accepted h mi x ->
  exists us, 0 <= us <= 60000000 /\ nearest_usecs (1/1000000) x us /\
    let t := n * usecs_day + (h * 60 + mi) * 60000000 + us in
    (valid_ts t -> timestamp_try_from_ymd_hms md y m d h mi s = Ok t) /\
    (~ valid_ts t -> timestamp_try_from_ymd_hms md y m d h mi s = Err EOverflow).
Proof.
  intros md y m d h mi s x n Hy Vs R Py V D A. exists (f_usecs s).
  destruct (accepted_usecs h mi s x R A) as (_ & B & _). split; [exact B|].
  split; [apply f_usecs_60; [exact R|apply A]|]. cbv zeta.
  rewrite (ts_hms_ok md y m d h mi s x n Hy Vs R Py V D A).
  destruct (is_valid_timestamp _) eqn:E.
  - split; [reflexivity|]. intros N. apply is_valid_timestamp_spec in E. contradiction.
  - split; [|reflexivity]. intros N. apply is_valid_timestamp_spec in N. congruence.
Qed.
Print Assumptions C22_value.
Theorem C22_accepts_only : forall md y m d h mi s t, in_i32 y -> valid_binary 53 1024 s = true ->
  timestamp_try_from_ymd_hms md y m d h mi s = Ok t ->
  valid_ts t /\ 0 < y /\ valid_ymd (y, m, d) /\ exists x, rep s x /\ reading_accepted h mi x.
Proof.
  intros md y m d h mi s t Hy Vs H. destruct (ts_hms_inv md y m d h mi s t Hy Vs H) as (x & n & R & Py & V & D & A & _ & T).
  eauto 10.
Qed.
Print Assumptions C22_accepts_only.
Theorem C22_never_panics : forall md y m d h mi s, in_i32 y -> valid_binary 53 1024 s = true ->
  (exists t, timestamp_try_from_ymd_hms md y m d h mi s = Ok t) \/
  timestamp_try_from_ymd_hms md y m d h mi s = Err EOverflow.
Proof. exact ts_hms_total. Qed.
Print Assumptions C22_never_panics.
Theorem C22_exact : forall md y m d h mi k n, in_i32 y -> 0 < y -> valid_ymd (y, m, d) -> day_number (y, m, d) n ->
  0 <= h < 24 -> 0 <= mi <= 59 -> 0 <= k <= 60000000 ->
  let t := n * usecs_day + (h * 60 + mi) * 60000000 + k in
  valid_ts t -> timestamp_try_from_ymd_hms md y m d h mi (f_decimal k) = Ok t.
Proof.
  intros md y m d h mi k n Hy Py V D Hh Hm Hk t T.
  assert (Z.abs k <= 2 ^ 50) as B by (change (2 ^ 50) with 1125899906842624; lia).
  pose proof (rep_decimal k ltac:(lia)) as R.
  rewrite (ts_hms_ok md y m d h mi (f_decimal k) _ n Hy) with (2 := R); auto.
  - rewrite f_usecs_decimal by exact B. fold t. apply is_valid_timestamp_spec in T. now rewrite T.
  - destruct R as (b & _ & <- & _). apply valid_binary_B2SF.
  - apply (C21_accepts md h mi (f_decimal k) _ R). rewrite C21_exact by auto. eauto.
Qed.
Print Assumptions C22_exact.
(** 24:00:00 is the following midnight. *)
Theorem C22_midnight : forall md y m d y' m' d', in_i32 y -> in_i32 y' -> 0 < y -> valid_ymd (y, m, d) ->
  next_day (y, m, d) = (y', m', d') ->
  timestamp_try_from_ymd_hms md y m d 24 0 f0 = timestamp_try_from_ymd_hms md y' m' d' 0 0 f0.
Proof.
  intros md y m d y' m' d' Hy Hy' Py V N.
  pose proof (Cal.next_day_valid _ V) as V'. pose proof (Cal.J_next _ V) as JN. rewrite N in V', JN.
  assert (0 < y') as Py'.
  { unfold next_day in N. destruct (d <? _); [injection N; lia|]. destruct (m <? 12); injection N; lia. }
  rewrite (ts_hms_ok md y m d 24 0 f0 0%R (Cal.J (y, m, d) - 2451545)), (ts_hms_ok md y' m' d' 0 0 f0 0%R (Cal.J (y', m', d') - 2451545)); auto; try reflexivity; try apply rep_f0.
  - rewrite JN. change (f_usecs f0) with 0. unfold usecs_day.
    replace ((Cal.J (y, m, d) + 1 - 2451545) * 86400000000 + (0 * 60 + 0) * 60000000 + 0) with
     ((Cal.J (y, m, d) - 2451545) * 86400000000 + (24 * 60 + 0) * 60000000 + 0) by lia. reflexivity.
  - apply (Cal.day_number_J _ _ V'). lia.
  - repeat split; try lia; lra.
  - apply (Cal.day_number_J _ _ V). lia.
  - repeat split; try lia; try lra. right. auto.
Qed.
Print Assumptions C22_midnight.
Theorem C22_nan : forall md y m d h mi, in_i32 y ->
  timestamp_try_from_ymd_hms md y m d h mi S754_nan = Err EOverflow.
Proof.
  intros md y m d h mi Hy. rewrite ts_hms_gen by (exact Hy || reflexivity). cbn [is_nan negb].
  now rewrite !andb_false_r.
Qed.
Print Assumptions C22_nan.
Example C22_ex : timestamp_try_from_ymd_hms Debug 2021 8 27 13 30 (f_decimal 12345678) = Ok 683386212345678.
Proof. vm_compute. reflexivity. Qed.

(** C47. *)
Theorem C47_mul_integer : forall md a f k, rep f (IZR k) -> in_i32 (iv_month a) -> in_i32 (iv_day a) ->
  in_i32 (iv_month a * k) -> in_i32 (iv_day a * k) ->
  Z.abs (iv_time a) <= 2 ^ 53 -> Z.abs (iv_time a * k) <= 2 ^ 53 ->
  interval_mul_f64 md a f = Ok (from_mdt (iv_month a * k) (iv_day a * k) (iv_time a * k)).
Proof. exact mul_int. Qed.
Print Assumptions C47_mul_integer.
Theorem C47_mul_one : forall md a f, rep f 1%R -> in_i32 (iv_month a) -> in_i32 (iv_day a) ->
  Z.abs (iv_time a) <= 2 ^ 53 -> interval_mul_f64 md a f = Ok a.
Proof.
  intros md a f F Hm Hd Ht. rewrite (mul_int md a f 1); rewrite ?Z.mul_1_r; auto. now destruct a.
Qed.
Print Assumptions C47_mul_one.
Theorem C47_mul_zero : forall md a b, in_i32 (iv_month a) -> in_i32 (iv_day a) -> in_i64 (iv_time a) ->
  interval_mul_f64 md a (S754_zero b) = Ok (from_mdt 0 0 0).
Proof. exact mul_zero. Qed.
Print Assumptions C47_mul_zero.
Theorem C47_mul_refused : forall md a f k, rep f (IZR k) -> Z.abs k <= 2 ^ 53 ->
  in_i32 (iv_month a) -> in_i32 (iv_day a) -> Z.abs (iv_time a) <= 2 ^ 53 ->
  ~ in_i32 (iv_month a * k) \/ ~ in_i32 (iv_day a * k) \/ 2 ^ 63 + 2048 <= Z.abs (iv_time a * k) ->
  interval_mul_f64 md a f = Err EOverflow.
Proof.
  intros md a f k F K Hm Hd Ht [H|[H|H]].
  - apply (mul_int_refused md a f k); auto. etransitivity; [exact K|apply Z.pow_le_mono_r; lia].
  - apply (mul_int_refused md a f k); auto. etransitivity; [exact K|apply Z.pow_le_mono_r; lia].
  - apply (mul_time_refused md a f k); auto.
Qed.
Print Assumptions C47_mul_refused.
(** "A time product outside i64 is always refused" is false at exactly 2^63 (the comparison is
    made against i64::MAX rounded up to 2^63): the result saturates. *)
Theorem C47_mul_saturates_refuted : ~ (forall md a f k, rep f (IZR k) -> in_i64 (iv_time a) ->
  ~ in_i64 (iv_time a * k) -> exists e, interval_mul_f64 md a f = Err e).
Proof.
  intros H. destruct (H Debug (from_mdt 0 0 4611686018427387904) (f64_of_Z 2) 2) as [e E].
  - apply rep_int. lia.
  - unfold in_i64, i64_min, i64_max. cbn. lia.
  - unfold in_i64, i64_min, i64_max. cbn. lia.
  - vm_compute in E. discriminate.
Qed.
Print Assumptions C47_mul_saturates_refuted.
Theorem C47_mul_nan_inf : forall md a f, in_i32 (iv_month a) -> is_nan f = true \/ is_inf f = true ->
  interval_mul_f64 md a f = Err EOverflow.
Proof.
  intros md a f H [N|I].
  - destruct f; try discriminate. now apply mul_nan.
  - destruct f; try discriminate. now apply mul_inf.
Qed.
Print Assumptions C47_mul_nan_inf.
Theorem C47_div_integer : forall md f k m d t, rep f (IZR k) -> k <> 0 -> in_i32 m -> in_i32 d ->
  in_i32 (m * k) -> in_i32 (d * k) -> Z.abs t <= 2 ^ 53 -> Z.abs (t * k) <= 2 ^ 53 ->
  interval_div_f64 md (from_mdt (m * k) (d * k) (t * k)) f = Ok (from_mdt m d t).
Proof. exact div_int. Qed.
Print Assumptions C47_div_integer.
Theorem C47_div_one : forall md a f, rep f 1%R -> in_i32 (iv_month a) -> in_i32 (iv_day a) ->
  Z.abs (iv_time a) <= 2 ^ 53 -> interval_div_f64 md a f = Ok a.
Proof.
  intros md [t d m] f F Hm Hd Ht. cbn [iv_month iv_day iv_time] in *.
  pose proof (div_int md f 1 m d t F ltac:(lia) Hm Hd) as D. rewrite !Z.mul_1_r in D. now apply D.
Qed.
Print Assumptions C47_div_one.
(** Multiplying and dividing by the same integer is the identity. *)
Theorem C47_mul_div : forall md a f k b, rep f (IZR k) -> k <> 0 -> Z.abs k <= 2 ^ 53 ->
  in_i32 (iv_month a) -> in_i32 (iv_day a) -> Z.abs (iv_time a) <= 2 ^ 53 -> Z.abs (iv_time a * k) <= 2 ^ 53 ->
  interval_mul_f64 md a f = Ok b -> interval_div_f64 md b f = Ok a.
Proof.
  intros md a f k b F K0 K Hm Hd Ht Htk H.
  assert (Z.abs k <= 2 ^ 200) as K' by (etransitivity; [exact K|apply Z.pow_le_mono_r; lia]).
  assert (in_i32 (iv_month a * k) /\ in_i32 (iv_day a * k)) as [A B].
  { destruct (in32b (iv_month a * k)) eqn:E1.
    - destruct (in32b (iv_day a * k)) eqn:E2; [unfold in32b in *; unfold in_i32; lia|].
      rewrite (mul_int_refused md a f k F K' Hm Hd) in H; [discriminate|]. right. unfold in32b in E2. unfold in_i32. lia.
    - rewrite (mul_int_refused md a f k F K' Hm Hd) in H; [discriminate|]. left. unfold in32b in E1. unfold in_i32. lia. }
  rewrite (mul_int md a f k) in H by auto. injection H as <-. rewrite (div_int md f k) by auto. now destruct a.
Qed.
Print Assumptions C47_mul_div.
Theorem C47_div_zero : forall md a b, interval_div_f64 md a (S754_zero b) = Err EInvalid.
Proof. exact div_zero. Qed.
Print Assumptions C47_div_zero.
(** Division, unlike multiplication, neither refuses NaN nor results out of range. *)
Theorem C47_div_nan_refuted : ~ (forall md a, exists e, interval_div_f64 md a S754_nan = Err e).
Proof. intros H. destruct (H Debug (from_mdt 1 2 3)) as [e E]. vm_compute in E. discriminate. Qed.
Print Assumptions C47_div_nan_refuted.
Theorem C47_div_range_refuted : ~ (forall md a f k, rep f (/ IZR k)%R -> k <> 0 -> in_i32 (iv_month a) ->
  ~ in_i32 (iv_month a * k) -> exists e, interval_div_f64 md a f = Err e).
Proof.
  intros H. destruct (H Debug (from_mdt 2147483647 0 0) (S754_finite false 4503599627370496 (-53)) 2) as [e E].
  - exists (@B754_finite 53 1024 false 4503599627370496 (-53) eq_refl). repeat split.
    cbn [B2R]. unfold Defs.F2R. cbn [Defs.Fnum Defs.Fexp SpecFloat.cond_Zopp].
    change (Raux.bpow Zaux.radix2 (-53)) with (/ IZR 9007199254740992)%R.
    change (IZR (cond_Zopp false 4503599627370496)) with (IZR 4503599627370496). lra.
  - lia.
  - unfold in_i32, i32_min, i32_max. cbn. lia.
  - unfold in_i32, i32_min, i32_max. cbn. lia.
  - vm_compute in E. discriminate.
Qed.
Print Assumptions C47_div_range_refuted.
Example C47_ex : interval_mul_f64 Debug (from_mdt 14 (-3) 3600000000) (f64_of_Z (-3)) = Ok (from_mdt (-42) 9 (-10800000000)) /\
  interval_div_f64 Release (from_mdt 14 (-4) 3600000000) (f64_of_Z 2) = Ok (from_mdt 7 (-2) 1800000000) /\
  rep (f64_of_Z (-3)) (IZR (-3)).
Proof. split; [vm_compute; reflexivity|]. split; [vm_compute; reflexivity|]. apply rep_int. lia. Qed.

(** C48. *)
Theorem C48_fields : forall y mo w d h mi s x, rep s x -> (Rabs x <= 1000000000)%R ->
  exists us, nearest_usecs (1/8) x us /\
    let time := h * 3600000000 + mi * 60000000 + us in
    (in_i32 (12 * y + mo) -> in_i32 (7 * w + d) -> in_i64 time ->
     interval_try_from_ymwd_hms y mo w d h mi s = Ok (from_mdt (12 * y + mo) (7 * w + d) time)).
Proof.
  intros y mo w d h mi s x R B. exists (f_usecs s). split; [apply (f_usecs_9 s x R B)|].
  intros time Hm Hd Ht. now apply (ymwd_ok y mo w d h mi s x R).
Qed.
Print Assumptions C48_fields.
Theorem C48_exact : forall y mo w d h mi n, Z.abs n <= 2 ^ 50 ->
  let time := h * 3600000000 + mi * 60000000 + n in
  in_i32 (12 * y + mo) -> in_i32 (7 * w + d) -> in_i64 time ->
  interval_try_from_ymwd_hms y mo w d h mi (f_decimal n) = Ok (from_mdt (12 * y + mo) (7 * w + d) time).
Proof.
  intros y mo w d h mi n Hn time Hm Hd Ht.
  pose proof (ymwd_ok y mo w d h mi (f_decimal n) _ (rep_decimal n ltac:(lia))) as H.
  rewrite f_usecs_decimal in H by exact Hn. now apply H.
Qed.
Print Assumptions C48_exact.
Theorem C48_nan_inf : forall y mo w d h mi s, is_nan s = true \/ is_inf s = true ->
  interval_try_from_ymwd_hms y mo w d h mi s = Err EOverflow.
Proof.
  intros y mo w d h mi s H. unfold interval_try_from_ymwd_hms.
  replace (is_inf s || is_nan s) with true; [reflexivity|]. destruct H as [-> | ->]; now rewrite ?orb_true_r.
Qed.
Print Assumptions C48_nan_inf.
Theorem C48_never_panics : forall y mo w d h mi s,
  (exists r, interval_try_from_ymwd_hms y mo w d h mi s = Ok r) \/
  (is_inf s || is_nan s = true /\ interval_try_from_ymwd_hms y mo w d h mi s = Err EOverflow).
Proof. exact ymwd_total. Qed.
Print Assumptions C48_never_panics.
(** "An overflowing field is an error" is false: fields wrap. *)
Theorem C48_overflow_refuted : ~ (forall y mo w d h mi s, in_i32 y -> ~ in_i32 (12 * y + mo) ->
  exists e, interval_try_from_ymwd_hms y mo w d h mi s = Err e).
Proof.
  intros H. destruct (H 2147483647 0 0 0 0 0 f0) as [e E].
  - unfold in_i32, i32_min, i32_max. lia.
  - unfold in_i32, i32_min, i32_max. lia.
  - vm_compute in E. discriminate.
Qed.
Print Assumptions C48_overflow_refuted.
Example C48_ex : interval_try_from_ymwd_hms 1 2 3 4 5 6 (f_decimal 7080900) = Ok (from_mdt 14 25 18367080900).
Proof. vm_compute. reflexivity. Qed.
