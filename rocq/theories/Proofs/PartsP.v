(** Clock and calendar parts of timestamps, times and intervals. *)
From Coq Require Import ZArith Bool List Lia Reals Lra.
From Flocq Require Import Core BinarySingleNaN.
From Verif Require Import Model.DateTime Spec.Calendar Spec.Ranges Spec.Clock Spec.Units Proofs.Arith Proofs.Cal Proofs.DateP
  Proofs.TsP Proofs.TimeP Proofs.WeekP Proofs.FloatP Proofs.ClockP Proofs.IntervalP Proofs.IvTruncP Proofs.TruncP Proofs.FormatP Spec.IntervalS.
Import ListNotations.
Open Scope Z_scope.

(** The double [f] is a finite number within [e] of [r]. *)
Definition close (f : f64) (r e : R) : Prop := exists v, rep f v /\ (Rabs (v - r) <= e)%R.

Section Close.
Open Scope R_scope.

Lemma close_weaken f r e e' : close f r e -> e <= e' -> close f r e'.
Proof. intros (v & R & H) L. exists v. split; [exact R|lra]. Qed.
Lemma close_rep f r : rep f r -> close f r 0.
Proof. intros R. exists r. split; [exact R|]. unfold Rminus. rewrite Rplus_opp_r, Rabs_R0. lra. Qed.
Lemma close_int z : (Z.abs z <= 2 ^ 53)%Z -> close (f64_of_Z z) (IZR z) 0.
Proof. intros H. apply close_rep. now apply rep_int. Qed.

(** Rounding error bounds, with round numbers for 2^-53 and the subnormal threshold. *)
Definition eps (B : R) : R := B / 9000000000000000 + / 1000000000000000000000000000000.

Lemma rnd_close r B : Rabs r <= B -> Rabs (rnd r - r) <= eps B.
Proof.
  intros H. assert (0 <= B) as P by (pose proof (Rabs_pos r); lra). eapply Rle_trans; [apply rnd_err|]. unfold eps.
  replace (bpow radix2 (-53)) with (/ 9007199254740992) by reflexivity.
  assert (bpow radix2 (-1074) <= / 1000000000000000000000000000000) as E.
  { apply Rle_trans with (bpow radix2 (-110)); [apply bpow_le; lia|].
    replace (bpow radix2 (-110)) with (/ IZR (2 ^ 110)) by reflexivity.
    apply Rinv_le; [lra|apply IZR_le; lia]. }
  apply Rplus_le_compat; [|exact E]. lra.
Qed.

Lemma big_bound r : Rabs r <= 100000000000000000000 -> Rabs r <= bpow radix2 1000.
Proof.
  intros H. apply (small_bound _ _ H). change (2 ^ 300)%Z with (2 ^ 100 * 2 ^ 200)%Z. lia.
Qed.

Lemma close_add f g a b e1 e2 B : close f a e1 -> close g b e2 -> - (B - e1 - e2) <= a + b <= B - e1 - e2 -> B <= 100000000000000000000 ->
  close (fadd f g) (a + b) (e1 + e2 + eps B).
Proof.
  intros (v & Rv & Hv) (w & Rw & Hw) HB PB. apply Rabs_le in HB.
  assert (Rabs (v + w - (a + b)) <= e1 + e2) as D.
  { replace (v + w - (a + b)) with ((v - a) + (w - b)) by ring. eapply Rle_trans; [apply Rabs_triang|]. lra. }
  assert (Rabs (v + w) <= B) as Q.
  { replace (v + w) with ((a + b) + (v + w - (a + b))) by ring. eapply Rle_trans; [apply Rabs_triang|]. lra. }
  exists (rnd (v + w)). split.
  - apply rep_add; auto. apply big_bound. lra.
  - replace (rnd (v + w) - (a + b)) with ((rnd (v + w) - (v + w)) + (v + w - (a + b))) by ring.
    eapply Rle_trans; [apply Rabs_triang|]. pose proof (rnd_close (v + w) B Q). lra.
Qed.

Lemma close_div f a e k B : close f a e -> (0 < k <= 2 ^ 53)%Z -> - (B * IZR k - e) <= a <= B * IZR k - e -> B <= 100000000000000000000 ->
  close (fdiv f (f64_of_Z k)) (a / IZR k) (e / IZR k + eps B).
Proof.
  intros (v & Rv & Hv) Hk HB PB. apply Rabs_le in HB.
  assert (0 < IZR k) as K by (apply IZR_lt; lia). assert (0 < / IZR k) as K' by now apply Rinv_0_lt_compat.
  assert (Rabs v <= B * IZR k) as Q.
  { replace v with (a + (v - a)) by ring. eapply Rle_trans; [apply Rabs_triang|]. lra. }
  assert (Rabs (v / IZR k) <= B) as Q'.
  { unfold Rdiv. rewrite Rabs_mult, (Rabs_pos_eq (/ IZR k)) by lra.
    replace B with (B * IZR k * / IZR k) by (field; lra). apply Rmult_le_compat_r; lra. }
  exists (rnd (v / IZR k)). split.
  - apply rep_div; auto; [apply rep_int; lia|lra|]. apply big_bound. lra.
  - replace (rnd (v / IZR k) - a / IZR k) with ((rnd (v / IZR k) - v / IZR k) + (v - a) / IZR k) by (field; lra).
    eapply Rle_trans; [apply Rabs_triang|].
    assert (Rabs ((v - a) / IZR k) <= e / IZR k) as H.
    { unfold Rdiv. rewrite Rabs_mult, (Rabs_pos_eq (/ IZR k)) by lra. apply Rmult_le_compat_r; lra. }
    pose proof (rnd_close _ _ Q'). lra.
Qed.

Lemma close_of_Z z B : - B <= IZR z <= B -> B <= 100000000000000000000 -> close (f64_of_Z z) (IZR z) (eps B).
Proof.
  intros H P. apply Rabs_le in H. exists (rnd (IZR z)). split; [apply rep_Z, big_bound; lra|]. now apply rnd_close.
Qed.

Lemma close_eq f r r' e : close f r e -> r = r' -> close f r' e.
Proof. now intros H <-. Qed.
Lemma rabs_le x y : - y <= x <= y -> Rabs x <= y.
Proof. intros. apply Rabs_le. lra. Qed.
Lemma of_rabs x y : Rabs x <= y -> - y <= x <= y.
Proof. intros H. pose proof (Rle_abs x). pose proof (Rle_abs (- x)). rewrite Rabs_Ropp in *. lra. Qed.
Lemma int_range a k : (Z.abs a <= k)%Z -> - IZR k <= IZR a <= IZR k.
Proof. intros H. rewrite <- opp_IZR. split; apply IZR_le; lia. Qed.
End Close.

(** ** Seconds with their fraction *)
Lemma sec_micro_rep tm us : Z.abs (tm_sec tm) < 60 -> Z.abs us < 1000000 ->
  rep (sec_micro tm us) (IZR (tm_sec tm * 1000000 + us)).
Proof.
  intros H U. unfold sec_micro. apply rep_add_int; [apply rep_mul_int|..]; try apply rep_int; lia.
Qed.

Ltac cl := unfold eps in *; try apply rabs_le; lra.
Lemma sec_sec_close tm us : Z.abs (tm_sec tm) < 60 -> Z.abs us < 1000000 ->
  close (sec_sec tm us) (IZR (tm_sec tm) + IZR us / 1000000) (/ 100000000000000).
Proof.
  intros H U. unfold sec_sec.
  pose proof (int_range (tm_sec tm) 59 ltac:(lia)) as A1. pose proof (int_range us 999999 ltac:(lia)) as A2.
  pose proof (close_int (tm_sec tm) ltac:(lia)) as C1.
  pose proof (close_div (f64_of_Z us) (IZR us) 0 1000000 1 (close_int us ltac:(lia)) ltac:(lia)
    ltac:(cl) ltac:(lra)) as C2.
  eapply close_weaken; [eapply (close_add _ _ _ _ _ _ 61 C1 C2)|].
  all: cl.
Qed.

Lemma sec_milli_close tm us : Z.abs (tm_sec tm) < 60 -> Z.abs us < 1000000 ->
  close (sec_milli tm us) (IZR (tm_sec tm) * 1000 + IZR us / 1000) (/ 100000000000).
Proof.
  intros H U. unfold sec_milli.
  pose proof (int_range (tm_sec tm) 59 ltac:(lia)) as A1. pose proof (int_range us 999999 ltac:(lia)) as A2.
  assert (close (fmul (f64_of_Z (tm_sec tm)) (f64_of_Z 1000)) (IZR (tm_sec tm) * 1000) 0) as C1.
  { rewrite <- (mult_IZR (tm_sec tm) 1000). apply close_rep. apply rep_mul_int; try apply rep_int; lia. }
  pose proof (close_div (f64_of_Z us) (IZR us) 0 1000 1000 (close_int us ltac:(lia)) ltac:(lia)
    ltac:(cl) ltac:(lra)) as C2.
  eapply close_weaken; [eapply (close_add _ _ _ _ _ _ 60001 C1 C2)|].
  all: cl.
Qed.

Lemma julian_close n hm s us : 0 <= n <= 110000000 -> 0 <= hm < 86400 -> 0 <= s < 60 -> hm + s < 86400 -> 0 <= us < 1000000 ->
  close (fadd (f64_of_Z n) (fdiv (fadd (fadd (f64_of_Z hm) (f64_of_Z s)) (fdiv (f64_of_Z us) (f64_of_Z 1000000))) (f64_of_Z 86400)))
    (IZR n + (IZR (hm + s) + IZR us / 1000000) / 86400) (/ 50000000).
Proof.
  intros Hn Hh Hs Hhs U.
  pose proof (int_range n 110000000 ltac:(lia)) as A1. pose proof (int_range us 999999 ltac:(lia)) as A2.
  pose proof (int_range (hm + s) 86400 ltac:(lia)) as A3.
  assert (close (fadd (f64_of_Z hm) (f64_of_Z s)) (IZR (hm + s)) 0) as C1.
  { apply close_rep. apply rep_add_int; try apply rep_int; lia. }
  pose proof (close_div (f64_of_Z us) (IZR us) 0 1000000 1 (close_int us ltac:(lia)) ltac:(lia)
    ltac:(cl) ltac:(lra)) as C2.
  pose proof (close_add _ _ _ _ _ _ 86402 C1 C2 ltac:(cl) ltac:(lra)) as C3.
  pose proof (close_div _ _ _ 86400 2 C3 ltac:(lia) ltac:(cl) ltac:(lra)) as C4.
  eapply close_weaken; [eapply (close_add _ _ _ _ _ _ 110000003 (close_int n ltac:(lia)) C4)|].
  all: cl.
Qed.

Lemma time_epoch_close t : 0 <= t <= usecs_day ->
  close (fdiv (f64_of_Z t) (f64_of_Z 1000000)) (IZR t / 1000000) (/ 10000000000).
Proof.
  unfold usecs_day. intros H. pose proof (int_range t 86400000000 ltac:(lia)) as A1.
  eapply close_weaken; [eapply (close_div _ _ _ 1000000 86400 (close_int t ltac:(lia)))|]; try lia; cl.
Qed.

Lemma milli_eq s us : (IZR s * 1000 + IZR us / 1000 = IZR (s * 1000000 + us) / 1000)%R.
Proof. rewrite plus_IZR, mult_IZR. field. Qed.
Lemma sec_eq s us : (IZR s + IZR us / 1000000 = IZR (s * 1000000 + us) / 1000000)%R.
Proof. rewrite plus_IZR, mult_IZR. field. Qed.

(** ** Timestamp *)
Definition exactly (x : res f64) (z : Z) : Prop := x = Ok (f64_of_Z z).
Definition within (x : res f64) (r e : R) : Prop := exists f, x = Ok f /\ close f r e.

Lemma ts_parts md t y m d h mi s us n : valid_ts t -> reading (y, m, d) h mi s us t -> day_number (y, m, d) n ->
  let part := timestamp_date_part md t FTUnit in
  exactly (part Hour) h /\ exactly (part Minute) mi /\ exactly (part Day) d /\ exactly (part Month) m /\
  exactly (part Quarter) ((m + 2) / 3) /\
  within (part MicroSec) (IZR (s * 1000000 + us)) 0 /\
  within (part MilliSec) (IZR (s * 1000000 + us) / 1000) (/ 100000000000) /\
  within (part Second) (IZR (s * 1000000 + us) / 1000000) (/ 100000000000000) /\
  within (part JULIAN) (IZR (n + 2451545) + IZR (clock h mi s us) / 86400000000) (/ 50000000) /\
  part Delta = Err EInvalid /\ part Tz = Err EInvalid /\ part TzHour = Err EInvalid /\
  part TzMinute = Err EInvalid /\ part Epoch = Err EInvalid /\
  (forall u, timestamp_date_part md t FTEpoch u = Err EInvalid).
Proof.
  intros VT R N. cbv zeta.
  pose proof (reading_year_bounds _ _ _ _ _ _ R VT) as (JB & Y & _ & Hm & Hd).
  destruct (ts2t_reading md t VT) as (c1 & h1 & mi1 & s1 & us1 & E1 & R1).
  destruct (reading_unique _ _ _ _ _ _ _ _ _ _ _ R R1) as (<- & <- & <- & <- & <-).
  destruct R as (V & C & n' & N' & T). apply day_number_J in N; auto. apply day_number_J in N'; auto.
  unfold clock_ok in C. unfold timestamp_date_part. rewrite (valid_ts_finite t VT). cbn [negb]. rewrite E1. cbn [bind].
  cbn [fst snd tm_sec tm_min tm_hour tm_mday tm_mon tm_year mk]. unfold exactly, within.
  repeat match goal with |- _ /\ _ => split end; try reflexivity; tmcbv.
  - assert (sub32 md m 1 = Ok (m - 1)) as -> by (ar; reflexivity). cbn [bind].
    assert (add32 md (Z.quot (m - 1) 3) 1 = Ok ((m + 2) / 3)) as -> by (ar; f_equal; clear -Hm; lia). reflexivity.
  - eexists. split; [reflexivity|]. apply close_rep. now apply (sec_micro_rep (mk (y, m, d) h mi s)); cbn [mk tm_sec]; lia.
  - eexists. split; [reflexivity|]. rewrite <- milli_eq. apply (sec_milli_close (mk (y, m, d) h mi s)); cbn [mk tm_sec]; lia.
  - eexists. split; [reflexivity|]. rewrite <- sec_eq. apply (sec_sec_close (mk (y, m, d) h mi s)); cbn [mk tm_sec]; lia.
  - rewrite date2julian_ok by lia. cbn [bind].
    change MINS_PER_HOUR with 60. change SECS_PER_MINUTE with 60. change SECS_PER_DAY with 86400.
    assert (mul64 md h 60 = Ok (h * 60)) as -> by (ar; reflexivity). cbn [bind].
    assert (add64 md (h * 60) mi = Ok (h * 60 + mi)) as -> by (ar; reflexivity). cbn [bind].
    assert (mul64 md (h * 60 + mi) 60 = Ok ((h * 60 + mi) * 60)) as -> by (ar; reflexivity). cbn [bind].
    eexists. split; [reflexivity|]. rewrite N. eapply close_eq; [apply julian_close; lia|].
    unfold clock. repeat (rewrite ?plus_IZR, ?mult_IZR). field.
Qed.

(** ** Time *)
Lemma time_parts md t : 0 <= t <= usecs_day ->
  exists h mi s us, 0 <= h <= 24 /\ 0 <= mi < 60 /\ 0 <= s < 60 /\ 0 <= us < 1000000 /\ clock h mi s us = t /\
  let part := time_date_part md t FTUnit in
  exactly (part Hour) h /\ exactly (part Minute) mi /\
  within (part MicroSec) (IZR (s * 1000000 + us)) 0 /\
  within (part MilliSec) (IZR (s * 1000000 + us) / 1000) (/ 100000000000) /\
  within (part Second) (IZR (s * 1000000 + us) / 1000000) (/ 100000000000000) /\
  within (time_date_part md t FTEpoch Epoch) (IZR t / 1000000) (/ 10000000000) /\
  (forall u, match u with Hour | Minute | Second | MilliSec | MicroSec => True | _ => part u = Err EInvalid end) /\
  (forall u, u <> Epoch -> time_date_part md t FTEpoch u = Err EInvalid).
Proof.
  intros H. destruct (time_fields md t H) as (h & mi & s & us & E & Hh & Hmi & Hs & Hus & C & _).
  exists h, mi, s, us. do 5 (split; [assumption|]). cbv zeta. unfold time_date_part. rewrite E. cbn [bind].
  split; [reflexivity|]. split; [reflexivity|].
  split; [eexists; split; [reflexivity|]; apply close_rep; apply sec_micro_rep; cbn [tm_sec]; lia|].
  split; [eexists; split; [reflexivity|]; rewrite <- milli_eq; apply (sec_milli_close (mkTm s mi h 0 0 0 0 0 (-1))); cbn [tm_sec]; lia|].
  split; [eexists; split; [reflexivity|]; rewrite <- sec_eq; apply (sec_sec_close (mkTm s mi h 0 0 0 0 0 (-1))); cbn [tm_sec]; lia|].
  split; [eexists; split; [reflexivity|]; now apply time_epoch_close|].
  split; intros []; try exact I; try reflexivity. congruence.
Qed.

(** ** Interval *)
Lemma interval_parts md a : fields_ok a -> in_i32 (Z.quot (iv_time a) 3600000000) ->
  let part := interval_date_part md a FTUnit in
  let M := iv_month a in let T := iv_time a in
  exactly (part Millennium) (Z.quot M 12000) /\ exactly (part Century) (Z.quot M 1200) /\
  exactly (part Decade) (Z.quot M 120) /\ exactly (part Year) (Z.quot M 12) /\
  exactly (part Quarter) (Z.quot (Z.rem M 12) 3 + 1) /\ exactly (part Month) (Z.rem M 12) /\
  exactly (part Day) (iv_day a) /\ exactly (part Hour) (Z.quot T 3600000000) /\
  exactly (part Minute) (Z.quot (Z.rem T 3600000000) 60000000) /\
  within (part MicroSec) (IZR (Z.rem T 60000000)) 0 /\
  within (part MilliSec) (IZR (Z.rem T 60000000) / 1000) (/ 100000000000) /\
  within (part Second) (IZR (Z.rem T 60000000) / 1000000) (/ 100000000000000) /\
  (forall u, match u with
     | Delta | Week | JULIAN | Dow | IsoDow | Doy | Tz | TzMinute | TzHour | IsoYear | Epoch => part u = Err EInvalid
     | _ => True end).
Proof.
  intros F H. cbv zeta. unfold interval_date_part. rewrite iv_to_pgtime_ok by exact F.
  assert (in32b (Z.quot (iv_time a) 3600000000) = true) as ->.
  { unfold in32b, in_i32 in *. destruct H. apply andb_true_intro. split; apply Z.leb_le; lia. }
  cbn [bind].
  assert (Z.rem (iv_time a) 60000000 = Z.quot (Z.rem (iv_time a) 60000000) 1000000 * 1000000 + iv_us a) as ET.
  { unfold iv_us. clear. lia. }
  assert (Z.abs (Z.quot (Z.rem (iv_time a) 60000000) 1000000) < 60) as Hs by (clear; lia).
  assert (Z.abs (iv_us a) < 1000000) as Hu by (unfold iv_us; clear; lia).
  rewrite ET. change (Z.quot (Z.rem (iv_time a) 60000000) 1000000) with (tm_sec (iv_tm a)) in *.
  rewrite <- milli_eq, <- sec_eq. unfold exactly.
  assert (forall k, 0 < k -> Z.quot (Z.quot (iv_month a) 12) k = Z.quot (iv_month a) (12 * k)) as Q0.
  { intros k Hk. apply Z.quot_quot; lia. }
  pose proof (Q0 1000 eq_refl) as Q1. pose proof (Q0 100 eq_refl) as Q2. pose proof (Q0 10 eq_refl) as Q3. change (12 * 1000) with 12000 in Q1.
  change (12 * 100) with 1200 in Q2. change (12 * 10) with 120 in Q3.
  rewrite <- Q1, <- Q2, <- Q3.
  do 4 (split; [reflexivity|]). split.
  { change (tm_mon (iv_tm a)) with (Z.rem (iv_month a) 12).
    assert (add32 md (Z.quot (Z.rem (iv_month a) 12) 3) 1 = Ok (Z.quot (Z.rem (iv_month a) 12) 3 + 1)) as ->; [|reflexivity].
    assert (Z.abs (Z.rem (iv_month a) 12) < 12) as B by (clear; lia). generalize dependent (Z.rem (iv_month a) 12). intros r Hr.
    clear -Hr. ar. reflexivity. }
  do 4 (split; [reflexivity|]).
  split; [eexists; split; [reflexivity|]; apply close_rep; exact (sec_micro_rep (iv_tm a) (iv_us a) Hs Hu)|].
  split; [eexists; split; [reflexivity|]; exact (sec_milli_close (iv_tm a) (iv_us a) Hs Hu)|].
  split; [eexists; split; [reflexivity|]; exact (sec_sec_close (iv_tm a) (iv_us a) Hs Hu)|].
  intros []; try exact I; reflexivity.
Qed.

Lemma interval_parts_big md a u : fields_ok a -> ~ in_i32 (Z.quot (iv_time a) 3600000000) ->
  interval_date_part md a FTUnit u = Err EOverflow.
Proof.
  intros F H. unfold interval_date_part. rewrite iv_to_pgtime_ok by exact F.
  destruct (in32b (Z.quot (iv_time a) 3600000000)) eqn:E; [|reflexivity]. exfalso. apply H.
  unfold in32b, in_i32 in *. apply andb_prop in E. destruct E as [E1 E2]. apply Z.leb_le in E1, E2. lia.
Qed.

Definition epoch_days (a : interval) : Z :=
  31557600 * Z.quot (iv_month a) 12 + 2592000 * Z.rem (iv_month a) 12 + 86400 * iv_day a.

Lemma rep_spy : rep (fmul f_days_per_year (f64_of_Z SECS_PER_DAY)) (IZR 31557600).
Proof.
  assert (fmul f_days_per_year (f64_of_Z SECS_PER_DAY) = f64_of_Z 31557600) as -> by (vm_compute; reflexivity).
  apply rep_int; lia.
Qed.
Lemma rep_spm : rep (fmul (f64_of_Z DAYS_PER_MONTH) (f64_of_Z SECS_PER_DAY)) (IZR 2592000).
Proof.
  assert (fmul (f64_of_Z DAYS_PER_MONTH) (f64_of_Z SECS_PER_DAY) = f64_of_Z 2592000) as -> by (vm_compute; reflexivity).
  apply rep_int; lia.
Qed.

Lemma interval_epoch_whole md a s : fields_ok a -> iv_time a = s * 1000000 -> Z.abs (iv_time a) <= 2 ^ 53 ->
  within (interval_date_part md a FTEpoch Epoch) (IZR (s + epoch_days a)) 0.
Proof.
  intros (Hm & Hd & Ht) E B. unfold interval_date_part. unit_consts. eexists. split; [reflexivity|]. apply close_rep.
  unfold epoch_days. unfold in_i32, i32_min, i32_max in Hm, Hd.
  assert (Z.abs (Z.quot (iv_month a) 12) <= 178956971) as B1 by (clear -Hm; lia).
  assert (Z.abs (Z.rem (iv_month a) 12) <= 11) as B2 by (clear; lia).
  assert (Z.abs s <= 9007199255) as B3 by (clear -E B; lia).
  replace (s + (31557600 * Z.quot (iv_month a) 12 + 2592000 * Z.rem (iv_month a) 12 + 86400 * iv_day a))
    with (s + 31557600 * Z.quot (iv_month a) 12 + 2592000 * Z.rem (iv_month a) 12 + 86400 * iv_day a) by ring.
  generalize dependent (Z.quot (iv_month a) 12). intros q Hq. generalize dependent (Z.rem (iv_month a) 12). intros r Hr.
  assert (rep (fdiv (f64_of_Z (iv_time a)) (f64_of_Z 1000000)) (IZR s)) as R1.
  { rewrite <- (rnd_int s) by (clear -B3; lia). 
    replace (IZR s) with (IZR (iv_time a) / IZR 1000000)%R by (rewrite E, mult_IZR; field).
    apply rep_div; [apply rep_int; lia|apply rep_int; lia|apply IZR_neq; lia|].
    rewrite E, mult_IZR. replace (IZR s * 1000000 / 1000000)%R with (IZR s) by field. apply int_bound. lia. }
  apply rep_add_int; [apply rep_add_int; [apply rep_add_int; [exact R1|..]|..]|..].
  - apply rep_mul_int; [apply rep_spy|apply rep_int; lia|lia].
  - clear -B3 Hq. lia.
  - apply rep_mul_int; [apply rep_spm|apply rep_int; lia|lia].
  - clear -B3 Hq Hr. lia.
  - apply rep_mul_int; [apply rep_int; lia|apply rep_int; lia|lia].
  - clear -B3 Hq Hr Hd. lia.
Qed.

(** The sum of the sizes of the four components, in seconds. *)
Definition epoch_size (a : interval) : R :=
  (IZR (Z.abs (iv_time a)) / 1000000 +
   IZR (31557600 * Z.abs (Z.quot (iv_month a) 12) + 2592000 * Z.abs (Z.rem (iv_month a) 12) + 86400 * Z.abs (iv_day a)))%R.

Lemma interval_epoch_close md a : fields_ok a ->
  within (interval_date_part md a FTEpoch Epoch) (IZR (iv_time a) / 1000000 + IZR (epoch_days a))
    (epoch_size a / 1000000000000000 + / 100000000000000000000000000000).
Proof.
  intros (Hm & Hd & Ht). unfold interval_date_part. unit_consts. eexists. split; [reflexivity|].
  unfold epoch_days, epoch_size. unfold in_i32, i32_min, i32_max in Hm, Hd. unfold in_i64, i64_min, i64_max in Ht.
  assert (Z.abs (Z.quot (iv_month a) 12) <= 178956971) as B1 by (clear -Hm; lia).
  assert (Z.abs (Z.rem (iv_month a) 12) <= 11) as B2 by (clear; lia).
  generalize dependent (Z.quot (iv_month a) 12). intros q Hq. generalize dependent (Z.rem (iv_month a) 12). intros r Hr.
  pose proof (int_range (iv_time a) 9223372036854775808 ltac:(lia)) as A1.
  pose proof (int_range q 178956971 ltac:(lia)) as A2. pose proof (int_range r 11 ltac:(lia)) as A3.
  pose proof (int_range (iv_day a) 2147483648 ltac:(lia)) as A4.
  rewrite !plus_IZR, !mult_IZR, !abs_IZR.
  assert (forall z, - Rabs (IZR z) <= IZR z <= Rabs (IZR z))%R as AB by (intros z; apply of_rabs; lra).
  pose proof (AB (iv_time a)) as D1. pose proof (AB q) as D2. pose proof (AB r) as D3. pose proof (AB (iv_day a)) as D4. clear AB.
  assert (Rabs (IZR (iv_time a)) <= 9223372036854775808)%R as F1 by now apply Rabs_le.
  assert (Rabs (IZR q) <= 178956971)%R as F2 by now apply Rabs_le.
  assert (Rabs (IZR r) <= 11)%R as F3 by now apply Rabs_le.
  assert (Rabs (IZR (iv_day a)) <= 2147483648)%R as F4 by now apply Rabs_le.
  assert (close (fmul (fmul f_days_per_year (f64_of_Z SECS_PER_DAY)) (f64_of_Z q)) (31557600 * IZR q) 0) as C1.
  { rewrite <- (mult_IZR 31557600). apply close_rep. apply rep_mul_int; [apply rep_spy|apply rep_int; lia|lia]. }
  assert (close (fmul (fmul (f64_of_Z DAYS_PER_MONTH) (f64_of_Z SECS_PER_DAY)) (f64_of_Z r)) (2592000 * IZR r) 0) as C2.
  { rewrite <- (mult_IZR 2592000). apply close_rep. apply rep_mul_int; [apply rep_spm|apply rep_int; lia|lia]. }
  assert (close (fmul (f64_of_Z SECS_PER_DAY) (f64_of_Z (iv_day a))) (86400 * IZR (iv_day a)) 0) as C3.
  { rewrite <- (mult_IZR 86400). apply close_rep. apply rep_mul_int; [apply rep_int; lia|apply rep_int; lia|lia]. }
  set (at_ := Rabs (IZR (iv_time a))) in *. set (aq := Rabs (IZR q)) in *. set (ar := Rabs (IZR r)) in *. set (ad := Rabs (IZR (iv_day a))) in *.
  clearbody at_ aq ar ad.
  pose proof (close_of_Z (iv_time a) at_ ltac:(lra) ltac:(lra)) as C4.
  pose proof (close_div _ _ _ 1000000 (at_ / 1000000 + at_ / 9000000000000000000000 + / 1000000000000000000000000000000) C4
    ltac:(lia) ltac:(cl) ltac:(lra)) as C5.
  set (M := (at_ / 1000000 + (31557600 * aq + 2592000 * ar + 86400 * ad))%R).
  assert (0 <= M <= 7000000000000000)%R as HM by (unfold M; lra).
  set (B := (M + M / 900000000000000 + / 100000000000000000000000000000)%R).
  assert (0 <= B <= 8000000000000000)%R as HB by (unfold B; lra).
  pose proof (close_add _ _ _ _ _ _ B C5 C1 ltac:(unfold B, M; cl) ltac:(lra)) as C6.
  pose proof (close_add _ _ _ _ _ _ B C6 C2 ltac:(unfold B, M; cl) ltac:(lra)) as C7.
  pose proof (close_add _ _ _ _ _ _ B C7 C3 ltac:(unfold B, M; cl) ltac:(lra)) as C8.
  eapply close_weaken; [eapply close_eq; [exact C8|ring]|]. unfold B, M; cl.
Qed.
