(** C53, C54: clock and calendar parts. [exactly x z] says x is the double of the integer z;
    [within x r e] says x is a finite double at most e away from the real number r. *)
From Coq Require Import ZArith List Lia Reals Lra.
From Verif Require Import Model.DateTime Spec.Calendar Spec.Ranges Spec.Clock Spec.IntervalS
  Proofs.Arith Proofs.Cal Proofs.DateP Proofs.TsP Proofs.FloatP Proofs.PartsP.
Import ListNotations.
Open Scope Z_scope.

(** C53. [within x r 0] means the double is exactly r. JULIAN is the Julian day number of the day
    plus the fraction of the day elapsed. *)
Theorem C53_timestamp : forall md t y m d h mi s us n,
  valid_ts t -> reading (y, m, d) h mi s us t -> day_number (y, m, d) n ->
  let part := timestamp_date_part md t FTUnit in
  part Hour = Ok (f64_of_Z h) /\ part Minute = Ok (f64_of_Z mi) /\ part Day = Ok (f64_of_Z d) /\
  part Month = Ok (f64_of_Z m) /\ part Quarter = Ok (f64_of_Z ((m + 2) / 3)) /\
  within (part MicroSec) (IZR (s * 1000000 + us)) 0 /\
  within (part MilliSec) (IZR (s * 1000000 + us) / 1000) (/ 100000000000) /\
  within (part Second) (IZR (s * 1000000 + us) / 1000000) (/ 100000000000000) /\
  within (part JULIAN) (IZR (n + 2451545) + IZR (clock h mi s us) / 86400000000) (/ 50000000).
Proof.
  intros md t y m d h mi s us n V R N. destruct (ts_parts md t y m d h mi s us n V R N) as (?&?&?&?&?&?&?&?&?&_). repeat split; assumption.
Qed.
Print Assumptions C53_timestamp.
(** The units with no meaning for a timestamp, and every unit of field type epoch, are refused. *)
Theorem C53_refused : forall md t u, valid_ts t ->
  timestamp_date_part md t FTEpoch u = Err EInvalid /\
  (In u [Delta; Tz; TzHour; TzMinute; Epoch] -> timestamp_date_part md t FTUnit u = Err EInvalid).
Proof.
  intros md t u V. destruct (ts2t_reading md t V) as ([[y m] d] & h & mi & s & us & _ & R).
  destruct (R) as (Vd & _ & n & N & _).
  destruct (ts_parts md t y m d h mi s us n V R N) as (_&_&_&_&_&_&_&_&_&P1&P2&P3&P4&P5&P6). split; [apply P6|].
  intros U. cbn in U. repeat destruct U as [<-|U]; try assumption. contradiction.
Qed.
Print Assumptions C53_refused.
(** The same for a time of day; 24:00:00 has hour 24. *)
Theorem C53_time : forall md t, 0 <= t <= usecs_day ->
  exists h mi s us, 0 <= h <= 24 /\ 0 <= mi < 60 /\ 0 <= s < 60 /\ 0 <= us < 1000000 /\ clock h mi s us = t /\
  let part := time_date_part md t FTUnit in
  part Hour = Ok (f64_of_Z h) /\ part Minute = Ok (f64_of_Z mi) /\
  within (part MicroSec) (IZR (s * 1000000 + us)) 0 /\
  within (part MilliSec) (IZR (s * 1000000 + us) / 1000) (/ 100000000000) /\
  within (part Second) (IZR (s * 1000000 + us) / 1000000) (/ 100000000000000) /\
  within (time_date_part md t FTEpoch Epoch) (IZR t / 1000000) (/ 10000000000) /\
  (forall u, match u with Hour | Minute | Second | MilliSec | MicroSec => True | _ => part u = Err EInvalid end) /\
  (forall u, u <> Epoch -> time_date_part md t FTEpoch u = Err EInvalid).
Proof. exact time_parts. Qed.
Print Assumptions C53_time.
(** The doubles are close enough to tell any two microseconds apart. *)
Theorem C53_second_exact : forall md t t' y m d h mi s us y' m' d' h' mi' s' us',
  valid_ts t -> valid_ts t' -> reading (y, m, d) h mi s us t -> reading (y', m', d') h' mi' s' us' t' ->
  timestamp_date_part md t FTUnit Second = timestamp_date_part md t' FTUnit Second -> s = s' /\ us = us'.
Proof.
  intros md t t' y m d h mi s us y' m' d' h' mi' s' us' V V' R R' E.
  destruct (R) as (_ & C & n & N & _). destruct (R') as (_ & C' & n' & N' & _).
  destruct (C53_timestamp md t _ _ _ _ _ _ _ _ V R N) as (_&_&_&_&_&_&_&(f & Ef & v & Rv & Hv)&_).
  destruct (C53_timestamp md t' _ _ _ _ _ _ _ _ V' R' N') as (_&_&_&_&_&_&_&(f' & Ef' & v' & Rv' & Hv')&_).
  rewrite Ef, Ef' in E. injection E as <-. destruct Rv as (b & _ & Eb & <-). destruct Rv' as (b' & _ & Eb' & <-).
  assert (b' = b) as -> by (apply BinarySingleNaN.B2SF_inj; congruence).
  apply of_rabs in Hv, Hv'.
  assert (s * 1000000 + us = s' * 1000000 + us') as Q.
  { apply Z.le_antisymm; apply Z.lt_succ_r, lt_IZR; rewrite succ_IZR; lra. }
  unfold clock_ok in *. lia.
Qed.
Print Assumptions C53_second_exact.
Example C53_ex : (* 2020-02-01 13:45:06.789 *)
  let t := 633879906789000 in
  valid_ts t /\ reading (2020, 2, 1) 13 45 6 789000 t /\ timestamp_date_part Debug t FTUnit Hour = Ok (f64_of_Z 13) /\
  timestamp_date_part Debug t FTUnit Quarter = Ok (f64_of_Z 1) /\
  timestamp_date_part Debug t FTUnit MilliSec = Ok (f64_of_Z 6789) /\
  timestamp_date_part Debug t FTUnit Second = Ok (fdiv (f64_of_Z 6789) (f64_of_Z 1000)) /\
  time_date_part Debug usecs_day FTUnit Hour = Ok (f64_of_Z 24) /\
  timestamp_date_part Debug (43200000000) FTUnit JULIAN = Ok (fdiv (f64_of_Z 4903091) (f64_of_Z 2)).
Proof.
  cbv zeta. split; [unfold valid_ts; lia|]. split.
  { assert (valid_ymd (2020, 2, 1)) as V by (unfold valid_ymd; vm_compute; intuition congruence).
    split; [exact V|]. split; [unfold clock_ok; lia|]. exists 7336. split; [|unfold clock, usecs_day; lia].
    apply day_number_J; [exact V|vm_compute; reflexivity]. }
  repeat (split; [vm_compute; reflexivity|]). vm_compute; reflexivity.
Qed.

(** C54. The parts of an interval all carry its sign and recombine to it. *)
Theorem C54_parts : forall md a, fields_ok a -> in_i32 (Z.quot (iv_time a) 3600000000) ->
  let part := interval_date_part md a FTUnit in
  let M := iv_month a in let T := iv_time a in
  part Millennium = Ok (f64_of_Z (Z.quot M 12000)) /\ part Century = Ok (f64_of_Z (Z.quot M 1200)) /\
  part Decade = Ok (f64_of_Z (Z.quot M 120)) /\ part Year = Ok (f64_of_Z (Z.quot M 12)) /\
  part Quarter = Ok (f64_of_Z (Z.quot (Z.rem M 12) 3 + 1)) /\ part Month = Ok (f64_of_Z (Z.rem M 12)) /\
  part Day = Ok (f64_of_Z (iv_day a)) /\ part Hour = Ok (f64_of_Z (Z.quot T 3600000000)) /\
  part Minute = Ok (f64_of_Z (Z.quot (Z.rem T 3600000000) 60000000)) /\
  within (part MicroSec) (IZR (Z.rem T 60000000)) 0 /\
  within (part MilliSec) (IZR (Z.rem T 60000000) / 1000) (/ 100000000000) /\
  within (part Second) (IZR (Z.rem T 60000000) / 1000000) (/ 100000000000000) /\
  (forall u, match u with
     | Delta | Week | JULIAN | Dow | IsoDow | Doy | Tz | TzMinute | TzHour | IsoYear | Epoch => part u = Err EInvalid
     | _ => True end).
Proof. exact interval_parts. Qed.
Print Assumptions C54_parts.
Theorem C54_recombine : forall md a, fields_ok a -> in_i32 (Z.quot (iv_time a) 3600000000) ->
  exists y mo d h mi us,
  interval_date_part md a FTUnit Year = Ok (f64_of_Z y) /\ interval_date_part md a FTUnit Month = Ok (f64_of_Z mo) /\
  interval_date_part md a FTUnit Day = Ok (f64_of_Z d) /\ interval_date_part md a FTUnit Hour = Ok (f64_of_Z h) /\
  interval_date_part md a FTUnit Minute = Ok (f64_of_Z mi) /\ within (interval_date_part md a FTUnit MicroSec) (IZR us) 0 /\
  iv_month a = y * 12 + mo /\ iv_day a = d /\ iv_time a = clock h mi 0 us /\
  Z.abs mo < 12 /\ Z.abs mi < 60 /\ Z.abs us < 60000000 /\
  (0 <= iv_month a -> 0 <= y /\ 0 <= mo) /\ (iv_month a <= 0 -> y <= 0 /\ mo <= 0) /\
  (0 <= iv_time a -> 0 <= h /\ 0 <= mi /\ 0 <= us) /\ (iv_time a <= 0 -> h <= 0 /\ mi <= 0 /\ us <= 0).
Proof.
  intros md a F H. destruct (interval_parts md a F H) as (_&_&_&P1&_&P2&P3&P4&P5&P6&_).
  do 6 eexists. do 6 (split; [eassumption|]). unfold clock. clear. repeat split; lia.
Qed.
Print Assumptions C54_recombine.
(** Intervals of more than i32::MAX hours have no parts at all, not even their years. *)
Theorem C54_big : forall md a u, fields_ok a -> ~ in_i32 (Z.quot (iv_time a) 3600000000) ->
  interval_date_part md a FTUnit u = Err EOverflow.
Proof. exact interval_parts_big. Qed.
Print Assumptions C54_big.
(** The epoch counts 365.25 days to a year and 30 days to a left-over month. It is exact for whole
    seconds, *)
Theorem C54_epoch_whole : forall md a s, fields_ok a -> iv_time a = s * 1000000 -> Z.abs (iv_time a) <= 2 ^ 53 ->
  within (interval_date_part md a FTEpoch Epoch)
    (IZR (s + (31557600 * Z.quot (iv_month a) 12 + 2592000 * Z.rem (iv_month a) 12 + 86400 * iv_day a))) 0.
Proof. exact interval_epoch_whole. Qed.
Print Assumptions C54_epoch_whole.
(** and has fifteen correct digits otherwise. *)
Theorem C54_epoch : forall md a, fields_ok a ->
  within (interval_date_part md a FTEpoch Epoch)
    (IZR (iv_time a) / 1000000 +
     IZR (31557600 * Z.quot (iv_month a) 12 + 2592000 * Z.rem (iv_month a) 12 + 86400 * iv_day a))
    ((IZR (Z.abs (iv_time a)) / 1000000 +
      IZR (31557600 * Z.abs (Z.quot (iv_month a) 12) + 2592000 * Z.abs (Z.rem (iv_month a) 12) + 86400 * Z.abs (iv_day a)))
       / 1000000000000000 + / 100000000000000000000000000000).
Proof. exact interval_epoch_close. Qed.
Print Assumptions C54_epoch.
Example C54_ex : (* -1 year -4 months, 3 days, 26:05:04.5 *)
  let a := from_mdt (-16) 3 93904500000 in
  fields_ok a /\ in_i32 (Z.quot (iv_time a) 3600000000) /\
  interval_date_part Debug a FTUnit Year = Ok (f64_of_Z (-1)) /\ interval_date_part Debug a FTUnit Quarter = Ok (f64_of_Z 0) /\
  interval_date_part Debug a FTUnit Hour = Ok (f64_of_Z 26) /\
  interval_date_part Debug (from_mdt (-16) 3 93904000000) FTEpoch Epoch = Ok (f64_of_Z (93904 - 31557600 - 4 * 2592000 + 3 * 86400)) /\
  ~ in_i32 (Z.quot (iv_time (from_mdt 0 0 9000000000000000000)) 3600000000).
Proof.
  cbv zeta. split; [unfold fields_ok, in_i32, in_i64, i32_min, i32_max, i64_min, i64_max; cbn; lia|].
  split; [unfold in_i32; cbn; vm_compute; intuition congruence|].
  repeat (split; [vm_compute; reflexivity|]). unfold in_i32. vm_compute. intuition congruence.
Qed.
