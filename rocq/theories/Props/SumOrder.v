(** Adding intervals keeps the order of instants and of intervals: C69. *)
From Verif Require Import Model.DateTime Spec.Calendar Spec.Ranges Spec.Clock Spec.Shift Spec.SumOrder
  Proofs.Cal Proofs.DateP Proofs.TsP Proofs.AddP Proofs.SumOrderP.
From Coq Require Import ZArith Lia.
Open Scope Z_scope.

(** The sum that the library computes is [calendar_sum], wherever that exists. *)
Theorem C69_sum : forall md t months days time r, in_i32 months -> in_i32 days -> in_i64 time ->
  calendar_sum t months days time r -> timestamp_add_interval md t (from_mdt months days time) = Ok r.
Proof. exact sum_ok. Qed.
Print Assumptions C69_sum.

(** At the same time of day, and so for dates, a later instant stays at least as late; without
    months the distance is kept exactly. *)
Theorem C69_same_clock : forall md a b months days time ra rb,
  in_i32 months -> in_i32 days -> in_i64 time ->
  calendar_sum a months days time ra -> calendar_sum b months days time rb ->
  a mod usecs_day = b mod usecs_day -> a <= b ->
  timestamp_add_interval md a (from_mdt months days time) = Ok ra
  /\ timestamp_add_interval md b (from_mdt months days time) = Ok rb /\ ra <= rb.
Proof.
  intros md a b months days time ra rb Hm Hd Ht A B E L. split; [now apply sum_ok|]. split; [now apply sum_ok|].
  destruct (sum_days a b months days time ra rb A B) as (x & y & Y & -> & X); [apply Z.div_le_mono; [reflexivity|auto]|].
  unfold usecs_day in *. lia.
Qed.
Print Assumptions C69_same_clock.

Theorem C69_dates : forall md a b months days time ra rb,
  in_i32 months -> in_i32 days -> in_i64 time -> ts_date a -> ts_date b ->
  calendar_sum (a * usecs_day) months days time ra -> calendar_sum (b * usecs_day) months days time rb -> a <= b ->
  date_add_interval md a (from_mdt months days time) = Ok ra
  /\ date_add_interval md b (from_mdt months days time) = Ok rb /\ ra <= rb.
Proof.
  intros md a b months days time ra rb Hm Hd Ht Da Db A B L.
  destruct (C69_same_clock md _ _ _ _ _ _ _ Hm Hd Ht A B) as (E1 & E2 & E3).
  - now rewrite !Z.mod_mul by discriminate.
  - unfold usecs_day. lia.
  - unfold date_add_interval. rewrite !ts_of_date_ok by auto. cbn [bind]. auto.
Qed.
Print Assumptions C69_dates.

Theorem C69_no_months : forall md a b days time ra rb,
  in_i32 days -> in_i64 time -> calendar_sum a 0 days time ra -> calendar_sum b 0 days time rb ->
  timestamp_add_interval md a (from_mdt 0 days time) = Ok ra
  /\ timestamp_add_interval md b (from_mdt 0 days time) = Ok rb /\ ra - rb = a - b.
Proof.
  intros md a b days time ra rb Hd Ht A B. assert (in_i32 0) by (unfold in_i32, i32_min, i32_max; lia).
  split; [now apply sum_ok|]. split; [now apply sum_ok|].
  destruct A as (c & h & mi & s & us & t1 & R & R1 & _ & _ & _ & _ & ->).
  destruct B as (c' & h' & mi' & s' & us' & t1' & R' & R1' & _ & _ & _ & _ & ->).
  assert (valid_ymd c /\ valid_ymd c') as [V V'] by (destruct R, R'; auto).
  rewrite add_months_0 in R1, R1' by auto.
  rewrite (reading_fun _ _ _ _ _ _ _ R1 R), (reading_fun _ _ _ _ _ _ _ R1' R'). lia.
Qed.
Print Assumptions C69_no_months.

(** In general the order can be reversed only by less than a day. *)
Theorem C69_within_a_day : forall md a b months days time ra rb,
  in_i32 months -> in_i32 days -> in_i64 time ->
  calendar_sum a months days time ra -> calendar_sum b months days time rb -> a <= b ->
  timestamp_add_interval md a (from_mdt months days time) = Ok ra
  /\ timestamp_add_interval md b (from_mdt months days time) = Ok rb /\ ra < rb + usecs_day.
Proof.
  intros md a b months days time ra rb Hm Hd Ht A B L. split; [now apply sum_ok|]. split; [now apply sum_ok|].
  destruct (sum_days a b months days time ra rb A B) as (x & y & Y & -> & X); [apply Z.div_le_mono; [reflexivity|auto]|].
  pose proof (Z.mod_pos_bound a usecs_day eq_refl). pose proof (Z.mod_pos_bound b usecs_day eq_refl).
  unfold usecs_day in *. lia.
Qed.
Print Assumptions C69_within_a_day.
(** It does happen: 30 January 11:00 is before 31 January 10:00, but a month later it is after. *)
Theorem C69_reversed_refuted : exists a b ra rb, a < b /\ rb < ra
  /\ calendar_sum a 1 0 0 ra /\ calendar_sum b 1 0 0 rb
  /\ forall md, timestamp_add_interval md a (from_mdt 1 0 0) = Ok ra /\ timestamp_add_interval md b (from_mdt 1 0 0) = Ok rb.
Proof.
  exists (395 * usecs_day + 39600000000), (396 * usecs_day + 36000000000), (424 * usecs_day + 39600000000), (424 * usecs_day + 36000000000).
  assert (D : forall c n, valid_ymd c -> J c = n + 2451545 -> day_number c n) by (intros; now apply day_number_J).
  split; [reflexivity|]. split; [reflexivity|]. split; [|split].
  - exists (2001, 1, 30), 11, 0, 0, 0, (424 * usecs_day + 39600000000).
    split; [|split; [|unfold valid_ts, usecs_day; lia]]; (split; [vm_compute; intuition congruence|]; split; [unfold clock_ok; lia|]).
    + exists 395. split; [apply D; vm_compute; intuition congruence|reflexivity].
    + exists 424. split; [apply D; vm_compute; intuition congruence|reflexivity].
  - exists (2001, 1, 31), 10, 0, 0, 0, (424 * usecs_day + 36000000000).
    split; [|split; [|unfold valid_ts, usecs_day; lia]]; (split; [vm_compute; intuition congruence|]; split; [unfold clock_ok; lia|]).
    + exists 396. split; [apply D; vm_compute; intuition congruence|reflexivity].
    + exists 424. split; [apply D; vm_compute; intuition congruence|reflexivity].
  - intros []; vm_compute; auto.
Qed.
Print Assumptions C69_reversed_refuted.

(** Adding more gives a later instant. *)
Theorem C69_longer : forall md t m d u m' d' u' r r',
  in_i32 m -> in_i32 d -> in_i64 u -> in_i32 m' -> in_i32 d' -> in_i64 u' ->
  calendar_sum t m d u r -> calendar_sum t m' d' u' r' -> m <= m' -> d <= d' -> u <= u' ->
  timestamp_add_interval md t (from_mdt m d u) = Ok r
  /\ timestamp_add_interval md t (from_mdt m' d' u') = Ok r' /\ r <= r'.
Proof.
  intros md t m d u m' d' u' r r' H1 H2 H3 H4 H5 H6 A B Lm Ld Lu. split; [now apply sum_ok|]. split; [now apply sum_ok|].
  destruct A as (c & h & mi & s & us & t1 & R & (V1 & _ & n1 & N1 & ->) & _ & _ & _ & _ & ->).
  destruct B as (c' & h' & mi' & s' & us' & t1' & R' & (V1' & _ & n1' & N1' & ->) & _ & _ & _ & _ & ->).
  destruct (reading_unique _ _ _ _ _ _ _ _ _ _ _ R R') as (<- & <- & <- & <- & <-).
  assert (n1 <= n1'); [|unfold usecs_day; lia].
  apply (day_le (add_months c m) (add_months c m')); auto. apply add_months_more; auto. now destruct R.
Qed.
Print Assumptions C69_longer.

(** Up to day 28 months add up, so subtracting undoes adding; from day 29 on they need not. *)
Theorem C69_months_add_up : forall md t j k r r' d, in_i32 j -> in_i32 k -> in_i32 (j + k) ->
  month_day t d -> d <= 28 -> calendar_sum t j 0 0 r -> calendar_sum r k 0 0 r' ->
  timestamp_add_interval md t (from_mdt j 0 0) = Ok r
  /\ timestamp_add_interval md r (from_mdt k 0 0) = Ok r'
  /\ timestamp_add_interval md t (from_mdt (j + k) 0 0) = Ok r'.
Proof.
  intros md t j k r r' d Hj Hk Hjk (y & m & h0 & mi0 & s0 & us0 & M) D A B.
  assert (in_i32 0 /\ in_i64 0) as [I I'] by (unfold in_i32, in_i64, i32_min, i32_max, i64_min, i64_max; lia).
  split; [now apply sum_ok|]. split; [now apply sum_ok|]. apply sum_ok; auto.
  destruct A as (c & h & mi & s & us & t1 & R & R1 & V & V1 & _ & _ & E).
  destruct B as (c' & h' & mi' & s' & us' & t1' & R' & R1' & V' & V1' & _ & _ & E').
  replace (t1 + 0 * usecs_day + 0) with t1 in E by lia. replace (t1' + 0 * usecs_day + 0) with t1' in E' by lia. subst r r'.
  destruct (reading_unique _ _ _ _ _ _ _ _ _ _ _ M R) as (<- & -> & -> & -> & ->).
  destruct (reading_unique _ _ _ _ _ _ _ _ _ _ _ R1 R') as (<- & <- & <- & <- & <-).
  rewrite add_months_twice in R1' by (auto; now destruct M).
  exists (y, m, d), h, mi, s, us, t1'. replace (t1' + 0 * usecs_day + 0) with t1' by lia.
  replace (t1' + 0 * usecs_day) with t1' by lia. auto 10.
Qed.
Print Assumptions C69_months_add_up.
Theorem C69_undo : forall md t k r d, in_i32 k -> in_i32 (- k) -> month_day t d -> d <= 28 ->
  calendar_sum t k 0 0 r ->
  timestamp_add_interval md t (from_mdt k 0 0) = Ok r /\ timestamp_sub_interval md r (from_mdt k 0 0) = Ok t.
Proof.
  intros md t k r d Hk Hnk M D A. assert (in_i32 0 /\ in_i64 0) as [I I'] by (unfold in_i32, in_i64, i32_min, i32_max, i64_min, i64_max; lia).
  split; [now apply sum_ok|]. unfold timestamp_sub_interval.
  rewrite negate_spec by auto. cbn [from_mdt iv_month iv_day iv_time].
  destruct (Z.eqb_spec k i32_min); [unfold in_i32, i32_min, i32_max in *; lia|]. cbn [orb Z.eqb i32_min i64_min Z.opp].
  cbn [bind]. change (Z.opp 0) with 0.
  destruct M as (y & m & h0 & mi0 & s0 & us0 & M). pose proof M as (V & _).
  destruct A as (c & h & mi & s & us & t1 & R & R1 & Vt & V1 & _ & _ & E).
  replace (t1 + 0 * usecs_day + 0) with t1 in E by lia. subst r.
  destruct (reading_unique _ _ _ _ _ _ _ _ _ _ _ M R) as (<- & -> & -> & -> & ->).
  apply sum_ok; auto. exists (add_months (y, m, d) k), h, mi, s, us, t.
  rewrite add_months_twice, Z.add_opp_diag_r, add_months_0 by auto.
  replace (t + 0 * usecs_day + 0) with t by lia. replace (t + 0 * usecs_day) with t by lia. auto 10.
Qed.
Print Assumptions C69_undo.
(** 31 January 2001 and one month, twice, is 28 March; and two months at once 31 March. *)
Theorem C69_add_up_refuted : forall md,
  timestamp_add_interval md (396 * usecs_day) (from_mdt 1 0 0) = Ok (424 * usecs_day)
  /\ timestamp_add_interval md (424 * usecs_day) (from_mdt 1 0 0) = Ok (452 * usecs_day)
  /\ timestamp_add_interval md (396 * usecs_day) (from_mdt 2 0 0) = Ok (455 * usecs_day)
  /\ timestamp_sub_interval md (424 * usecs_day) (from_mdt 1 0 0) = Ok (393 * usecs_day).
Proof. intros []; vm_compute; auto. Qed.
Print Assumptions C69_add_up_refuted.

(** 28 January 2001 satisfies the conditions, for one month, two days and three microseconds. *)
Example C69_case : calendar_sum (393 * usecs_day) 1 2 3 (426 * usecs_day + 3) /\ month_day (393 * usecs_day) 28.
Proof.
  assert (D : forall c n, valid_ymd c -> J c = n + 2451545 -> day_number c n) by (intros; now apply day_number_J).
  assert (R : reading (2001, 1, 28) 0 0 0 0 (393 * usecs_day)).
  { split; [vm_compute; intuition congruence|]. split; [unfold clock_ok; lia|]. exists 393. split; [apply D; vm_compute; intuition congruence|reflexivity]. }
  split; [|now exists 2001, 1, 0, 0, 0, 0].
  exists (2001, 1, 28), 0, 0, 0, 0, (424 * usecs_day). split; [exact R|]. split; [|unfold valid_ts, usecs_day; lia].
  split; [vm_compute; intuition congruence|]. split; [unfold clock_ok; lia|]. exists 424. split; [apply D; vm_compute; intuition congruence|reflexivity].
Qed.
