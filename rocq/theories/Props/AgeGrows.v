(** C75: how an age grows with time. *)
From Coq Require Import ZArith Lia.
From Verif Require Import Model.DateTime Spec.Calendar Spec.Ranges Spec.Clock Spec.Shift Spec.IntervalS
  Proofs.Arith Proofs.Cal Proofs.AddP Proofs.TsP Proofs.AgeP Proofs.AgeBackP Proofs.AgeGrowsP.
Open Scope Z_scope.

(** C75. Over the same timestamp a later one never has fewer months of age, in whatever order the
    three lie. *)
Theorem C75_months : forall md a a' b r r', valid_ts a -> valid_ts a' -> valid_ts b -> a <= a' ->
  timestamp_age md a b = Ok r -> timestamp_age md a' b = Ok r' -> iv_month r <= iv_month r'.
Proof. intros. now apply (age_grow md a a' b r r'). Qed.
Print Assumptions C75_months.
(** The months of an age are the number of anniversaries passed: [k] months after [b] is not later
    than [a] whenever the age has [k] months, and only then if [b] lies in the first 28 days of its
    month. *)
Theorem C75_anniversary : forall md a b r k b' y m d h mi s us,
  valid_ts a -> valid_ts b -> b <= a -> in_i32 k -> reading (y, m, d) h mi s us b ->
  timestamp_age md a b = Ok r -> timestamp_add_interval md b (from_mdt k 0 0) = Ok b' ->
  (k <= iv_month r -> b' <= a) /\ (d <= 28 -> b' <= a -> k <= iv_month r).
Proof.
  intros md a b r k b' y m d h mi s us Va Vb L Hk R E EB.
  pose proof R as (Vc & C & _). pose proof Vc as [Vm Vd].
  assert (b' = instant (add_months (y, m, d) k) (clock h mi s us)) as ->.
  { set (t1 := instant (add_months (y, m, d) k) (clock h mi s us)).
    assert (in_i32 0 /\ in_i64 0) as [Z1 Z2] by (rng; lia).
    assert (valid_ts t1 \/ ~ valid_ts t1) as [V1|V1] by (unfold valid_ts; lia).
    - pose proof (add_interval_ok md (y, m, d) h mi s us b k 0 0 Vb Hk Z1 Z2 R) as X. cbv zeta in X. fold t1 in X.
      replace (t1 + 0 * usecs_day + 0) with t1 in X by lia. replace (t1 + 0 * usecs_day) with t1 in X by lia.
      rewrite X in EB by exact V1. now injection EB.
    - destruct (add_interval_err md (y, m, d) h mi s us b k 0 0 Vb Hk Z1 Z2 R (or_introl V1)) as [e EE].
      rewrite EE in EB. discriminate. }
  rewrite instant_months.
  destruct (at_mdt_ex md a Va) as (n1 & d1 & c1 & A & _).
  assert (at_mdt b (12 * y + (m - 1)) d (clock h mi s us)) as B.
  { unfold at_mdt. destruct (m0_ym y m Vm) as [P1 P2]. rewrite P1, P2.
    pose proof (reading_instant _ _ _ _ _ _ R) as I. unfold instant in I. rewrite J_day in I.
    pose proof (clock_bounds _ _ _ _ C). lia. }
  destruct (age_anniversary md a b r _ _ _ _ _ _ k Va Vb L E A B) as [H1 H2].
  split; [exact H1|]. intros D K. apply H2; [exact K|].
  pose proof (ml_bounds (12 * y + (m - 1) + k)). lia.
Qed.
Print Assumptions C75_anniversary.
(** Over a timestamp in a month of 31 days a later timestamp has the larger age, compared by months,
    then days, then time. *)
Theorem C75_fields : forall md a a' b r r' y m d h mi s us,
  valid_ts a -> valid_ts a' -> valid_ts b -> b <= a -> a <= a' ->
  reading (y, m, d) h mi s us b -> month_len y m = 31 ->
  timestamp_age md a b = Ok r -> timestamp_age md a' b = Ok r' ->
  iv_month r < iv_month r' \/ iv_month r = iv_month r' /\
    (iv_day r < iv_day r' \/ iv_day r = iv_day r' /\ iv_time r <= iv_time r').
Proof.
  intros md a a' b r r' y m d h mi s us Va Va' Vb L L' R M E E'.
  pose proof R as (Vc & C & _). pose proof Vc as [Vm Vd]. destruct (m0_ym y m Vm) as [P1 P2].
  apply (age_grow_31 md a a' b r r' (12 * y + (m - 1)) d (clock h mi s us)); auto; [|lia].
  unfold at_mdt. rewrite P1, P2. pose proof (reading_instant _ _ _ _ _ _ R) as I.
  unfold instant in I. rewrite J_day in I. pose proof (clock_bounds _ _ _ _ C). lia.
Qed.
Print Assumptions C75_fields.
(** Whatever the dates, an age falls behind an earlier one by less than three days, counting a month
    as 30 days as the order of intervals does. *)
Theorem C75_span : forall md a a' b r r', valid_ts a -> valid_ts a' -> valid_ts b -> a <= a' ->
  timestamp_age md a b = Ok r -> timestamp_age md a' b = Ok r' ->
  span_of r < span_of r' + 3 * usecs_day.
Proof. intros md a a' b r r' Va Va' Vb L E E'. now apply (age_grow md a a' b r r'). Qed.
Print Assumptions C75_span.
(** Finding: it does fall behind, and by as much as that. Over 10 February 2021 the last microsecond
    of 31 May has an age of 3 months, 21 days and all but a microsecond of a day, and 1 June has one
    of 3 months and 19 days. *)
Theorem C75_grow_refuted : exists a a' b r r', valid_ts a /\ valid_ts a' /\ valid_ts b /\ b <= a /\ a < a' /\
  forall md, timestamp_age md a b = Ok r /\ timestamp_age md a' b = Ok r' /\ interval_cmp r' r = Lt /\
    span_of r = span_of r' + 3 * usecs_day - 1.
Proof.
  exists (7822 * usecs_day - 1), (7822 * usecs_day), (7711 * usecs_day),
    (from_mdt 3 21 86399999999), (from_mdt 3 19 0).
  unfold valid_ts, usecs_day. split; [lia|]. split; [lia|]. split; [lia|]. split; [lia|]. split; [lia|].
  intros []; repeat split; vm_compute; reflexivity.
Qed.
Print Assumptions C75_grow_refuted.
(** The order of intervals can fall even for months of 31 days: noon on 31 January over 1 January is
    30 days and 12 hours, and 1 February is one month. *)
Theorem C75_order_refuted : exists a a' b r r', valid_ts a /\ valid_ts a' /\ valid_ts b /\ b <= a /\ a < a' /\
  reading (2021, 1, 1) 0 0 0 0 b /\
  forall md, timestamp_age md a b = Ok r /\ timestamp_age md a' b = Ok r' /\ interval_cmp r' r = Lt.
Proof.
  exists (7701 * usecs_day + 43200000000), (7702 * usecs_day), (7671 * usecs_day),
    (from_mdt 0 30 43200000000), (from_mdt 1 0 0).
  unfold valid_ts, usecs_day. split; [lia|]. split; [lia|]. split; [lia|]. split; [lia|]. split; [lia|].
  split; [apply (instant_reading (2021, 1, 1) 0 0 0 0); [vm_compute; intuition discriminate|unfold clock_ok; lia]|].
  intros []; repeat split; vm_compute; reflexivity.
Qed.
Print Assumptions C75_order_refuted.
(** Someone born on 29 February 2000 is 20 years old on 1 March 2020, and 12 on 28 February 2013. *)
Example C75_ex :
  timestamp_age Debug (7365 * usecs_day) (59 * usecs_day) = Ok (from_mdt 240 1 0) /\
  timestamp_age Debug (4807 * usecs_day) (59 * usecs_day) = Ok (from_mdt 155 28 0) /\
  timestamp_add_interval Debug (59 * usecs_day) (from_mdt 240 0 0) = Ok (7364 * usecs_day).
Proof. repeat split; vm_compute; reflexivity. Qed.
(** The hypotheses hold of 15 January 2021 12:30, 1 March and 1 April of that year. *)
Example C75_ex_hyps :
  let b := 7685 * usecs_day + 45000000000 in let a := 7730 * usecs_day in let a' := 7761 * usecs_day in
  valid_ts a /\ valid_ts a' /\ valid_ts b /\ b <= a <= a' /\ reading (2021, 1, 15) 12 30 0 0 b /\ month_len 2021 1 = 31 /\
  timestamp_age Debug a b = Ok (from_mdt 1 16 41400000000) /\
  timestamp_age Debug a' b = Ok (from_mdt 2 16 41400000000) /\
  timestamp_add_interval Debug b (from_mdt 1 0 0) = Ok (7716 * usecs_day + 45000000000).
Proof.
  cbv zeta. unfold valid_ts, usecs_day. split; [lia|]. split; [lia|]. split; [lia|]. split; [lia|].
  split; [apply (instant_reading (2021, 1, 15) 12 30 0 0); [vm_compute; intuition discriminate|unfold clock_ok; lia]|].
  repeat split; vm_compute; reflexivity.
Qed.
