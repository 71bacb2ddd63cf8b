(** C73: taking an age off again. *)
From Coq Require Import ZArith Lia.
From Verif Require Import Model.DateTime Spec.Calendar Spec.Ranges Spec.Clock
  Proofs.Arith Proofs.AddP Proofs.TsP Proofs.AgeP Proofs.AgeBackP.
Open Scope Z_scope.

(** C73. The age of [a] over [b], taken off [a], gives [b] back exactly when [a] lies in the first
    28 days of a month. *)
Theorem C73_sub_age : forall md a b r y m d h mi s us,
  valid_ts a -> valid_ts b -> b <= a -> reading (y, m, d) h mi s us a -> d <= 28 ->
  timestamp_age md a b = Ok r -> timestamp_sub_interval md a r = Ok b.
Proof.
  intros md a b r y m d h mi s us Va Vb L R D E.
  destruct (age_sub_back md a b r _ _ _ _ _ Va Vb L E R) as (k & _ & K & H).
  rewrite (K D) in H. replace (b - 0 * usecs_day) with b in H by lia. auto.
Qed.
Print Assumptions C73_sub_age.
(** For later days of the month the result is at most three days early. *)
Theorem C73_sub_near : forall md a b r, valid_ts a -> valid_ts (b - 3 * usecs_day) -> b <= a ->
  timestamp_age md a b = Ok r ->
  exists k, 0 <= k <= 3 /\ timestamp_sub_interval md a r = Ok (b - k * usecs_day).
Proof.
  intros md a b r Va Vb L E.
  assert (valid_ts b) as Vb' by (unfold valid_ts, usecs_day in *; lia).
  destruct (ts2t_reading md a Va) as (c & h & mi & s & us & _ & R).
  destruct (age_sub_back md a b r _ _ _ _ _ Va Vb' L E R) as (k & K & _ & H).
  exists k. split; [exact K|]. apply H. unfold valid_ts, usecs_day in *. lia.
Qed.
Print Assumptions C73_sub_near.
(** In either order, and whatever the dates: adding an age to the second timestamp, or taking it
    off the first, misses the other one by at most three whole days; the time of day is exact. *)
Theorem C73_near : forall md a b r,
  valid_ts (a - 3 * usecs_day) -> valid_ts (a + 3 * usecs_day) ->
  valid_ts (b - 3 * usecs_day) -> valid_ts (b + 3 * usecs_day) ->
  timestamp_age md a b = Ok r ->
  (exists k, -3 <= k <= 3 /\ timestamp_sub_interval md a r = Ok (b + k * usecs_day)) /\
  (exists k, -3 <= k <= 3 /\ timestamp_add_interval md b r = Ok (a + k * usecs_day)).
Proof.
  intros md a b r A1 A2 B1 B2 E.
  assert (valid_ts a) as Va by (unfold valid_ts, usecs_day in *; lia).
  assert (valid_ts b) as Vb by (unfold valid_ts, usecs_day in *; lia).
  destruct (age_ok md a b Va Vb) as (r1 & D & BD & BM & E1).
  destruct (age_ok md b a Vb Va) as (r2 & D' & _ & _ & E2).
  rewrite (Z.max_comm b a), (Z.min_comm b a) in D'.
  pose proof (calendar_distance_unique _ _ _ _ D D') as <-.
  assert (0 <= iv_time r1 < usecs_day) as BT.
  { destruct D as (y1 & m1 & d1 & h1 & mi1 & s1 & us1 & y2 & m2 & d2 & h2 & mi2 & s2 & us2 & _ & _ & B & _). exact B. }
  rewrite E in E1. destruct (Z.ltb_spec a b) as [L|L].
  - injection E1 as ->. destruct (Z.ltb_spec b a); [lia|]. destruct r1 as [tm dy mo]. cbn [iv_month iv_day iv_time] in *.
    unfold timestamp_sub_interval. rewrite negate_spec by (cbn [iv_month iv_day iv_time from_mdt]; rng; unfold usecs_day in *; lia).
    cbn [iv_month iv_day iv_time from_mdt].
    destruct (Z.eqb_spec (- mo) i32_min); [rng; lia|]. destruct (Z.eqb_spec (- dy) i32_min); [rng; lia|].
    destruct (Z.eqb_spec (- tm) i64_min); [rng; unfold usecs_day in *; lia|]. cbn [orb bind].
    rewrite !Z.opp_involutive. split.
    + apply (age_add_near md b a _ Vb Va ltac:(lia)); [unfold valid_ts in *; lia|exact E2].
    + destruct (C73_sub_near md b a _ Vb A1 ltac:(lia) E2) as (k & K & HK).
      exists (- k). split; [lia|]. replace (a + - k * usecs_day) with (a - k * usecs_day) by lia.
      unfold timestamp_sub_interval in HK.
      rewrite negate_spec in HK by (cbn [iv_month iv_day iv_time]; rng; unfold usecs_day in *; lia).
      cbn [iv_month iv_day iv_time] in HK.
      destruct (Z.eqb_spec mo i32_min); [rng; lia|]. destruct (Z.eqb_spec dy i32_min); [rng; lia|].
      destruct (Z.eqb_spec tm i64_min); [rng; unfold usecs_day in *; lia|]. cbn [orb bind] in HK. exact HK.
  - injection E1 as ->. split.
    + destruct (C73_sub_near md a b _ Va B1 L E) as (k & K & HK).
      exists (- k). split; [lia|]. replace (b + - k * usecs_day) with (b - k * usecs_day) by lia. exact HK.
    + apply (age_add_near md a b _ Va Vb L); [unfold valid_ts in *; lia|exact E].
Qed.
Print Assumptions C73_near.
(** The condition on the day is needed and three days do occur: 31 March 2021 over 28 February. *)
Theorem C73_exact_refuted : exists a b r, valid_ts a /\ valid_ts b /\ b <= a /\
  forall md, timestamp_age md a b = Ok r /\
    timestamp_sub_interval md a r = Ok (b - 3 * usecs_day).
Proof.
  exists (7760 * usecs_day), (7729 * usecs_day), (from_mdt 1 3 0). unfold valid_ts, usecs_day.
  split; [lia|]. split; [lia|]. split; [lia|]. intros []; split; vm_compute; reflexivity.
Qed.
Print Assumptions C73_exact_refuted.
(** Noon on 1 March 2021 over 13:00 on 30 January: a month, a day and 23 hours, which lead back. *)
Example C73_ex :
  let a := 7730 * usecs_day + 43200000000 in let b := 7700 * usecs_day + 46800000000 in
  valid_ts a /\ valid_ts b /\ b <= a /\ reading (2021, 3, 1) 12 0 0 0 a /\
  timestamp_age Debug a b = Ok (from_mdt 1 1 82800000000) /\
  timestamp_sub_interval Debug a (from_mdt 1 1 82800000000) = Ok b.
Proof.
  cbv zeta. unfold valid_ts, usecs_day. split; [lia|]. split; [lia|]. split; [lia|]. split.
  { apply (instant_reading (2021, 3, 1) 12 0 0 0); [vm_compute; intuition discriminate|unfold clock_ok; lia]. }
  split; vm_compute; reflexivity.
Qed.
