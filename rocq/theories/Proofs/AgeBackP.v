(** Taking an age off the later timestamp, adding it to the earlier one. Used by C73. *)
From Verif Require Import Model.DateTime Spec.Calendar Spec.Ranges Spec.Clock Spec.Shift Spec.Age
  Proofs.Arith Proofs.Cal Proofs.DateP Proofs.TsP Proofs.AddP Proofs.TruncP Proofs.AgeP.
From Coq Require Import Lia.
Open Scope Z_scope.

(** Months counted from January of year 0. *)
Definition m0 (n : Z) : Z := J (n / 12, n mod 12 + 1, 0).
Definition ml (n : Z) : Z := month_len (n / 12) (n mod 12 + 1).

Lemma m0_next n : m0 (n + 1) = m0 n + ml n.
Proof.
  unfold m0, ml. assert (n mod 12 = 11 \/ n mod 12 < 11) as [E|E] by lia.
  - replace ((n + 1) / 12) with (n / 12 + 1) by lia. replace ((n + 1) mod 12 + 1) with 1 by lia.
    rewrite E. rewrite J_year. reflexivity.
  - replace ((n + 1) / 12) with (n / 12) by lia. replace ((n + 1) mod 12 + 1) with (n mod 12 + 1 + 1) by lia.
    apply J_month. lia.
Qed.
Lemma ml_bounds n : 28 <= ml n <= 31.
Proof. unfold ml. apply month_len_bounds. lia. Qed.
Lemma m0_far n j : 0 <= j -> m0 n + j * 28 <= m0 (n + j).
Proof.
  intros Hj. pattern j. apply natlike_ind; [replace (n + 0) with n by lia; lia| |exact Hj].
  intros x Hx IH. replace (n + Z.succ x) with (n + x + 1) by lia. rewrite (m0_next (n + x)).
  pose proof (ml_bounds (n + x)). lia.
Qed.
Lemma m0_ym y m : 1 <= m <= 12 -> m0 (12 * y + (m - 1)) = J (y, m, 0) /\ ml (12 * y + (m - 1)) = month_len y m.
Proof.
  intros H. unfold m0, ml. replace ((12 * y + (m - 1)) / 12) with y by lia.
  replace ((12 * y + (m - 1)) mod 12 + 1) with m by lia. auto.
Qed.
(** The instant reached by the month step. *)
Lemma instant_months y m d k T : instant (add_months (y, m, d) k) T =
  (m0 (12 * y + (m - 1) + k) + Z.min d (ml (12 * y + (m - 1) + k)) - 2451545) * usecs_day + T.
Proof. unfold instant, add_months, m0, ml. now rewrite J_day. Qed.

(** The age as read off the calendar, for instants in the right order. *)
Lemma age_reading md a b r y1 m1 d1 h1 mi1 s1 us1 y2 m2 d2 h2 mi2 s2 us2 :
  valid_ts a -> valid_ts b -> b <= a -> timestamp_age md a b = Ok r ->
  reading (y1, m1, d1) h1 mi1 s1 us1 a -> reading (y2, m2, d2) h2 mi2 s2 us2 b ->
  let n1 := 12 * y1 + (m1 - 1) in let n2 := 12 * y2 + (m2 - 1) in
  a = (m0 n1 + d1 - 2451545) * usecs_day + clock h1 mi1 s1 us1 /\
  b = (m0 n2 + d2 - 2451545) * usecs_day + clock h2 mi2 s2 us2 /\
  1 <= d1 <= ml n1 /\ 1 <= d2 <= ml n2 /\
  0 <= clock h1 mi1 s1 us1 < usecs_day /\ 0 <= clock h2 mi2 s2 us2 < usecs_day /\
  0 <= iv_time r < usecs_day /\ 0 <= iv_day r <= 30 /\ 0 <= iv_month r < 3600000 /\
  exists e, 0 <= e <= 1 /\ iv_month r = n1 - n2 - e /\
    iv_day r * usecs_day + iv_time r =
      (d1 - d2 + e * ml n2) * usecs_day + (clock h1 mi1 s1 us1 - clock h2 mi2 s2 us2) /\
    (e = 1 -> d1 <= d2).
Proof.
  intros Va Vb L E R1 R2. destruct (age_ok md a b Va Vb) as (r' & D & BD & BM & E').
  rewrite E in E'. destruct (Z.ltb_spec a b); [lia|]. injection E' as <-.
  rewrite Z.max_l, Z.min_r in D by lia.
  destruct D as (y1' & m1' & d1' & h1' & mi1' & s1' & us1' & y2' & m2' & d2' & h2' & mi2' & s2' & us2' & R1' & R2' & H').
  destruct (reading_unique _ _ _ _ _ _ _ _ _ _ _ R1 R1') as (Ee & <- & <- & <- & <-). injection Ee as <- <- <-.
  destruct (reading_unique _ _ _ _ _ _ _ _ _ _ _ R2 R2') as (Ee & <- & <- & <- & <-). injection Ee as <- <- <-.
  clear R1' R2'. cbv zeta in H'. destruct H' as (BT & BD' & H').
  pose proof (reading_instant _ _ _ _ _ _ R1) as I1. pose proof (reading_instant _ _ _ _ _ _ R2) as I2.
  pose proof R1 as (V1 & C1 & _). pose proof R2 as (V2 & C2 & _).
  pose proof (clock_bounds _ _ _ _ C1) as CB1. pose proof (clock_bounds _ _ _ _ C2) as CB2.
  destruct V1 as [Vm1 Vd1]. destruct V2 as [Vm2 Vd2]. unfold instant in I1, I2. rewrite J_day in I1, I2.
  destruct (m0_ym y1 m1 Vm1) as [P1 P2]. destruct (m0_ym y2 m2 Vm2) as [Q1 Q2].
  cbv zeta. rewrite P1, P2, Q1, Q2.
  set (T1 := clock h1 mi1 s1 us1) in *. set (T2 := clock h2 mi2 s2 us2) in *. clearbody T1 T2.
  do 9 (split; [solve [lia|assumption]|]).
  destruct (Z.ltb_spec ((d1 - d2) * usecs_day + (T1 - T2)) 0) as [N|N].
  - exists 1. destruct H' as [EM ET]. unfold usecs_day in *. repeat split; lia.
  - exists 0. destruct H' as [EM ET]. unfold usecs_day in *. repeat split; lia.
Qed.

(** Later minus age. *)
Lemma age_sub_back md a b r c h mi s us : valid_ts a -> valid_ts b -> b <= a ->
  timestamp_age md a b = Ok r -> reading c h mi s us a ->
  exists k, 0 <= k <= 3 /\ (snd c <= 28 -> k = 0) /\
    (valid_ts (b - k * usecs_day) -> timestamp_sub_interval md a r = Ok (b - k * usecs_day)).
Proof.
  intros Va Vb L E R1. destruct c as [[y1 m1] d1].
  destruct (ts2t_reading md b Vb) as ([[y2 m2] d2] & h2 & mi2 & s2 & us2 & _ & R2).
  destruct (age_reading md a b r _ _ _ _ _ _ _ _ _ _ _ _ _ _ Va Vb L E R1 R2)
    as (I1 & I2 & D1 & D2 & T1 & T2 & BT & BD & BM & e & He & EM & ET & EB).
  set (n1 := 12 * y1 + (m1 - 1)) in *. set (n2 := 12 * y2 + (m2 - 1)) in *.
  set (c1 := clock h mi s us) in *. set (c2 := clock h2 mi2 s2 us2) in *.
  exists (Z.max 0 (d1 - ml (n2 + e))). pose proof (ml_bounds n2) as B2. pose proof (ml_bounds n1) as B1.
  pose proof (ml_bounds (n2 + e)) as B3.
  split; [lia|]. split; [cbn [snd]; lia|]. intros V. set (k := Z.max 0 (d1 - ml (n2 + e))) in *.
  assert (m0 (n2 + e) = m0 n2 + e * ml n2) as EN.
  { destruct (Z.eq_dec e 0) as [->|]; [rewrite Z.add_0_r; lia|]. assert (e = 1) as -> by lia. rewrite m0_next. lia. }
  destruct r as [tm dy mo]. cbn [iv_month iv_day iv_time] in *.
  unfold timestamp_sub_interval. rewrite negate_spec by (cbn [iv_month iv_day iv_time]; rng; unfold usecs_day in *; lia).
  cbn [iv_month iv_day iv_time].
  destruct (Z.eqb_spec mo i32_min); [rng; lia|]. destruct (Z.eqb_spec dy i32_min); [rng; lia|].
  destruct (Z.eqb_spec tm i64_min); [rng; lia|]. cbn [orb bind].
  pose proof (add_interval_ok md (y1, m1, d1) h mi s us a (- mo) (- dy) (- tm) Va) as A. cbv zeta in A.
  rewrite instant_months in A. fold n1 c1 in A. replace (n1 + - mo) with (n2 + e) in A by lia.
  rewrite EN in A.
  replace ((m0 n2 + e * ml n2 + Z.min d1 (ml (n2 + e)) - 2451545) * usecs_day + c1 + - dy * usecs_day + - tm)
    with (b - k * usecs_day) in A by (unfold usecs_day in *; lia).
  assert (Z.min d1 (ml (n2 + e)) = d1 - k) as EK by lia. rewrite EK in A.
  assert (b - k * usecs_day <= (m0 n2 + e * ml n2 + (d1 - k) - 2451545) * usecs_day + c1 + - dy * usecs_day) as L2
    by (unfold usecs_day in *; lia).
  assert ((m0 n2 + e * ml n2 + (d1 - k) - 2451545) * usecs_day + c1 + - dy * usecs_day <= a) as L3
    by (unfold usecs_day in *; lia).
  assert ((m0 n2 + e * ml n2 + (d1 - k) - 2451545) * usecs_day + c1 <= a) as L4.
  { clear A. assert (n2 + e = n1 \/ n2 + e < n1) as [N|N] by lia.
    { rewrite N in EN. unfold usecs_day in *. lia. }
    pose proof (m0_far (n2 + e + 1)) as MM.
    specialize (MM (n1 - (n2 + e + 1)) ltac:(lia)). replace (n2 + e + 1 + (n1 - (n2 + e + 1))) with n1 in MM by lia.
    rewrite m0_next in MM. rewrite I1, <- EN. clear - MM EK D1 N B3. unfold usecs_day. lia. }
  apply A; try (unfold valid_ts, usecs_day in *; rng; lia). exact R1.
Qed.

(** Earlier plus age. *)
Lemma age_add_near md a b r : valid_ts a -> valid_ts b -> b <= a -> a + 3 * usecs_day < 9223371331200000000 ->
  timestamp_age md a b = Ok r ->
  exists k, -3 <= k <= 3 /\ timestamp_add_interval md b r = Ok (a + k * usecs_day).
Proof.
  intros Va Vb L VB E.
  destruct (ts2t_reading md a Va) as ([[y1 m1] d1] & h & mi & s & us & _ & R1).
  destruct (ts2t_reading md b Vb) as ([[y2 m2] d2] & h2 & mi2 & s2 & us2 & _ & R2).
  destruct (age_reading md a b r _ _ _ _ _ _ _ _ _ _ _ _ _ _ Va Vb L E R1 R2)
    as (I1 & I2 & D1 & D2 & T1 & T2 & BT & BD & BM & e & He & EM & ET & EB).
  set (n1 := 12 * y1 + (m1 - 1)) in *. set (n2 := 12 * y2 + (m2 - 1)) in *.
  set (c1 := clock h mi s us) in *. set (c2 := clock h2 mi2 s2 us2) in *.
  pose proof (ml_bounds n2) as B2. pose proof (ml_bounds n1) as B1. pose proof (ml_bounds (n1 - e)) as B3.
  assert (m0 n1 = m0 (n1 - e) + e * ml (n1 - e)) as EN.
  { destruct (Z.eq_dec e 0) as [->|]; [rewrite Z.sub_0_r; lia|]. assert (e = 1) as -> by lia.
    rewrite <- (Z.sub_add 1 n1) at 1. rewrite m0_next. lia. }
  set (k := Z.min d2 (ml (n1 - e)) - d2 + e * (ml n2 - ml (n1 - e))).
  assert (-3 <= k <= 3) as K.
  { destruct (Z.eq_dec e 0) as [->|]; [|assert (e = 1) as -> by lia]; subst k; [|lia].
    rewrite Z.sub_0_r in *. destruct (Z.le_gt_cases d2 (ml n1)); lia. }
  exists k. split; [exact K|].
  destruct r as [tm dy mo]. cbn [iv_month iv_day iv_time] in *. change (mkInterval tm dy mo) with (from_mdt mo dy tm).
  pose proof (add_interval_ok md (y2, m2, d2) h2 mi2 s2 us2 b mo dy tm Vb) as A. cbv zeta in A.
  rewrite instant_months in A. fold n2 c2 in A. replace (n2 + mo) with (n1 - e) in A by lia.
  set (t1 := (m0 (n1 - e) + Z.min d2 (ml (n1 - e)) - 2451545) * usecs_day + c2) in *.
  assert (t1 + dy * usecs_day + tm = a + k * usecs_day) as E3.
  { clear A. subst t1. rewrite I1, EN. unfold k. unfold usecs_day in *. lia. }
  assert (b <= t1) as L1.
  { clear A. assert (n1 - e = n2 \/ n2 + 1 <= n1 - e) as [N|N] by lia.
    - subst t1. rewrite N, Z.min_l by lia. lia.
    - pose proof (m0_far (n2 + 1) (n1 - e - (n2 + 1)) ltac:(lia)) as MM.
      replace (n2 + 1 + (n1 - e - (n2 + 1))) with (n1 - e) in MM by lia. rewrite m0_next in MM.
      rewrite I2. subst t1. clear - MM N D2 T2 B3. unfold usecs_day in *. lia. }
  rewrite E3 in A.
  assert (0 <= dy * usecs_day) as P1 by (unfold usecs_day; lia).
  apply A; [rng; lia|rng; lia|unfold usecs_day in *; rng; lia|exact R2| | |].
  all: unfold valid_ts, usecs_day in *; lia.
Qed.
