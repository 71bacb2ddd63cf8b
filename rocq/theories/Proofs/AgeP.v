(** [age] *)
From Verif Require Import Model.DateTime Spec.Calendar Spec.Ranges Spec.Clock Spec.Shift Spec.Age
  Proofs.Arith Proofs.Cal Proofs.DateP Proofs.TsP Proofs.AddP Proofs.IntervalP Proofs.IvTruncP Proofs.TruncP.
From Coq Require Import Lia.
Open Scope Z_scope.

Lemma borrow_ok md wide unit lo hi : 0 < unit <= 1000000 -> - unit <= lo < unit -> Z.abs hi < 1000000 ->
  borrow md wide 3 unit lo hi = Ok (lo mod unit, hi + lo / unit).
Proof.
  intros U L H. cbn [borrow]. destruct (Z.ltb_spec lo 0).
  - assert ((if wide then add64 md lo unit else add32 md lo unit) = Ok (lo + unit)) as ->
      by (destruct wide; ar; reflexivity).
    cbn [bind]. ar. destruct (Z.ltb_spec (lo + unit) 0); [lia|].
    assert (lo / unit = -1) as -> by (symmetry; apply (Z.div_unique_pos lo unit (-1) (lo + unit)); lia).
    assert (lo mod unit = lo + unit) as -> by (symmetry; apply (Z.mod_unique_pos lo unit (-1) (lo + unit)); lia).
    reflexivity.
  - rewrite Z.mod_small, Z.div_small by lia. do 2 f_equal. lia.
Qed.

Lemma age_borrow_ok md ey em us s mi h d m y : let dom := month_len ey em in
  1 <= em <= 12 -> - 1000000 < us < 1000000 -> - 60 < s < 60 -> -60 < mi < 60 -> -24 < h < 24 ->
  - dom < d < 31 -> -12 < m < 12 -> -300000 < y < 300000 ->
  exists us' s' mi' h' d' m' y',
    age_borrow md ey em us s mi h d m y = Ok (us', s', mi', h', d', m', y') /\
    clock_ok h' mi' s' us' /\ 0 <= d' <= 30 /\ 0 <= m' <= 11 /\
    -300001 < y' < 300001 /\
    let rest := d * usecs_day + clock h mi s us in
    if rest <? 0 then 12 * y' + m' = 12 * y + m - 1 /\ d' * usecs_day + clock h' mi' s' us' = rest + dom * usecs_day
    else 12 * y' + m' = 12 * y + m /\ d' * usecs_day + clock h' mi' s' us' = rest.
Proof.
  intros dom EM Hus Hs Hmi Hh Hd Hm Hy. pose proof (month_len_bounds ey em EM) as HD. fold dom in HD. unfold age_borrow.
  rewrite (days_of_month_ok md ey em EM). fold dom. clearbody dom. cbn [bind].
  unfold USECS_PER_SEC, SECS_PER_MINUTE, MINS_PER_HOUR, HOURS_PER_DAY, MONTHS_PER_YEAR.
  rewrite borrow_ok by lia. cbn [bind].
  pose proof (Z.div_mod us 1000000 ltac:(lia)) as E1. pose proof (Z.mod_pos_bound us 1000000 ltac:(lia)) as B1.
  set (us' := us mod 1000000) in *. set (q1 := us / 1000000) in *. clearbody us' q1.
  assert (-1 <= q1 <= 0) as Q1 by lia.
  rewrite borrow_ok by lia. cbn [bind].
  pose proof (Z.div_mod (s + q1) 60 ltac:(lia)) as E2. pose proof (Z.mod_pos_bound (s + q1) 60 ltac:(lia)) as B2.
  set (s' := (s + q1) mod 60) in *. set (q2 := (s + q1) / 60) in *. clearbody s' q2.
  assert (-1 <= q2 <= 0) as Q2 by lia.
  rewrite borrow_ok by lia. cbn [bind].
  pose proof (Z.div_mod (mi + q2) 60 ltac:(lia)) as E3. pose proof (Z.mod_pos_bound (mi + q2) 60 ltac:(lia)) as B3.
  set (mi' := (mi + q2) mod 60) in *. set (q3 := (mi + q2) / 60) in *. clearbody mi' q3.
  assert (-1 <= q3 <= 0) as Q3 by lia.
  rewrite borrow_ok by lia. cbn [bind].
  pose proof (Z.div_mod (h + q3) 24 ltac:(lia)) as E4. pose proof (Z.mod_pos_bound (h + q3) 24 ltac:(lia)) as B4.
  set (h' := (h + q3) mod 24) in *. set (q4 := (h + q3) / 24) in *. clearbody h' q4.
  assert (-1 <= q4 <= 0) as Q4 by lia.
  assert (d * usecs_day + clock h mi s us = (d + q4) * usecs_day + clock h' mi' s' us') as ER
    by (unfold usecs_day, clock; lia).
  assert (clock_ok h' mi' s' us') as CK by (unfold clock_ok; lia).
  pose proof (clock_bounds h' mi' s' us' CK) as CB.
  destruct (Z.ltb_spec (d + q4) 0) as [N|N].
  - rewrite borrow_ok by lia. cbn [bind].
    assert ((d + q4) / dom = -1) as -> by (symmetry; apply (Z.div_unique_pos _ dom (-1) (d + q4 + dom)); lia).
    assert ((d + q4) mod dom = d + q4 + dom) as -> by (symmetry; apply (Z.mod_unique_pos _ dom (-1) (d + q4 + dom)); lia).
    rewrite borrow_ok by lia. cbn [bind].
    pose proof (Z.div_mod (m + -1) 12 ltac:(lia)) as E5. pose proof (Z.mod_pos_bound (m + -1) 12 ltac:(lia)) as B5.
    set (m' := (m + -1) mod 12) in *. set (q5 := (m + -1) / 12) in *. clearbody m' q5.
    do 7 eexists. split; [reflexivity|]. split; [exact CK|]. split; [lia|]. split; [lia|]. split; [lia|].
    cbv zeta. rewrite ER. destruct (Z.ltb_spec ((d + q4) * usecs_day + clock h' mi' s' us') 0) as [L|L].
    + split; [lia|]. unfold usecs_day. lia.
    + exfalso. unfold usecs_day in *. lia.
  - cbn [bind]. rewrite borrow_ok by lia. cbn [bind].
    pose proof (Z.div_mod m 12 ltac:(lia)) as E5. pose proof (Z.mod_pos_bound m 12 ltac:(lia)) as B5.
    set (m' := m mod 12) in *. set (q5 := m / 12) in *. clearbody m' q5.
    do 7 eexists. split; [reflexivity|]. split; [exact CK|]. split; [lia|]. split; [lia|]. split; [lia|].
    cbv zeta. rewrite ER. destruct (Z.ltb_spec ((d + q4) * usecs_day + clock h' mi' s' us') 0) as [L|L].
    + exfalso. unfold usecs_day in *. lia.
    + split; lia.
Qed.

Lemma age_pos y2 m2 d2 y1 m1 d1 c2 c1 : 1 <= m1 <= 12 -> 1 <= m2 <= 12 ->
  ymd_lt (y2, m2, d2) (y1, m1, d1) \/ (y2, m2, d2) = (y1, m1, d1) /\ c2 <= c1 ->
  0 <= c1 < usecs_day -> 0 <= c2 < usecs_day ->
  (0 <= 12 * (y1 - y2) + (m1 - m2)) /\
  ((d1 - d2) * usecs_day + (c1 - c2) < 0 -> 1 <= 12 * (y1 - y2) + (m1 - m2)).
Proof.
  unfold ymd_lt, usecs_day. intros M1 M2 [H|[E H]] C1 C2.
  - split; lia.
  - injection E as -> -> ->. lia.
Qed.

Lemma age_ok md a b : valid_ts a -> valid_ts b -> exists r, 
  calendar_distance (Z.max a b) (Z.min a b) r /\ 0 <= iv_day r <= 30 /\ 0 <= iv_month r < 3600000 /\
  timestamp_age md a b =
    Ok (if a <? b then from_mdt (- iv_month r) (- iv_day r) (- iv_time r) else r).
Proof.
  intros Va Vb. unfold timestamp_age.
  destruct (ts2t_reading md a Va) as ([[y1 m1] d1] & h1 & mi1 & s1 & us1 & E1 & R1).
  destruct (ts2t_reading md b Vb) as ([[y2 m2] d2] & h2 & mi2 & s2 & us2 & E2 & R2).
  rewrite E1, E2. clear E1 E2. cbn [bind]. tmcbv.
  pose proof (reading_year_bounds _ _ _ _ _ _ R1 Va) as (_ & Y1 & _ & Hm1 & Hd1).
  pose proof (reading_year_bounds _ _ _ _ _ _ R2 Vb) as (_ & Y2 & _ & Hm2 & Hd2).
  destruct R1 as (V1 & C1 & N1) eqn:X1. destruct R2 as (V2 & C2 & N2) eqn:X2. clear X1 X2 N1 N2.
  destruct V1 as [_ D1]. destruct V2 as [_ D2]. unfold clock_ok in C1, C2.
  ar_unfold. rewrite ar64_ok by (rng; lia). cbn [bind]. do 6 (rewrite ar32_ok by (rng; lia); cbn [bind]).
  destruct (Z.ltb_spec a b) as [L|L].
  - rewrite ar64_ok by (rng; lia). cbn [bind]. do 6 (rewrite ar32_ok by (rng; lia); cbn [bind]).
    destruct (age_borrow_ok md y1 m1 (-(us1 - us2)) (-(s1 - s2)) (-(mi1 - mi2)) (-(h1 - h2)) (-(d1 - d2)) (-(m1 - m2)) (-(y1 - y2)))
      as (us' & s' & mi' & h' & d' & m' & y' & -> & CK & HD & HM & HY & S); try lia.
    cbn [bind]. pose proof (clock_bounds _ _ _ _ CK) as CB. unfold clock_ok in CK.
    rewrite ar64_ok by (rng; lia). cbn [bind]. do 6 (rewrite ar32_ok by (rng; lia); cbn [bind]).
    tmcbv. rewrite iv_from_pgtime_ok by (rng; lia).
    exists (from_mdt (12 * y' + m') d' (clock h' mi' s' us')). cbn [iv_month iv_day iv_time from_mdt].
    rewrite Z.max_r, Z.min_l by lia.
    pose proof (proj1 (reading_le _ _ _ _ _ _ _ _ _ _ _ _ R2 R1) ltac:(lia)) as LE.
    assert (clock (- (h1 - h2)) (- (mi1 - mi2)) (- (s1 - s2)) (- (us1 - us2)) = clock h2 mi2 s2 us2 - clock h1 mi1 s1 us1) as EC
      by (unfold clock; lia).
    rewrite EC in S. cbv zeta in S. replace (- (d1 - d2)) with (d2 - d1) in S by lia.
    split; [|split; [lia|split]].
    + do 14 eexists. split; [exact R2|]. split; [exact R1|]. cbv zeta. cbn [iv_month iv_day iv_time from_mdt].
      split; [lia|]. split; [lia|].
      destruct (_ <? 0); lia.
    + apply age_pos in LE; [|lia|lia|apply clock_bounds; assumption|apply clock_bounds; assumption]. destruct (Z.ltb_spec ((d2 - d1) * usecs_day + (clock h2 mi2 s2 us2 - clock h1 mi1 s1 us1)) 0); lia.
    + do 2 f_equal; [lia|unfold clock; lia].
  - cbn [bind]. destruct (age_borrow_ok md y2 m2 (us1 - us2) (s1 - s2) (mi1 - mi2) (h1 - h2) (d1 - d2) (m1 - m2) (y1 - y2))
      as (us' & s' & mi' & h' & d' & m' & y' & -> & CK & HD & HM & HY & S); try lia.
    cbn [bind]. pose proof (clock_bounds _ _ _ _ CK) as CB. unfold clock_ok in CK.
    cbn [bind]. tmcbv. rewrite iv_from_pgtime_ok by (rng; lia).
    exists (from_mdt (12 * y' + m') d' (clock h' mi' s' us')). cbn [iv_month iv_day iv_time from_mdt].
    rewrite Z.max_l, Z.min_r by lia.
    pose proof (proj1 (reading_le _ _ _ _ _ _ _ _ _ _ _ _ R1 R2) ltac:(lia)) as LE.
    assert (clock (h1 - h2) (mi1 - mi2) (s1 - s2) (us1 - us2) = clock h1 mi1 s1 us1 - clock h2 mi2 s2 us2) as EC
      by (unfold clock; lia).
    rewrite EC in S. cbv zeta in S.
    split; [|split; [lia|split]].
    + do 14 eexists. split; [exact R1|]. split; [exact R2|]. cbv zeta. cbn [iv_month iv_day iv_time from_mdt].
      split; [lia|]. split; [lia|].
      destruct (_ <? 0); lia.
    + apply age_pos in LE; [|lia|lia|apply clock_bounds; assumption|apply clock_bounds; assumption]. destruct (Z.ltb_spec ((d1 - d2) * usecs_day + (clock h1 mi1 s1 us1 - clock h2 mi2 s2 us2)) 0); lia.
    + do 2 f_equal. lia.
Qed.

Lemma calendar_distance_unique a b r r' : calendar_distance a b r -> calendar_distance a b r' -> r = r'.
Proof.
  intros (y1 & m1 & d1 & h1 & mi1 & s1 & us1 & y2 & m2 & d2 & h2 & mi2 & s2 & us2 & R1 & R2 & H).
  intros (y1' & m1' & d1' & h1' & mi1' & s1' & us1' & y2' & m2' & d2' & h2' & mi2' & s2' & us2' & R1' & R2' & H').
  destruct (reading_unique _ _ _ _ _ _ _ _ _ _ _ R1 R1') as (E & <- & <- & <- & <-). injection E as <- <- <-.
  destruct (reading_unique _ _ _ _ _ _ _ _ _ _ _ R2 R2') as (E & <- & <- & <- & <-). injection E as <- <- <-.
  destruct r as [t d m], r' as [t' d' m']. cbv zeta in *. cbn [iv_month iv_day iv_time] in *.
  set (rest := (d1 - d2) * usecs_day + _) in *. clearbody rest. unfold usecs_day in *.
  set (q := month_len y2 m2) in *. clearbody q.
  destruct (rest <? 0).
  - assert (d = d') by lia. subst d'. f_equal; lia.
  - assert (d = d') by lia. subst d'. f_equal; lia.
Qed.

(** No month had to be borrowed: adding the age to the earlier instant gives the later one. *)
Lemma age_add_back md a b r y1 m1 d1 h1 mi1 s1 us1 y2 m2 d2 h2 mi2 s2 us2 :
  valid_ts a -> valid_ts b -> b <= a -> timestamp_age md a b = Ok r ->
  reading (y1, m1, d1) h1 mi1 s1 us1 a -> reading (y2, m2, d2) h2 mi2 s2 us2 b ->
  d2 < d1 \/ (d2 = d1 /\ clock h2 mi2 s2 us2 <= clock h1 mi1 s1 us1) ->
  timestamp_add_interval md b r = Ok a.
Proof.
  intros Va Vb L E R1 R2 NB. destruct (age_ok md a b Va Vb) as (r' & D & BD & BM & E').
  rewrite E in E'. destruct (Z.ltb_spec a b); [lia|]. injection E' as <-.
  rewrite Z.max_l, Z.min_r in D by lia.
  destruct D as (y1' & m1' & d1' & h1' & mi1' & s1' & us1' & y2' & m2' & d2' & h2' & mi2' & s2' & us2' & R1' & R2' & H').
  destruct (reading_unique _ _ _ _ _ _ _ _ _ _ _ R1 R1') as (Ee & <- & <- & <- & <-). injection Ee as <- <- <-.
  destruct (reading_unique _ _ _ _ _ _ _ _ _ _ _ R2 R2') as (Ee & <- & <- & <- & <-). injection Ee as <- <- <-.
  clear R1' R2'. cbv zeta in H'. destruct H' as (BT & BD' & H').
  pose proof (proj1 (reading_le _ _ _ _ _ _ _ _ _ _ _ _ R1 R2) L) as LE.
  pose proof (reading_instant _ _ _ _ _ _ R1) as I1. pose proof (reading_instant _ _ _ _ _ _ R2) as I2.
  pose proof R1 as (V1 & C1 & _). pose proof R2 as (V2 & C2 & _).
  pose proof (clock_bounds _ _ _ _ C1) as CB1. pose proof (clock_bounds _ _ _ _ C2) as CB2.
  pose proof V1 as [Vm1 Vd1]. pose proof V2 as [Vm2 Vd2].
  destruct (Z.ltb_spec ((d1 - d2) * usecs_day + (clock h1 mi1 s1 us1 - clock h2 mi2 s2 us2)) 0) as [N|N];
    [exfalso; unfold usecs_day in *; lia|].
  destruct H' as [EM ET].
  assert (add_months (y2, m2, d2) (iv_month r) = (y1, m1, d2)) as AM.
  { unfold add_months. rewrite EM.
    replace ((12 * y2 + (m2 - 1) + (12 * (y1 - y2) + (m1 - m2))) / 12) with y1 by lia.
    replace ((12 * y2 + (m2 - 1) + (12 * (y1 - y2) + (m1 - m2))) mod 12 + 1) with m1 by lia.
    f_equal. lia. }
  destruct r as [tm dy mo]. cbn [iv_month iv_day iv_time] in *.
  change (mkInterval tm dy mo) with (from_mdt mo dy tm).
  assert (instant (y1, m1, d2) (clock h2 mi2 s2 us2) + dy * usecs_day + tm = a) as EA.
  { rewrite I1. unfold instant. rewrite (J_day y1 m1 d1), (J_day y1 m1 d2). unfold usecs_day in *. lia. }
  assert (b <= instant (y1, m1, d2) (clock h2 mi2 s2 us2)) as EB.
  { assert (reading (y1, m1, d2) h2 mi2 s2 us2 (instant (y1, m1, d2) (clock h2 mi2 s2 us2))) as R3
      by (apply instant_reading; [split; lia|exact C2]).
    apply (reading_le _ _ _ _ _ _ _ _ _ _ _ _ R3 R2). unfold ymd_lt in *.
    destruct LE as [LE|[LE _]].
    - destruct (Z.eq_dec y1 y2) as [->|]; [|left; lia]. destruct (Z.eq_dec m1 m2) as [->|]; [|left; lia].
      right. split; [reflexivity|lia].
    - injection LE as -> -> ->. right. split; [reflexivity|lia]. }
  pose proof (add_interval_ok md (y2, m2, d2) h2 mi2 s2 us2 b mo dy tm Vb) as A. cbv zeta in A.
  rewrite AM, EA in A. apply A; auto; unfold valid_ts, usecs_day in *; rng; lia.
Qed.
