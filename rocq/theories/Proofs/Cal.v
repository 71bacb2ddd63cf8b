(** The Julian day functions agree with the calendar specification. *)
From Verif Require Import Model.Common Spec.Calendar Proofs.Arith.

(** Closed form of the day number, over unbounded integers. *)
Definition shift (y m : Z) : Z * Z := if 2 <? m then (y + 4800, m + 1) else (y + 4799, m + 13).
Definition J (c : ymd) : Z :=
  let '(y, m, d) := c in
  let '(a, k) := shift y m in
  365 * a - 32167 + a / 4 - a / 100 + a / 400 + 7834 * k / 256 + d.

Lemma leap_cases y :
  (leap y = true /\ y mod 4 = 0 /\ (y mod 100 <> 0 \/ y mod 400 = 0)) \/
  (leap y = false /\ (y mod 4 <> 0 \/ (y mod 100 = 0 /\ y mod 400 <> 0))).
Proof. unfold leap. lia. Qed.

Lemma month_cases m : 1 <= m <= 12 ->
  m = 1 \/ m = 2 \/ m = 3 \/ m = 4 \/ m = 5 \/ m = 6 \/ m = 7 \/ m = 8 \/ m = 9 \/ m = 10
  \/ m = 11 \/ m = 12.
Proof. lia. Qed.
Ltac month12 H :=
  apply month_cases in H; repeat (destruct H as [H|H]; [subst|]); [..|subst].

Lemma month_len_bounds y m : 1 <= m <= 12 -> 28 <= month_len y m <= 31.
Proof. intros H. month12 H; cbn; try lia. destruct (leap y); lia. Qed.

Lemma next_day_valid c : valid_ymd c -> valid_ymd (next_day c).
Proof.
  destruct c as [[y m] d]. unfold valid_ymd, next_day. intros [Hm Hd].
  destruct (Z.ltb_spec d (month_len y m)); [lia|].
  destruct (Z.ltb_spec m 12).
  - pose proof (month_len_bounds y (m + 1)). lia.
  - cbn. lia.
Qed.

Lemma J_day y m d : J (y, m, d) = J (y, m, 0) + d.
Proof. unfold J, shift. destruct (2 <? m); lia. Qed.

Lemma leap_step y :
  365 * (y + 4800) - 32167 + (y + 4800) / 4 - (y + 4800) / 100 + (y + 4800) / 400 =
  365 * (y + 4799) - 32167 + (y + 4799) / 4 - (y + 4799) / 100 + (y + 4799) / 400 + 365
  + (if leap y then 1 else 0).
Proof.
  destruct (Z.eq_dec (y mod 4) 0), (Z.eq_dec (y mod 100) 0), (Z.eq_dec (y mod 400) 0);
    unfold leap;
    repeat match goal with |- context[?a =? ?b] => destruct (Z.eqb_spec a b); try contradiction end;
    cbn [andb orb negb]; lia.
Qed.

Lemma J_month y m : 1 <= m < 12 -> J (y, m + 1, 0) = J (y, m, 0) + month_len y m.
Proof.
  intros H. pose proof (leap_step y) as L. assert (1 <= m <= 12) as Hm by lia.
  month12 Hm; try lia; zcomp; unfold J, shift, month_len;
    cbn [Z.ltb Z.compare Pos.compare Pos.compare_cont]; zcomp;
    try destruct (leap y); lia.
Qed.

Lemma J_year y : J (y + 1, 1, 0) = J (y, 12, 0) + 31.
Proof. unfold J, shift. cbn. replace (y + 1 + 4799) with (y + 4800) by lia. lia. Qed.

Lemma J_next c : valid_ymd c -> J (next_day c) = J c + 1.
Proof.
  destruct c as [[y m] d]. unfold valid_ymd, next_day. intros [Hm Hd].
  destruct (Z.ltb_spec d (month_len y m)).
  - rewrite (J_day y m (d + 1)), (J_day y m d). lia.
  - destruct (Z.ltb_spec m 12).
    + rewrite J_day, (J_day y m d), J_month by lia. lia.
    + assert (m = 12) by lia; subst. rewrite J_day, (J_day y 12 d), J_year.
      cbn in *. lia.
Qed.

Lemma walk_valid n c : valid_ymd c -> valid_ymd (walk n c).
Proof. induction n; cbn; auto using next_day_valid. Qed.

Lemma J_walk n c : valid_ymd c -> J (walk n c) = J c + Z.of_nat n.
Proof.
  intros H. induction n; cbn [walk]; [lia|].
  rewrite J_next by auto using walk_valid. lia.
Qed.

(** Year starts. *)
Lemma J_year_step y : J (y + 1, 1, 0) - J (y, 1, 0) = if leap y then 366 else 365.
Proof.
  pose proof (leap_step y) as L.
  unfold J, shift. cbn [Z.ltb Z.compare Pos.compare Pos.compare_cont].
  replace (y + 1 + 4799) with (y + 4800) by lia.
  destruct (leap y); lia.
Qed.

Lemma J_mono_month y m1 m2 : 1 <= m1 -> m1 <= m2 -> m2 <= 12 ->
  J (y, m1, 0) <= J (y, m2, 0).
Proof.
  intros H1 H2 H3. replace m2 with (m1 + (m2 - m1)) in * by lia.
  assert (0 <= m2 - m1) as H by lia. revert H3. clear H2.
  generalize dependent (m2 - m1). clear m2. intros k Hk. revert k Hk.
  apply (natlike_ind (fun k => m1 + k <= 12 -> J (y, m1, 0) <= J (y, m1 + k, 0))).
  - intros. rewrite Z.add_0_r. lia.
  - intros k Hk IH H. replace (m1 + Z.succ k) with (m1 + k + 1) by lia.
    rewrite J_month by lia. pose proof (month_len_bounds y (m1 + k)). lia.
Qed.

Lemma J_mono_month_lt y m1 m2 : 1 <= m1 -> m1 < m2 -> m2 <= 12 ->
  J (y, m1, 0) + month_len y m1 <= J (y, m2, 0).
Proof.
  intros. rewrite <- J_month by lia. apply J_mono_month; lia.
Qed.

Lemma J_in_year y m d : valid_ymd (y, m, d) ->
  J (y, 1, 0) < J (y, m, d) <= J (y + 1, 1, 0).
Proof.
  intros [Hm Hd]. rewrite (J_day y m d). pose proof (J_mono_month y 1 m).
  split; [lia|].
  rewrite J_year. destruct (Z.eq_dec m 12) as [->|]; [cbn in Hd; lia|].
  pose proof (J_mono_month_lt y m 12). lia.
Qed.

Lemma J_mono_year y1 y2 : y1 <= y2 -> J (y1, 1, 0) <= J (y2, 1, 0).
Proof.
  intros H. replace y2 with (y1 + (y2 - y1)) by lia.
  assert (0 <= y2 - y1) as Hk by lia. generalize dependent (y2 - y1). clear y2 H.
  apply (natlike_ind (fun k => J (y1, 1, 0) <= J (y1 + k, 1, 0))).
  - rewrite Z.add_0_r. lia.
  - intros k Hk IH. replace (y1 + Z.succ k) with (y1 + k + 1) by lia.
    pose proof (J_year_step (y1 + k)). destruct (leap (y1 + k)); lia.
Qed.

Lemma J_lt a b : valid_ymd a -> valid_ymd b -> ymd_lt a b -> J a < J b.
Proof.
  destruct a as [[y1 m1] d1], b as [[y2 m2] d2]. intros Va Vb [H|[-> [H|[-> H]]]].
  - pose proof (J_in_year _ _ _ Va). pose proof (J_in_year _ _ _ Vb).
    pose proof (J_mono_year (y1 + 1) y2). lia.
  - destruct Va as [Hm1 Hd1], Vb as [Hm2 Hd2].
    pose proof (J_mono_month_lt y2 m1 m2).
    rewrite (J_day y2 m1), (J_day y2 m2). lia.
  - rewrite (J_day y2 m2 d1), (J_day y2 m2 d2). lia.
Qed.

Lemma ymd_trichotomy (a b : ymd) : ymd_lt a b \/ a = b \/ ymd_lt b a.
Proof.
  destruct a as [[y1 m1] d1], b as [[y2 m2] d2]. unfold ymd_lt.
  destruct (Z.lt_trichotomy y1 y2) as [?|[?|?]]; [lia| |lia].
  destruct (Z.lt_trichotomy m1 m2) as [?|[?|?]]; [lia| |lia].
  destruct (Z.lt_trichotomy d1 d2) as [?|[?|?]]; [lia| |lia].
  right; left. congruence.
Qed.

Lemma J_inj a b : valid_ymd a -> valid_ymd b -> J a = J b -> a = b.
Proof.
  intros Va Vb H. destruct (ymd_trichotomy a b) as [L|[E|L]]; auto;
    apply J_lt in L; auto; lia.
Qed.

Lemma J_lt_iff a b : valid_ymd a -> valid_ymd b -> (J a < J b <-> ymd_lt a b).
Proof.
  intros Va Vb. split; [|apply J_lt; auto]. intros H.
  destruct (ymd_trichotomy a b) as [L|[E|L]]; auto; [subst; lia|].
  apply J_lt in L; auto; lia.
Qed.

(** Every integer from J c on is the number of a valid day. *)
Lemma J_surj c n : valid_ymd c -> J c <= n -> J (walk (Z.to_nat (n - J c)) c) = n.
Proof. intros. rewrite J_walk by auto. lia. Qed.

Lemma valid_first : valid_ymd first_day. Proof. cbv. intuition congruence. Qed.
Lemma valid_epoch : valid_ymd epoch_day. Proof. cbv. intuition congruence. Qed.
Lemma J_first : J first_day = 0. Proof. reflexivity. Qed.
Lemma J_epoch : J epoch_day = 2451545. Proof. reflexivity. Qed.

(** The calendar day with Julian day number [n >= 0]. *)
Definition day_of (n : Z) : ymd := walk (Z.to_nat n) first_day.
Lemma day_of_valid n : valid_ymd (day_of n).
Proof. apply walk_valid, valid_first. Qed.
Lemma J_day_of n : 0 <= n -> J (day_of n) = n.
Proof. intros. unfold day_of. rewrite J_walk by apply valid_first. rewrite J_first. lia. Qed.
Lemma day_of_J c : valid_ymd c -> 0 <= J c -> day_of (J c) = c.
Proof. intros. apply J_inj; auto using day_of_valid. now apply J_day_of. Qed.

Lemma walk_add n k c : walk (n + k) c = walk n (walk k c).
Proof. induction n; cbn; congruence. Qed.

Lemma day_number_J c n : valid_ymd c -> (day_number c n <-> J c = n + 2451545).
Proof.
  intros V. unfold day_number. split.
  - intros [[H E]|[H [_ E]]].
    + rewrite <- E, J_walk by apply valid_epoch. rewrite J_epoch. lia.
    + pose proof (J_walk (Z.to_nat (- n)) c V) as W. rewrite E, J_epoch in W. lia.
  - intros E. destruct (Z.le_gt_cases 0 n).
    + left. split; [lia|]. apply J_inj; auto using walk_valid, valid_epoch.
      rewrite J_walk by apply valid_epoch. rewrite J_epoch. lia.
    + right. split; [lia|]. split; [auto|].
      apply J_inj; auto using walk_valid, valid_epoch.
      rewrite J_walk by auto. rewrite J_epoch. lia.
Qed.

Arguments J : simpl never.
Arguments day_of : simpl never.
(** ** The model *)
(** date2julian computes J for years -4799 .. 5874900. *)
Lemma date2julian_core md a k d :
  0 <= a <= 5879697 /\ 0 <= k <= 15 \/ a = 5879698 /\ 0 <= k <= 6 -> -31 <= d <= 31 ->
  (let century := Z.quot a 100 in
   let* y365 := mul32 md a 365 in
   let* julian := sub32 md y365 32167 in
   let* b := sub32 md (Z.quot a 4) century in
   let* b := add32 md b (Z.quot century 4) in
   let* julian := add32 md julian b in
   let* m7834 := mul32 md 7834 k in
   let* c := add32 md (Z.quot m7834 256) d in
   add32 md julian c)
  = Ok (365 * a - 32167 + a / 4 - a / 100 + a / 400 + 7834 * k / 256 + d).
Proof.
  intros [[Ha Hk]|[-> Hk]] Hd; cbv zeta.
  2: { assert (0 <= 7834 * k / 256 <= 183) by lia.
    change (5879698 / 4) with 1469924. change (5879698 / 100) with 58796.
    change (5879698 / 400) with 14699.
    change (5879698 ÷ 4) with 1469924. change (5879698 ÷ 100) with 58796.
    change (58796 ÷ 4) with 14699. ar_unfold. do 6 ar1.
    rewrite (Z.quot_div_nonneg (7834 * k)) by lia.
    generalize dependent (7834 * k / 256). intros. ar1. rewrite ar32_ok by ar_side. f_equal. lia. }
  rewrite !(Z.quot_div_nonneg a) by lia.
  assert (0 <= a / 100) by (apply Z.div_pos; lia).
  rewrite (Z.quot_div_nonneg (a / 100)), Z.div_div by lia.
  change (100 * 4) with 400.
  assert (a - 99 <= 100 * (a / 100) <= a) by lia.
  assert (0 <= 4 * (a / 4) <= a) by lia.
  assert (0 <= 400 * (a / 400) <= a) by lia.
  generalize dependent (a / 100). generalize dependent (a / 4). generalize dependent (a / 400).
  intros c400 H400 c4 H4 c100 P100 H100.
  ar_unfold. do 6 ar1. rewrite (Z.quot_div_nonneg (7834 * k)) by lia.
  assert (0 <= 7834 * k / 256 <= 459) by lia.
  generalize dependent (7834 * k / 256). intros. ar1. rewrite ar32_ok by ar_side.
  f_equal. lia.
Qed.

Lemma date2julian_ok md y m d :
  -4799 <= y <= 5874897 \/ (y = 5874898 /\ m <= 5) -> 1 <= m <= 12 -> -31 <= d <= 31 ->
  date2julian md y m d = Ok (J (y, m, d)).
Proof.
  intros Hy Hm Hd. unfold date2julian, J, shift.
  destruct (Z.ltb_spec 2 m).
  - ar_unfold. do 2 ar1. apply date2julian_core; lia.
  - ar_unfold. do 2 ar1. apply date2julian_core; lia.
Qed.

(** Closed form of julian2date over unbounded integers. *)
Definition G2 (R : Z) : Z * Z * Z :=
  let yy := R * 4 / 1461 in
  let k := (if yy =? 0 then (R + 306) mod 366 else (R + 305) mod 365) + 123 in
  let p := k * 2141 / 65536 in
  (yy, (p + 10) mod 12 + 1, k - 7834 * p / 256).
Definition G (jd : Z) : ymd :=
  let N := jd + 32044 in
  let q := N / 146097 in
  let c := (4 * (N mod 146097) + 3) / 146097 in
  let N1 := N + 60 + 3 * q + c in
  let '(yy, m, d) := G2 (N1 mod 1461) in
  (yy + 4 * (N1 / 1461) - 4800, m, d).

Lemma julian2date_Gu md jd : wrapu32 jd <= 4294840000 -> julian2date md jd = Ok (G (wrapu32 jd)).
Proof.
  intros H. unfold julian2date, G.
  assert (0 <= wrapu32 jd) by (unfold wrapu32; lia).
  generalize dependent (wrapu32 jd). clear jd. intros jd H H0. ar_unfold. ar1.
  set (N := jd + 32044) in *. assert (32044 <= N <= 4294872044) by (subst N; lia).
  clearbody N. clear H H0.
  rewrite (Z.quot_div_nonneg N) by lia.
  pose proof (Z.div_mod N 146097 ltac:(lia)) as EN.
  pose proof (Z.mod_pos_bound N 146097 ltac:(lia)) as BN.
  set (q := N / 146097) in *. set (r := N mod 146097) in *. clearbody q r.
  ar1. ar1. replace (N - q * 146097) with r by lia. ar1. ar1.
  rewrite (Z.quot_div_nonneg (r * 4 + 3)) by lia.
  replace (4 * r + 3) with (r * 4 + 3) by lia.
  assert (0 <= (r * 4 + 3) / 146097 <= 4) as Hc by lia.
  set (c := (r * 4 + 3) / 146097) in *. clearbody c.
  do 4 ar1. replace (N + (60 + q * 3 + c)) with (N + 60 + 3 * q + c) by lia.
  set (M := N + 60 + 3 * q + c) in *.
  assert (0 <= M <= 4294967295) as HM by (subst M; lia). clearbody M.
  rewrite (Z.quot_div_nonneg M) by lia.
  pose proof (Z.div_mod M 1461 ltac:(lia)) as EM.
  pose proof (Z.mod_pos_bound M 1461 ltac:(lia)) as BM.
  set (Q := M / 1461) in *. set (R := M mod 1461) in *. clearbody Q R.
  do 2 ar1. replace (M - Q * 1461) with R by lia. ar1.
  rewrite (Z.quot_div_nonneg (R * 4)) by lia.
  unfold G2. assert (0 <= R * 4 / 1461 <= 4) as Hy by lia.
  set (yy := R * 4 / 1461) in *. clearbody yy.
  rewrite wrap32_id by (rng; lia).
  set (k := (if yy =? 0 then (R + 306) mod 366 else (R + 305) mod 365) + 123).
  assert (123 <= k <= 488) as Hk by (subst k; destruct (yy =? 0); lia).
  match goal with |- bind ?e _ = _ => assert (e = Ok k) as -> end.
  { subst k. destruct (yy =? 0); cbn [negb].
    - ar1. rewrite (Z.rem_mod_nonneg) by lia. rewrite aru32_ok by (rng; lia). f_equal. 
    - ar1. rewrite (Z.rem_mod_nonneg) by lia. rewrite aru32_ok by (rng; lia). f_equal. }
  clearbody k. cbn [bind]. ar1. rewrite wrap32_id by (rng; lia). ar1. ar1. ar1.
  rewrite (Z.quot_div_nonneg (k * 2141)) by lia.
  assert (4 <= k * 2141 / 65536 <= 15) as Hp by lia.
  assert (7834 * (k * 2141 / 65536) / 256 <= k) as Hpk by lia.
  set (p := k * 2141 / 65536) in *. clearbody p.
  ar1. rewrite (Z.quot_div_nonneg (7834 * p)) by lia.
  assert (0 <= 7834 * p / 256) by lia.
  ar1. ar1. unfold Common.MONTHS_PER_YEAR. change (wrapu32 12) with 12.
  rewrite (Z.rem_mod_nonneg) by lia.
  ar1. rewrite !wrap32_id by (rng; lia).
  replace (Q * 4) with (4 * Q) by lia. reflexivity.
Qed.

Lemma julian2date_G md jd : 0 <= jd <= 2147483647 -> julian2date md jd = Ok (G jd).
Proof.
  intros H. pose proof (julian2date_Gu md jd) as E.
  rewrite wrapu32_id in E by (rng; lia). apply E. lia.
Qed.

(** Finite check over one four-year cycle: [e] years after the start of the cycle (years start in
    March), [k] days into that year. *)
Definition cycle_ok (e : Z) (m d : Z) : bool :=
  let '(s, k) := if 2 <? m then (0, m + 1) else (1, m + 13) in
  let r := 365 * e + (7834 * k / 256 + d - 123) + 60 in
  let '(yy, m', d') := G2 (r mod 1461) in
  (yy + 4 * (r / 1461) =? e + s) && (m' =? m) && (d' =? d).
Definition zrange (a n : nat) : list Z := map Z.of_nat (seq a n).
Definition cycle_check : bool :=
  forallb (fun e => forallb (fun m => forallb (fun d =>
    if (d <=? (if m =? 2 then (if e =? 3 then 29 else 28) else month_len 1 m))
    then cycle_ok e m d else true) (zrange 1 31)) (zrange 1 12)) (zrange 0 4).
Lemma cycle_check_ok : cycle_check = true.
Proof. vm_compute. reflexivity. Qed.

Lemma in_zrange a n z : Z.of_nat a <= z < Z.of_nat a + Z.of_nat n -> In z (zrange a n).
Proof.
  intros H. unfold zrange. apply in_map_iff. exists (Z.to_nat z). split; [lia|].
  apply in_seq. lia.
Qed.

Lemma cycle_lift e m d :
  0 <= e <= 3 -> 1 <= m <= 12 ->
  1 <= d <= (if m =? 2 then (if e =? 3 then 29 else 28) else month_len 1 m) ->
  cycle_ok e m d = true.
Proof.
  intros He Hm Hd. pose proof cycle_check_ok as C. unfold cycle_check in C.
  rewrite forallb_forall in C. specialize (C e (in_zrange 0 4 e ltac:(lia))).
  rewrite forallb_forall in C. specialize (C m (in_zrange 1 12 m ltac:(lia))).
  assert (d <= 31).
  { pose proof (month_len_bounds 1 m Hm). destruct (m =? 2), (e =? 3); lia. }
  rewrite forallb_forall in C. specialize (C d (in_zrange 1 31 d ltac:(lia))).
  cbv beta in C. destruct (Z.leb_spec d (if m =? 2 then if e =? 3 then 29 else 28 else month_len 1 m)); [auto|lia].
Qed.

Lemma G_J y m d : valid_ymd (y, m, d) -> G (J (y, m, d)) = (y, m, d).
Proof.
  intros [Hm Hd].
  set (a := fst (shift y m)). set (s := if 2 <? m then 0 else 1).
  assert (a = y + 4800 - s) as Ha by (subst a s; unfold shift; destruct (2 <? m); cbn; lia).
  set (kk := 7834 * snd (shift y m) / 256 + d - 123).
  assert (J (y, m, d) = 365 * a + a / 4 - a / 100 + a / 400 + kk - 32044) as EJ.
  { subst a kk. unfold J. destruct (shift y m). cbn. lia. }
  rewrite EJ. clear EJ.
  (* decompose the shifted year *)
  set (q := a / 400). set (c := (a mod 400) / 100). set (b := (a mod 100) / 4). set (e := a mod 4).
  assert (a = 400 * q + 100 * c + 4 * b + e /\ 0 <= c <= 3 /\ 0 <= b <= 24 /\ 0 <= e <= 3) as (Ea & Hc & Hb & He).
  { subst q c b e. clear. 
    assert (a mod 400 = 100 * (a mod 400 / 100) + a mod 100) by lia.
    assert (a mod 100 = 4 * (a mod 100 / 4) + a mod 4) by lia. lia. }
  assert (a / 4 = 100 * q + 25 * c + b) as E4 by lia.
  assert (a / 100 = 4 * q + c) as E100 by lia.
  rewrite E4, E100. fold q.
  (* bound on the day within the shifted year *)
  assert (1 <= d <= (if m =? 2 then (if e =? 3 then 29 else 28) else month_len 1 m)
          /\ (m = 2 /\ d = 29 -> e = 3 /\ (b < 24 \/ c = 3))) as [Hd2 Hd29].
  { destruct (Z.eqb_spec m 2) as [->|Hm2].
    - assert (s = 1) as Es by reflexivity. rewrite Es in Ha.
      cbn in Hd. destruct (leap_cases y) as [[L ?]|[L ?]]; rewrite L in Hd.
      + assert (e = 3) by (subst e; lia). 
        assert (b < 24 \/ c = 3) by lia.
        destruct (e =? 3) eqn:?; lia.
      + destruct (e =? 3); lia.
    - split; [|lia]. month12 Hm; try lia; cbn in *; lia. }
  pose proof (cycle_lift e m d He Hm Hd2) as C. unfold cycle_ok in C.
  assert (0 <= kk <= 365 /\ (kk = 365 -> e = 3 /\ (b < 24 \/ c = 3))) as [Hk Hk365].
  { subst kk. unfold shift. clear C.
    month12 Hm; cbn in Hd2 |- *; zcomp; try lia. destruct (e =? 3) eqn:?; lia. }
  assert (snd (shift y m) = if 2 <? m then m + 1 else m + 13) as Es
    by (unfold shift; destruct (2 <? m); reflexivity).
  assert (365 * e + kk + 60 = 365 * e + (7834 * (if 2 <? m then m + 1 else m + 13) / 256 + d - 123) + 60) as Er
    by (subst kk; rewrite Es; lia).
  unfold G.
  replace (365 * a + (100 * q + 25 * c + b) - (4 * q + c) + q + kk - 32044 + 32044)
    with (146097 * q + (36524 * c + 1461 * b + 365 * e + kk)) by lia.
  set (r := 36524 * c + 1461 * b + 365 * e + kk).
  assert (0 <= r < 146097) as Hr by (subst r; lia).
  replace ((146097 * q + r) / 146097) with q by lia.
  replace ((146097 * q + r) mod 146097) with r by lia.
  replace ((4 * r + 3) / 146097) with c by (subst r; lia).
  replace (146097 * q + r + 60 + 3 * q + c)
    with ((100 * q + 25 * c + b) * 1461 + (365 * e + kk + 60)) by (subst r; lia).
  rewrite Er. fold s.
  rewrite (Z.add_comm (_ * 1461)), Z.mod_add, Z.div_add by lia.
  destruct (2 <? m) eqn:Em2; subst s;
    destruct (G2 _) as [[yy m'] d']; f_equal; [f_equal| |f_equal|]; lia.
Qed.

Lemma G_day_of n : 0 <= n -> G n = day_of n.
Proof.
  intros H. rewrite <- (J_day_of n H) at 1.
  pose proof (day_of_valid n). destruct (day_of n) as [[y m] d]. now apply G_J.
Qed.

Lemma julian2date_ok md jd : 0 <= jd <= 2147483647 -> julian2date md jd = Ok (day_of jd).
Proof. intros. rewrite julian2date_G, G_day_of by lia. reflexivity. Qed.

(** Julian numbers beyond the i32 range still decode as unsigned ones, to very late days. *)
Lemma julian2date_late md jd : -2147483648 <= jd < -130000 ->
  julian2date md jd = Ok (day_of (jd + 4294967296)).
Proof.
  intros H. assert (wrapu32 jd = jd + 4294967296) as E.
  { unfold wrapu32. lia. }
  rewrite julian2date_Gu, E, G_day_of by lia. reflexivity.
Qed.
