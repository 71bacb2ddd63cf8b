(** Dates given by a count of days (C62). *)
From Verif Require Import Model.Parse Spec.Calendar Spec.Ranges Spec.Text Spec.DateText Spec.TimeText Spec.Lexing Spec.DateWords Spec.DayCount
  Proofs.Cal Proofs.DayCountP.
From Coq Require Import List ZArith Bool Lia.
Import ListNotations.
Open Scope Z_scope.

(** ** Julian days: "J2451545", "jd 2451545", "Julian 2451545", then possibly a time and an era *)

(** The day meant is that many days after 24 November 4714 BC; the time is checked, the era is ignored. *)
Theorem C62_julian_date : forall md order w b ds td tt c e n,
  julian_text w b ds td -> DateWords.time_part true tt c ->
  date_try_from_str md (td ++ tt ++ era_text e) order = Ok n
  <-> n = digits_value ds - 2451545 /\ c <> None /\ valid_date n.
Proof.
  intros md order w b ds td tt c e n T Tp. destruct (Z.le_gt_cases (digits_value ds) i32_max) as [B|B].
  - destruct (julian_dated md order w b ds td tt c e T Tp B) as (H1 & H2 & _). split.
    + intros E. destruct c as [k|].
      2:{ destruct H2 as [er H2]; [now left|congruence]. }
      destruct (Z.le_gt_cases (-2451545) (digits_value ds - 2451545)), (Z.le_gt_cases (digits_value ds - 2451545) 2145031948).
      1:{ assert (valid_date (digits_value ds - 2451545)) as V by (split; lia). specialize (H1 ltac:(discriminate) V).
          assert (n = digits_value ds - 2451545) as -> by congruence. repeat split; discriminate || apply V. }
      all: destruct H2 as [er H2]; [right; unfold valid_date; lia|congruence].
    + intros (-> & C & V). now apply H1.
  - destruct (julian_big md order w b ds td tt c e T Tp B) as [[er E] _]. rewrite E. split; [discriminate|].
    intros (-> & _ & V). unfold valid_date in V. unfold i32_max in B. lia.
Qed.
Print Assumptions C62_julian_date.
(** Everything else is refused with an error, without a panic. *)
Theorem C62_julian_date_refused : forall md order w b ds td tt c e,
  julian_text w b ds td -> DateWords.time_part true tt c ->
  c = None \/ ~ valid_date (digits_value ds - 2451545) ->
  exists er, date_try_from_str md (td ++ tt ++ era_text e) order = Err er.
Proof.
  intros md order w b ds td tt c e T Tp N. destruct (Z.le_gt_cases (digits_value ds) i32_max) as [B|B].
  - now apply (julian_dated md order w b ds td tt c e T Tp B).
  - now apply (julian_big md order w b ds td tt c e T Tp B).
Qed.
Print Assumptions C62_julian_date_refused.

(** As a timestamp it is midnight of that day, or the time written. *)
Theorem C62_julian_timestamp : forall md order w b ds td tt k e p,
  julian_text w b ds td -> DateWords.time_part true tt (Some k) ->
  valid_ts ((digits_value ds - 2451545) * usecs_day + k) ->
  timestamp_try_from_str md (td ++ tt ++ era_text e) p order
  = timestamp_adjust_by_typmod md ((digits_value ds - 2451545) * usecs_day + k) p.
Proof.
  intros md order w b ds td tt k e p T Tp V. destruct (Z.le_gt_cases (digits_value ds) i32_max) as [B|B].
  - now apply (julian_dated md order w b ds td tt (Some k) e T Tp B).
  - exfalso. pose proof (time_part_low _ _ _ Tp). unfold valid_ts, usecs_day, i32_max in *. lia.
Qed.
Print Assumptions C62_julian_timestamp.
Theorem C62_julian_timestamp_refused : forall md order w b ds td tt c e p,
  julian_text w b ds td -> DateWords.time_part true tt c ->
  (forall k, c = Some k -> ~ valid_ts ((digits_value ds - 2451545) * usecs_day + k)) ->
  exists er, timestamp_try_from_str md (td ++ tt ++ era_text e) p order = Err er.
Proof.
  intros md order w b ds td tt c e p T Tp N. destruct (Z.le_gt_cases (digits_value ds) i32_max) as [B|B].
  - apply (julian_dated md order w b ds td tt c e T Tp B). destruct c as [k|]; [right; eauto|now left].
  - now apply (julian_big md order w b ds td tt c e T Tp B).
Qed.
Print Assumptions C62_julian_timestamp_refused.

(** ** Days of the year: "1999-008", "1999.008", "1999/008", "1999 008", then possibly a time and an era *)

(** Day 1 is 1 January; the days of the year run on from there. *)
Theorem C62_year_day_date : forall md order Y D td tt c e y n n',
  year_day_text order Y D td -> 1 <= digits_value D <= 366 -> DateWords.time_part true tt c ->
  meant_year_day e Y D y n -> y <= 5874897 -> -2451545 <= n ->
  date_try_from_str md (td ++ tt ++ era_text e) order = Ok n' <-> n' = n /\ c <> None /\ valid_date n.
Proof.
  intros md order Y D td tt c e y n n' T V Tp M Hy Hn.
  destruct (year_day_dated md order Y D td tt c e y n T V Tp M Hy Hn) as (H1 & H2 & _). split.
  - intros E. destruct c as [k|].
    2:{ destruct H2 as [er H2]; [now left|congruence]. }
    destruct (Z.le_gt_cases n 2145031948).
    + assert (valid_date n) as Vn by (split; lia). specialize (H1 ltac:(discriminate) Vn).
      assert (n' = n) as -> by congruence. repeat split; discriminate || apply Vn.
    + destruct H2 as [er H2]; [right; unfold valid_date; lia|congruence].
  - intros (-> & C & Vn). now apply H1.
Qed.
Print Assumptions C62_year_day_date.
Theorem C62_year_day_timestamp : forall md order Y D td tt k e y n p,
  year_day_text order Y D td -> 1 <= digits_value D <= 366 -> DateWords.time_part true tt (Some k) ->
  meant_year_day e Y D y n -> -2451545 <= n -> valid_ts (n * usecs_day + k) ->
  timestamp_try_from_str md (td ++ tt ++ era_text e) p order = timestamp_adjust_by_typmod md (n * usecs_day + k) p.
Proof.
  intros md order Y D td tt k e y n p T V Tp M Hn Vt. pose proof (year_day_bounds e Y D y n true tt k M V Tp Vt) as Hy.
  now apply (year_day_dated md order Y D td tt (Some k) e y n T V Tp M Hy Hn).
Qed.
Print Assumptions C62_year_day_timestamp.
(** Day 000, days after 366 and year 0 are refused. *)
Theorem C62_year_day_refused : forall md order Y D sep tt c e p,
  (3 <= length Y)%nat \/ order = YMD -> short_digits Y -> Forall digit D -> length D = 3%nat -> separator sep ->
  ~ 1 <= digits_value D <= 366 \/ meant_year e Y = None -> DateWords.time_part true tt c ->
  (exists er, date_try_from_str md ((Y ++ sep :: D) ++ tt ++ era_text e) order = Err er)
  /\ exists er, timestamp_try_from_str md ((Y ++ sep :: D) ++ tt ++ era_text e) p order = Err er.
Proof.
  intros md order Y D sep tt c e p Yf PY FD LD S N Tp.
  assert (1 <= digits_value D <= 366 \/ ~ 1 <= digits_value D <= 366) as [V|V] by lia.
  - destruct N as [N|N]; [easy|].
    destruct (year_day_none md order Y D (Y ++ sep :: D) tt c e) as [H1 H2]; auto.
    split; [exact Yf|]. split; [exact FD|]. split; [exact LD|]. left. eauto.
  - destruct (year_day_refused md order Y D sep tt c e Yf PY FD LD S V Tp) as [H1 H2]. auto.
Qed.
Print Assumptions C62_year_day_refused.

(** Day 366 of a year of 365 days is not refused: it is 1 January of the next year. *)
Theorem C62_year_length_refuted :
  date_try_from_str Debug (bs "1999-366") YMD = Ok 0 /\ date_try_from_str Release (bs "1999-366") YMD = Ok 0
  /\ month_len 1999 2 = 28.
Proof. vm_compute. auto. Qed.
Print Assumptions C62_year_length_refuted.
(** Beyond the bounds of [C62_year_day_date] the arithmetic overflows: a panic with overflow checks, and
    without them a year far out of range is read as a date in 8778. *)
Theorem C62_year_bound_refuted :
  date_try_from_str Debug (bs "9999999-001") YMD = Fault FArith
  /\ date_try_from_str Debug (bs "4715-001 BC") YMD = Fault FArith
  /\ timestamp_try_from_str Release (bs "11768000-001") (-1) YMD = Ok 213922857600000000.
Proof. vm_compute. auto. Qed.
Print Assumptions C62_year_bound_refuted.

Ltac digs := match goal with |- Forall digit ?l => let l' := eval vm_compute in l in change (Forall digit l') end;
  repeat (apply Forall_cons; [unfold digit; lia|]); apply Forall_nil.
Example C62_case :
  julian_text (bs "Julian") [32] (bs "2451545") (bs "Julian 2451545")
  /\ year_day_text YMD (bs "1999") (bs "008") (bs "1999.008") /\ year_day_text DMY (bs "1999") (bs "008") (bs "1999 008")
  /\ meant_year_day MarkedAD (bs "2000") (bs "366") 2000 365
  /\ date_try_from_str Debug (bs "J2451187") MDY = Ok (-358)
  /\ date_try_from_str Debug (bs "1999.008") MDY = Ok (-358)
  /\ timestamp_try_from_str Debug (bs "1999 008 04:05 AD") (-1) MDY = Ok (-30916500000000)
  /\ date_try_from_str Debug (bs "J2451187 25:00") MDY = Err EOverflow
  /\ date_try_from_str Debug (bs "J2147483494") MDY = Err EInvalid
  /\ date_try_from_str Debug (bs "J2147483648") MDY = Err EOverflow
  /\ date_try_from_str Debug (bs "1999-367") MDY = Err EInvalid.
Proof.
  split. { split; [exists (bs "julian"); split; [cbn; auto|change (any_case [74; 117; 108; 105; 97; 110] [106; 117; 108; 105; 97; 110]);
             repeat (apply Forall2_cons; [lia|]); apply Forall2_nil]|].
           split; [repeat constructor; unfold white; lia|]. split; [digs|]. split; [cbn; lia|reflexivity]. }
  split. { split; [left; cbn; lia|]. split; [digs|]. split; [reflexivity|]. left.
           split; [split; [digs|cbn; lia]|]. exists 46. split; [unfold separator; lia|reflexivity]. }
  split. { split; [left; cbn; lia|]. split; [digs|]. split; [reflexivity|]. right.
           split; [split; [digs|cbn; lia]|reflexivity]. }
  split. { split; [reflexivity|]. exists 0. split; [left; split; [lia|reflexivity]|reflexivity]. }
  vm_compute. auto 10.
Qed.
