(** Texts of times just after midnight at the end of the day. *)
From Verif Require Import Model.Parse Model.Format Spec.Calendar Spec.Ranges Spec.Clock Spec.Text Spec.DateText Spec.TimeText
  Proofs.Arith Proofs.DigitsP Proofs.TsP Proofs.FormatP Proofs.ParseP Proofs.RoundTripP Proofs.NumDateP Proofs.ClockTextP.
From Coq Require Import List ZArith Bool Lia.
Import ListNotations.
Open Scope Z_scope.

Lemma date2time_late md T : usecs_day < T <= 86401000000 ->
  date2time md T = Ok (24, 0, (T - usecs_day) / 1000000, (T - usecs_day) mod 1000000).
Proof.
  unfold usecs_day. intros H. unfold date2time, USECS_PER_HOUR, USECS_PER_MINUTE, USECS_PER_SEC.
  rewrite (Z.quot_div_nonneg T) by lia. replace (T / 3600000000) with 24 by lia. rewrite wrap32_id by (rng; lia).
  ar_unfold. ar1. ar1.
  rewrite (Z.quot_div_nonneg (T - 24 * 3600000000)) by lia. replace ((T - 24 * 3600000000) / 60000000) with 0 by lia.
  rewrite wrap32_id by (rng; lia). ar1. ar1.
  rewrite (Z.quot_div_nonneg (T - 24 * 3600000000 - 0 * 60000000)) by lia.
  replace (T - 24 * 3600000000 - 0 * 60000000) with (T - 86400000000) by lia.
  rewrite wrap32_id by (rng; lia). ar1. ar1. do 2 f_equal. lia.
Qed.

(** The text of a clock is a way of writing it. *)
Lemma clock_words h mi s us t : 0 <= h < 100 -> 0 <= mi < 100 -> 0 <= s < 100 -> clock_text 2 h mi s us t -> time_words t h mi s us.
Proof.
  intros Hh Hm Hs (th & tm & ts & Ph & Pm & (ds & Pd & K) & ->).
  assert (forall n x, 0 <= n < 100 -> padded 2 n x -> short_digits x /\ digits_value x = n) as A.
  { intros n x N P. pose proof (padded_len2 n x P ltac:(lia)) as L.
    destruct P as [(D & E & V) _]. split; [|exact V]. split; [exact D|]. destruct x; [congruence|cbn in *; lia]. }
  destruct (A h th Hh Ph) as [Sh <-]. destruct (A mi tm Hm Pm) as [Sm <-]. destruct (A s ds Hs Pd) as [Ss <-].
  destruct K as [[-> ->]|(N & fr & (F & _ & L & V & _) & ->)].
  - now apply TW_hms.
  - rewrite <- V. apply (TW_hmsf th tm ds fr); auto. split; assumption.
Qed.

Lemma time_format_late md t : usecs_day < t <= 86401000000 -> exists s us txt, time_format md t = Ok txt
  /\ time_words txt 24 0 s us /\ ~ (s = 0 /\ us = 0) /\ 0 <= s <= 1.
Proof.
  intros H. exists ((t - usecs_day) / 1000000), ((t - usecs_day) mod 1000000). unfold time_format, time_to_pgtime.
  rewrite date2time_late by exact H. unfold usecs_day in *. cbn [bind].
  set (s := (t - 86400000000) / 1000000). set (us := (t - 86400000000) mod 1000000).
  assert (0 <= s <= 1 /\ 0 <= us < 1000000 /\ ~ (s = 0 /\ us = 0)) as (Bs & Bu & N) by (subst s us; lia). clearbody s us.
  cbn [fst snd]. destruct (hms_ok md (set_sec s (set_min 0 (set_hour 24 tm_new))) us) as (txt & Et & C); cbn [tm_hour tm_min tm_sec set_sec set_min set_hour]; rng; try lia.
  rewrite Et. cbn [bind]. cbn [tm_hour tm_min tm_sec set_sec set_min set_hour tm_new] in C.
  pose proof (clock_len _ _ _ _ _ _ 2 C ltac:(change (10 ^ Z.of_nat 2) with 100; lia) ltac:(lia) ltac:(lia) ltac:(lia)) as L.
  exists txt. rewrite fits_ok by lia. repeat split; auto. apply clock_words; [lia..|exact C]. all: lia.
Qed.
