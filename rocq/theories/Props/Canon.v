(** Whatever text was accepted, the value can be written out and read back: C79. *)
From Coq Require Import String.
From Verif Require Import Model.Parse Model.Format Model.DateTime Spec.Calendar Spec.Ranges Spec.Clock Spec.Text Spec.TimeText Spec.IntervalS Spec.Builds
  Proofs.CanonP Proofs.TypedP Proofs.FormatP Proofs.RoundTripP Proofs.ClockTextP Props.Parsed Props.Text Props.Builds Props.Unique Props.Words Props.Intervals Props.IntervalText Props.Precision.
From Coq Require Import List ZArith Bool Lia.
Import List ListNotations.
Open Scope Z_scope.

Lemma same_build {A} (f : mode -> res A) md md' a b : agree (f Debug) (f Release) -> f md = Ok a -> f md' = Ok b -> a = b.
Proof.
  unfold agree. intros H E E'. destruct md, md'; try congruence; destruct H as [[g H]|H]; congruence.
Qed.

(** Dates: the ISO text does not depend on the order nor on the build, and is read as the same date with
    any order in any build, whatever the first text was. *)
Theorem C79_date : forall md s o n, date_try_from_str md s o = Ok n -> exists txt,
  (forall md' style po, style = SISO \/ style = SXSD -> date_format md' n style po = Ok txt)
  /\ forall md' ro, date_try_from_str md' txt ro = Ok n.
Proof.
  intros md s o n P. assert (valid_date n \/ n = neg_inf_date \/ n = pos_inf_date) as V by (destruct (C43_date _ _ _ _ P) as [V|[V|V]]; auto).
  destruct (C32_roundtrip Debug n SISO YMD YMD (or_introl eq_refl) V) as (txt & F & _). exists txt.
  assert (forall md' style po, style = SISO \/ style = SXSD -> date_format md' n style po = Ok txt) as A.
  { intros md' style po S. destruct (C32_roundtrip md' n SISO YMD YMD (or_introl eq_refl) V) as (u & G & _).
    assert (u = txt) as -> by (eapply (same_build (fun m => date_format m n SISO YMD)); [apply C66_format|exact G|exact F]).
    destruct S as [-> | ->]; exact G. }
  split; [exact A|]. intros md' ro. destruct (C32_roundtrip md' n SISO YMD ro (or_introl eq_refl) V) as (u & G & R).
  rewrite A in G by auto. congruence.
Qed.
Print Assumptions C79_date.
(** So two accepted texts mean the same date exactly if they are written out alike. *)
Theorem C79_same_date : forall md s o n s' o' n' style po, date_try_from_str md s o = Ok n -> date_try_from_str md s' o' = Ok n' ->
  (n = n' <-> date_format md n style po = date_format md n' style po).
Proof.
  intros md s o n s' o' n' style po P P'. split; [congruence|]. intros E.
  assert (valid_date n \/ n = neg_inf_date \/ n = pos_inf_date) as V by (destruct (C43_date _ _ _ _ P) as [V|[V|V]]; auto).
  assert (valid_date n' \/ n' = neg_inf_date \/ n' = pos_inf_date) as V' by (destruct (C43_date _ _ _ _ P') as [V'|[V'|V']]; auto).
  assert (exists t, date_format md n style po = Ok t) as (t & T).
  { destruct V as [V|V]; [|destruct (C33_infinity md n style po YMD V) as (t & T & _); eauto].
    destruct (date_format_ok md n style po V) as (c & t & T & _). eauto. }
  apply (C74_date md md n n' style po t V V'); congruence.
Qed.
Print Assumptions C79_same_date.

(** Timestamps, with full precision ... *)
Theorem C79_timestamp : forall md s o n p, p = -1 \/ p = 6 -> timestamp_try_from_str md s p o = Ok n -> exists txt,
  (forall md' po, timestamp_format md' n SISO po = Ok txt)
  /\ forall md' ro, timestamp_try_from_str md' txt (-1) ro = Ok n.
Proof.
  intros md s o n p Pr P. assert (valid_ts n \/ n = neg_inf_ts \/ n = pos_inf_ts) as V by (destruct (C43_timestamp _ _ _ _ _ Pr P) as [V|[V|V]]; auto).
  destruct (C35_iso Debug n SISO YMD YMD (or_introl eq_refl) V) as (txt & F & _). exists txt.
  assert (forall md' po, timestamp_format md' n SISO po = Ok txt) as A.
  { intros md' po. destruct (C35_iso md' n SISO YMD YMD (or_introl eq_refl) V) as (u & G & _).
    assert (u = txt) as -> by (eapply (same_build (fun m => timestamp_format m n SISO YMD)); [apply C66_format|exact G|exact F]).
    exact G. }
  split; [exact A|]. intros md' ro. destruct (C35_iso md' n SISO YMD ro (or_introl eq_refl) V) as (u & G & R).
  rewrite A in G. congruence.
Qed.
Print Assumptions C79_timestamp.
(** ... and with a precision: reading the text of a rounded timestamp with that precision again changes nothing. *)
Theorem C79_precision : forall md s o n p, 0 <= p <= 6 -> timestamp_try_from_str md s p o = Ok n -> valid_ts n -> exists txt,
  timestamp_format md n SISO o = Ok txt
  /\ forall ro q, p <= q <= 6 -> timestamp_try_from_str md txt q ro = Ok n.
Proof.
  intros md s o n p Hp P V. destruct (C35_iso md n SISO o YMD (or_introl eq_refl) (or_introl V)) as (txt & F & _). exists txt.
  split; [exact F|]. intros ro q Hq.
  rewrite (C35_typmod md n SISO o ro txt q V (fun _ _ _ _ _ _ => I) F).
  destruct (C29_timestamp md n q V ltac:(lia)) as (r & E & R). rewrite E. f_equal.
  assert (exists t, rounded (10 ^ (6 - p)) t n) as (t & Q).
  { pose proof (C61_timestamp md s o p Hp) as K. destruct (timestamp_try_from_str md s (-1) o) as [t| |]; [|congruence..].
    destruct K as (r' & K & Q). rewrite P in K. injection K as <-. destruct ((t =? pos_inf_ts) || (t =? neg_inf_ts)) eqn:I0; [|eauto].
    exfalso. subst. unfold valid_ts, pos_inf_ts, neg_inf_ts in *. lia. }
  destruct Q as (k & Ek & _).
  assert (10 ^ (6 - p) = 10 ^ (q - p) * 10 ^ (6 - q)) as Ep by (rewrite <- Z.pow_add_r by lia; f_equal; lia).
  assert (0 < 10 ^ (6 - q)) as U by (apply Z.pow_pos_nonneg; lia).
  apply (C29_rounded_function (10 ^ (6 - q)) n); [exact U|exact R|].
  apply (TimeP.rounded_idem _ n (k * 10 ^ (q - p))); [exact U|]. rewrite Ek, Ep. ring.
Qed.
Print Assumptions C79_precision.
Theorem C79_same_timestamp : forall md s o n s' o' n' p p' style po, p = -1 \/ p = 6 -> p' = -1 \/ p' = 6 ->
  timestamp_try_from_str md s p o = Ok n -> timestamp_try_from_str md s' p' o' = Ok n' ->
  (n = n' <-> timestamp_format md n style po = timestamp_format md n' style po).
Proof.
  intros md s o n s' o' n' p p' style po Hp Hp' P P'. split; [congruence|]. intros E.
  assert (valid_ts n \/ n = neg_inf_ts \/ n = pos_inf_ts) as V by (destruct (C43_timestamp _ _ _ _ _ Hp P) as [V|[V|V]]; auto).
  assert (valid_ts n' \/ n' = neg_inf_ts \/ n' = pos_inf_ts) as V' by (destruct (C43_timestamp _ _ _ _ _ Hp' P') as [V'|[V'|V']]; auto).
  assert (exists t, timestamp_format md n style po = Ok t) as (t & T).
  { destruct V as [V|V]; [|destruct (C35_infinity md n style po YMD V) as (t & T & _); eauto].
    destruct (timestamp_format_ok md n style po V) as (c & h & mi & se & us & t & T & _). eauto. }
  apply (C74_timestamp md md n n' style po t V V'); congruence.
Qed.
Print Assumptions C79_same_timestamp.
(** Not all of them: the last half second of the range rounds to a timestamp that is written out but not read. *)
Theorem C79_timestamp_refuted : exists s n txt, forall md,
  timestamp_try_from_str md s 0 YMD = Ok n /\ timestamp_format md n SISO YMD = Ok txt
  /\ forall p, In p [-1; 0; 1; 2; 3; 4; 5; 6] -> timestamp_try_from_str md txt p YMD = Err EInvalid.
Proof.
  exists (bs "294276-12-31 23:59:59.6"), 9223371331200000000, (bs "294277-01-01 00:00:00").
  intros md. split; [destruct md; vm_compute; reflexivity|]. split; [destruct md; vm_compute; reflexivity|].
  intros p I. cbn in I. decompose [or] I; subst; try contradiction; destruct md; vm_compute; reflexivity.
Qed.
Print Assumptions C79_timestamp_refuted.

(** Times are read back up to 24:00:00. The leap second of 23:59:60 leads beyond that; its times are
    written as 24:00:00.5 or 24:00:01, and no such text is read, with any order. *)
Theorem C79_time : forall md s p o t, time_try_from_str md s p o = Ok t -> exists txt, time_format md t = Ok txt
  /\ (t <= usecs_day -> forall md' ro, time_try_from_str md' txt (-1) ro = Ok t)
  /\ (usecs_day < t -> forall md' ro, exists e, time_try_from_str md' txt (-1) ro = Err e).
Proof.
  intros md s p o t P. pose proof (C43_time _ _ _ _ _ P) as B. destruct (Z.le_gt_cases t usecs_day) as [L|L].
  - destruct (C34_roundtrip md t o ltac:(lia)) as (txt & F & _). exists txt. split; [exact F|]. split; [|lia]. intros _ md' ro.
    destruct (C34_roundtrip md' t ro ltac:(lia)) as (u & G & R).
    assert (u = txt) as <- by (eapply (same_build (fun m => time_format m t)); [apply C66_format|exact G|exact F]). exact R.
  - destruct (time_format_late md t ltac:(lia)) as (se & us & txt & F & W & N & Bs). exists txt. split; [exact F|]. split; [lia|].
    intros _ md' ro. pose proof (C55_time md' txt 24 0 se us NoHalf ro W) as R. cbn [half_text] in R. rewrite app_nil_r in R.
    unfold meant_clock in R. cbn [meant_hour] in R. change (24 <=? 24) with true in R. cbv iota in R.
    replace ((0 <=? 59) && (se <=? 60) && ((24 <? 24) || (0 =? 0) && (se =? 0) && (us =? 0))) with false in R; [exact R|].
    symmetry. destruct (Z.eqb_spec se 0), (Z.eqb_spec us 0); try tauto; cbn; now rewrite ?andb_false_r.
Qed.
Print Assumptions C79_time.
Theorem C79_leap_refuted : exists s t txt, forall md, time_try_from_str md s (-1) YMD = Ok t /\ time_format md t = Ok txt
  /\ time_try_from_str md txt (-1) YMD = Err EOverflow.
Proof. exists (bs "23:59:60.5"), 86400500000, (bs "24:00:00.5"). intros []; vm_compute; auto. Qed.
Print Assumptions C79_leap_refuted.

(** Intervals: every field of an interval read from any text fits its type ... *)
Theorem C79_interval_fits : forall md s p st a, interval_try_from_str md s p st = Ok a ->
  in_i32 (iv_month a) /\ in_i32 (iv_day a) /\ in_i64 (iv_time a).
Proof. exact parsed_fields. Qed.
Print Assumptions C79_interval_fits.
(** ... and its text in any style but ISO 8601 leads back, unless its whole minutes do not fit 32 bits or
    its day is the smallest; so the texts of the three styles agree with one another. *)
Theorem C79_interval : forall md s p st a style, interval_try_from_str md s p st = Ok a ->
  minutes_fit a -> iv_day a <> -2147483648 -> style <> IISO8601 ->
  exists txt, forall md', interval_format md' a style = Ok txt /\ interval_try_from_str md' txt (-1) style = Ok a.
Proof.
  intros md s p st a style P T Dy N. assert (readable_iv a) as V by (split; [exact (parsed_fields _ _ _ _ _ P)|auto]).
  assert (forall m, exists txt, interval_format m a style = Ok txt /\ interval_try_from_str m txt (-1) style = Ok a) as A.
  { intros m. destruct style; [now apply C37_roundtrip; auto|now apply C37_roundtrip; auto|now apply C36_roundtrip|congruence]. }
  destruct (A Debug) as (txt & F & _). exists txt. intros md'. destruct (A md') as (u & G & R).
  assert (u = txt) as <- by (eapply (same_build (fun m => interval_format m a style)); [apply C66_format|exact G|exact F]). auto.
Qed.
Print Assumptions C79_interval.
Theorem C79_same_interval : forall md s p st a s' p' st' b style txt,
  interval_try_from_str md s p st = Ok a -> interval_try_from_str md s' p' st' = Ok b ->
  iv_day a <> i32_min -> Z.abs (iv_time a) < 2147483648 * 3600000000 ->
  iv_day b <> i32_min -> Z.abs (iv_time b) < 2147483648 * 3600000000 ->
  interval_format md a style = Ok txt -> interval_format md b style = Ok txt -> a = b.
Proof.
  intros md s p st a s' p' st' b style txt P P' Da Ta Db Tb.
  apply (C74_interval md md a b style txt); eauto using parsed_fields; eapply parsed_fields; eassumption.
Qed.
Print Assumptions C79_same_interval.

Example C79_ex : timestamp_try_from_str Debug (bs "January 8, 99 BC 4:05:06.789 PM") 1 MDY = Ok (-66205842893200000)
  /\ valid_ts (-66205842893200000) /\ time_try_from_str Debug (bs "0405 PM") (-1) MDY = Ok 57900000000
  /\ interval_try_from_str Debug (bs "1 day -00:00:01 ago") (-1) IPostgres = Ok (from_mdt 0 (-1) 1000000)
  /\ readable_iv (from_mdt 0 (-1) 1000000).
Proof. vm_compute. intuition congruence. Qed.
