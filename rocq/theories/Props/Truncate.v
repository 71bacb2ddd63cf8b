(** Truncation of intervals (C28) and of times of day (C52). *)
From Coq Require Import ZArith Lia.
From Verif Require Import Model.DateTime Spec.Ranges Spec.IntervalS Proofs.Arith Proofs.IntervalP
  Proofs.TimeP Proofs.IvTruncP Proofs.IvLimitP.
Open Scope Z_scope.

(** C28. The size of the time part up to which [truncate] works: the time units rebuild the value
    with a 32-bit product hour*60; the units from Day up only need the hour to fit 32 bits. *)
Theorem C28_truncate : forall md a unit, fields_ok a ->
  In unit [Millennium; Century; Decade; Year; Quarter; Month; Day; Hour; Minute; Second; MilliSec; MicroSec] ->
  Z.abs (iv_time a) < 35791394 * 3600000000 ->
  exists b, interval_truncate md a FTUnit unit = Ok b /\ truncated_iv unit a b.
Proof.
  intros md a unit F U L. apply interval_truncate_ok; auto.
  - cbn in U. repeat destruct U as [<-|U]; try reflexivity. contradiction.
  - unfold iv_limit. destruct (big_unit unit); lia.
Qed.
Print Assumptions C28_truncate.
Theorem C28_truncate_coarse : forall md a unit, fields_ok a ->
  In unit [Millennium; Century; Decade; Year; Quarter; Month; Day] ->
  Z.abs (iv_time a) < 2147483648 * 3600000000 ->
  exists b, interval_truncate md a FTUnit unit = Ok b /\ truncated_iv unit a b.
Proof.
  intros md a unit F U L. apply interval_truncate_ok; auto.
  - cbn in U. repeat destruct U as [<-|U]; try reflexivity. contradiction.
  - cbn in U. repeat destruct U as [<-|U]; try exact L. contradiction.
Qed.
Print Assumptions C28_truncate_coarse.
(** The relation fixes the result. *)
Theorem C28_truncated_unique : forall unit a b c, truncated_iv unit a b -> truncated_iv unit a c -> b = c.
Proof. exact truncated_fun. Qed.
Print Assumptions C28_truncated_unique.
Theorem C28_idempotent : forall md a unit b, fields_ok a ->
  Z.abs (iv_time a) < 35791394 * 3600000000 ->
  interval_truncate md a FTUnit unit = Ok b -> interval_truncate md b FTUnit unit = Ok b.
Proof.
  intros md a unit b F L E. destruct (trunc_unit unit) eqn:U.
  - destruct (interval_truncate_ok md a unit F U) as (c & Ec & Tc).
    { unfold iv_limit. destruct (big_unit unit); lia. }
    rewrite E in Ec. injection Ec as <-. destruct (truncated_ok unit a b F Tc) as (Fb & Bb).
    destruct (interval_truncate_ok md b unit Fb U) as (d & Ed & Td).
    { unfold iv_limit. destruct (big_unit unit); lia. }
    rewrite Ed. f_equal. eapply truncated_fun; [exact Td|]. eapply truncated_idem; eauto.
  - rewrite interval_truncate_bad in E by (auto; lia). discriminate.
Qed.
Print Assumptions C28_idempotent.
Theorem C28_microsec_identity : forall md a, fields_ok a ->
  Z.abs (iv_time a) < 35791394 * 3600000000 -> interval_truncate md a FTUnit MicroSec = Ok a.
Proof.
  intros md a F L. destruct (interval_truncate_ok md a MicroSec F eq_refl L) as (b & E & T).
  rewrite E. f_equal. eapply truncated_fun; [exact T|]. cbn. repeat split.
  exists (iv_time a). unfold agree. lia.
Qed.
Print Assumptions C28_microsec_identity.
Theorem C28_bad_unit : forall md a unit, fields_ok a -> Z.abs (iv_time a) < 2147483648 * 3600000000 ->
  In unit [Delta; Week; JULIAN; Dow; IsoDow; Doy; Tz; TzMinute; TzHour; IsoYear; Epoch] ->
  interval_truncate md a FTUnit unit = Err EInvalid.
Proof.
  intros md a unit F L U. apply interval_truncate_bad; auto.
  cbn in U. repeat destruct U as [<-|U]; try reflexivity. contradiction.
Qed.
Print Assumptions C28_bad_unit.
Theorem C28_epoch : forall md a unit, interval_truncate md a FTEpoch unit = Err EInvalid.
Proof. reflexivity. Qed.
Print Assumptions C28_epoch.
Theorem C28_huge : forall md a unit, fields_ok a -> Z.abs (iv_time a) >= 2147483649 * 3600000000 ->
  interval_truncate md a FTUnit unit = Err EOverflow.
Proof. exact interval_truncate_err. Qed.
Print Assumptions C28_huge.
(** The exact limit for the units from hours down: the whole minutes that are kept must fit 32
    bits.  Past it the call panics (overflow checks on) or returns something that is not the
    truncated interval (off); past 32-bit hours it is refused. *)
Theorem C28_limit : forall a unit minutes, fields_ok a ->
  In (unit, minutes) [(Hour, 60 * Z.quot (iv_time a) 3600000000); (Minute, Z.quot (iv_time a) 60000000);
    (Second, Z.quot (iv_time a) 60000000); (MilliSec, Z.quot (iv_time a) 60000000);
    (MicroSec, Z.quot (iv_time a) 60000000)] ->
  (-2147483648 <= minutes <= 2147483647 -> forall md, exists b,
     interval_truncate md a FTUnit unit = Ok b /\ truncated_iv unit a b) /\
  (~ (-2147483648 <= minutes <= 2147483647) ->
   -2147483648 <= Z.quot (iv_time a) 3600000000 <= 2147483647 ->
     interval_truncate Debug a FTUnit unit = Fault FArith /\
     exists b, interval_truncate Release a FTUnit unit = Ok b /\ ~ truncated_iv unit a b) /\
  (~ (-2147483648 <= Z.quot (iv_time a) 3600000000 <= 2147483647) -> forall md,
     interval_truncate md a FTUnit unit = Err EOverflow).
Proof.
  intros a unit minutes F U.
  assert (In unit [Hour; Minute; Second; MilliSec; MicroSec] /\ minutes = kept_minutes unit (iv_time a)) as (U1 & ->).
  { cbn [In] in U |- *. repeat destruct U as [U|U]; try contradiction; injection U as <- <-;
      (split; [tauto|reflexivity]). }
  split; [|split].
  - intros M md. apply truncate_limit; auto. eapply hours_of_minutes; eauto.
  - intros M H. destruct (truncate_limit a unit F U1 H) as (_ & P). exact (P M).
  - intros H. apply truncate_over; auto.
Qed.
Print Assumptions C28_limit.
Example C28_limit_case : exists a b, fields_ok a /\ fields_ok b /\
  Z.quot (iv_time a) 60000000 = 2147483647 /\ Z.quot (iv_time b) 60000000 = 2147483648 /\
  interval_truncate Debug a FTUnit MicroSec = Ok a /\ interval_truncate Debug b FTUnit MicroSec = Fault FArith.
Proof.
  exists (from_mdt 0 0 128849018879999999), (from_mdt 0 0 128849018880000000).
  split; [|split]; [unfold fields_ok; cbn; rng; lia|unfold fields_ok; cbn; rng; lia|].
  vm_compute. repeat split.
Qed.
(** Finding: from 35791395 hours on truncation panics (overflow checks on) or returns a wrong
    value (off), even for MicroSec. *)
Theorem C28_long_refuted : exists a, fields_ok a /\
  interval_truncate Debug a FTUnit MicroSec = Fault FArith /\
  (exists b, interval_truncate Release a FTUnit MicroSec = Ok b /\ b <> a).
Proof.
  exists (from_mdt 0 0 (35791395 * 3600000000)). split; [|split].
  - unfold fields_ok. cbn. rng. lia.
  - vm_compute. reflexivity.
  - exists (from_mdt 0 0 (-128849015760000000)). split; vm_compute; [reflexivity|discriminate].
Qed.
Print Assumptions C28_long_refuted.
Example C28_ex : interval_truncate Debug (from_mdt (-25) (-3) (-3723000004)) FTUnit Minute
    = Ok (from_mdt (-25) (-3) (-3720000000)) /\
  interval_truncate Release (from_mdt (-25) (-3) (-3723000004)) FTUnit Year = Ok (from_mdt (-24) 0 0) /\
  fields_ok (from_mdt (-25) (-3) (-3723000004)).
Proof. repeat split; vm_compute; try reflexivity; discriminate. Qed.

(** C52. *)
Theorem C52_truncate_down : forall md t unit u, 0 <= t < usecs_day ->
  In (unit, u) [(Hour, 3600000000); (Minute, 60000000); (Second, 1000000); (MilliSec, 1000); (MicroSec, 1)] ->
  exists r, time_truncate md t FTUnit unit = Ok r /\
    0 <= r <= t /\ t < r + u /\ (exists k, r = k * u).
Proof.
  intros md t unit u T H.
  assert (0 < u /\ trunc_unit unit = true) as [U X].
  { cbn in H. destruct H as [[= <- <-]|[[= <- <-]|[[= <- <-]|[[= <- <-]|[[= <- <-]|[]]]]]]; split; try lia; reflexivity. }
  destruct (time_truncate_ok md t unit ltac:(lia) X) as (r & E & R & _ & F).
  exists r. split; [exact E|].
  rewrite (F u) by (try lia; cbn in H; intuition congruence).
  pose proof (Z.mul_div_le t u U). pose proof (Z.mul_succ_div_gt t u U).
  assert (0 <= t / u) by (apply Z.div_pos; lia).
  set (q := t / u) in *. clearbody q. repeat split; try nia. exists q. reflexivity.
Qed.
Print Assumptions C52_truncate_down.
(** A time on the boundary is unchanged. *)
Theorem C52_on_boundary : forall md t unit u k, 0 <= t < usecs_day ->
  In (unit, u) [(Hour, 3600000000); (Minute, 60000000); (Second, 1000000); (MilliSec, 1000); (MicroSec, 1)] ->
  t = k * u -> time_truncate md t FTUnit unit = Ok t.
Proof.
  intros md t unit u k T H K. destruct (C52_truncate_down md t unit u T H) as (r & E & R & L & (j & J)).
  rewrite E. f_equal. assert (0 < u) as U.
  { cbn in H. destruct H as [[= <- <-]|[[= <- <-]|[[= <- <-]|[[= <- <-]|[[= <- <-]|[]]]]]]; reflexivity. }
  clear H E. subst t r. assert (j <= k) by nia. assert (k < j + 1) by nia. f_equal. lia.
Qed.
Print Assumptions C52_on_boundary.
Theorem C52_coarse : forall md t unit, 0 <= t <= usecs_day ->
  In unit [Day; Month; Quarter; Year; Decade; Century; Millennium] ->
  time_truncate md t FTUnit unit = Ok 0.
Proof.
  intros md t unit T H.
  assert (trunc_unit unit = true /\ big_unit unit = true) as [X Y].
  { cbn in H. repeat destruct H as [<-|H]; try (split; reflexivity). contradiction. }
  destruct (time_truncate_ok md t unit T X) as (r & E & R & B & _). rewrite E, (B Y). reflexivity.
Qed.
Print Assumptions C52_coarse.
Theorem C52_refused : forall md t unit, in_i64 t -> Z.abs t < 2147483648 * 3600000000 ->
  In unit [Delta; Week; JULIAN; Dow; IsoDow; Doy; Tz; TzMinute; TzHour; IsoYear; Epoch] ->
  time_truncate md t FTUnit unit = Err EInvalid.
Proof.
  intros md t unit I L H. unfold time_truncate. rewrite C28_bad_unit; auto.
  unfold fields_ok, interval_of_time. cbn [from_mdt iv_month iv_day iv_time]. rng. lia.
Qed.
Print Assumptions C52_refused.
(** Finding: the accepted reading 24:00:00 truncates to 00:00:00, so truncating to microseconds
    is not the identity. *)
Theorem C52_midnight_refuted : exists t, t = usecs_day /\
  (forall md, time_truncate md t FTUnit MicroSec = Ok 0) /\ t <> 0.
Proof. exists usecs_day. split; [reflexivity|]. split; [intros []; vm_compute; reflexivity|discriminate]. Qed.
Print Assumptions C52_midnight_refuted.
Example C52_ex : time_truncate Debug 3723004005 FTUnit Minute = Ok 3720000000 /\ 0 <= 3723004005 < usecs_day.
Proof. split; [vm_compute; reflexivity|unfold usecs_day; lia]. Qed.
