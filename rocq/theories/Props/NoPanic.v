(** No operation outside the parsers panics in a release build: C67. *)
From Verif Require Import Model.Parse Model.Serde Model.Format Model.Common Model.DateTime Spec.Builds Proofs.SafeP Proofs.NoPanicP.
From Coq Require Import ZArith List.
Import List ListNotations.
Open Scope Z_scope.

Lemma sf_only {A} md (r : res A) : sf md r -> only_overflow md r.
Proof. destruct r as [a|e|[]]; cbn; auto; contradiction. Qed.
Ltac safe := intros; apply sf_only; eauto with sf.

(** Values need not be valid: the fields of a value read from binary data are arbitrary. *)
Theorem C67_format : forall md,
  (forall d st o, only_overflow md (date_format md d st o))
  /\ (forall t, only_overflow md (time_format md t))
  /\ (forall t st o, only_overflow md (timestamp_format md t st o))
  /\ (forall a st, machine_interval a -> only_overflow md (interval_format md a st)).
Proof.
  intros md. repeat split; intros; apply sf_only; [apply sf_date_format|apply sf_time_format|apply sf_ts_format|].
  destruct H as (M & D & _). now apply sf_iv_format.
Qed.
Print Assumptions C67_format.

Theorem C67_construct : forall md,
  (forall y m d, only_overflow md (date_try_from_ymd md y m d))
  /\ (forall h m s, only_overflow md (time_try_from_hms md h m s))
  /\ (forall y mo d h m s, only_overflow md (timestamp_try_from_ymd_hms md y mo d h m s))
  /\ (forall y mo w d h m s, only_overflow md (interval_try_from_ymwd_hms y mo w d h m s))
  /\ (forall t p, only_overflow md (time_adjust_by_typmod md t p))
  /\ (forall t p, only_overflow md (timestamp_adjust_by_typmod md t p))
  /\ (forall a p, only_overflow md (interval_adjust_by_typmod md a p)).
Proof.
  intros md. repeat split; try (safe; fail). intros. unfold interval_try_from_ymwd_hms. destruct (_ || _); exact I.
Qed.
Print Assumptions C67_construct.

Theorem C67_convert : forall md,
  (forall t, only_overflow md (date_of_timestamp md t)) /\ (forall d, only_overflow md (timestamp_of_date md d))
  /\ (forall t, only_overflow md (time_of_timestamp md t)) /\ (forall a, only_overflow md (time_of_interval md a)).
Proof. intros md. repeat split; safe. Qed.
Print Assumptions C67_convert.

Theorem C67_date : forall md,
  (forall d n, only_overflow md (date_add_days d n)) /\ (forall d n, only_overflow md (date_sub_days d n))
  /\ (forall a b, only_overflow md (date_sub_date md a b))
  /\ (forall d i, only_overflow md (date_add_interval md d i)) /\ (forall d i, only_overflow md (date_sub_interval md d i))
  /\ (forall d t, only_overflow md (date_add_time md d t))
  /\ (forall d ty u, only_overflow md (date_date_part md d ty u)) /\ (forall d ty u, only_overflow md (date_truncate md d ty u)).
Proof.
  intros md. repeat split; try (safe; fail); intros; apply sf_only; unfold date_add_days, date_sub_days; sfs.
Qed.
Print Assumptions C67_date.

Theorem C67_time : forall md,
  (forall t i, only_overflow md (time_add_interval md t i)) /\ (forall t i, only_overflow md (time_sub_interval md t i))
  /\ (forall t ty u, only_overflow md (time_date_part md t ty u)) /\ (forall t ty u, only_overflow md (time_truncate md t ty u)).
Proof. intros md. repeat split; safe. Qed.
Print Assumptions C67_time.

Theorem C67_timestamp : forall md,
  (forall t i, only_overflow md (timestamp_add_interval md t i)) /\ (forall t i, only_overflow md (timestamp_sub_interval md t i))
  /\ (forall t c, only_overflow md (timestamp_add_time md t c)) /\ (forall t c, only_overflow md (timestamp_sub_time md t c))
  /\ (forall a b, only_overflow md (timestamp_sub_timestamp md a b)) /\ (forall t d, only_overflow md (timestamp_sub_date md t d))
  /\ (forall a b, in_i64 a -> in_i64 b -> only_overflow md (timestamp_age md a b))
  /\ (forall t ty u, only_overflow md (timestamp_date_part md t ty u)) /\ (forall t ty u, only_overflow md (timestamp_truncate md t ty u)).
Proof. intros md. repeat split; try (safe; fail). intros. apply sf_only. now apply sf_age. Qed.
Print Assumptions C67_timestamp.

Theorem C67_interval : forall md,
  (forall a b, only_overflow md (interval_add a b)) /\ (forall a b, only_overflow md (interval_sub a b))
  /\ (forall a, only_overflow md (interval_negate a))
  /\ (forall a, only_overflow md (justify_hours md a)) /\ (forall a, only_overflow md (justify_days md a))
  /\ (forall a, only_overflow md (justify_interval md a))
  /\ (forall a x, only_overflow md (interval_mul_f64 md a x)) /\ (forall a x, only_overflow md (interval_div_f64 md a x))
  /\ (forall a ty u, only_overflow md (interval_date_part md a ty u)) /\ (forall a ty u, only_overflow md (interval_truncate md a ty u)).
Proof.
  intros md. repeat split; try (safe; fail); intros; apply sf_only; unfold interval_add, interval_sub; sfs.
Qed.
Print Assumptions C67_interval.

Theorem C67_serde : forall md human,
  (forall d, only_overflow md (date_ser md human d)) /\ (forall t, only_overflow md (time_ser md human t))
  /\ (forall t, only_overflow md (timestamp_ser md human t))
  /\ (forall a, machine_interval a -> only_overflow md (interval_ser md human a)).
Proof.
  intros md human. repeat split; intros; apply sf_only; unfold date_ser, time_ser, timestamp_ser, interval_ser; destruct human; try exact I;
    (apply sf_bind; [|intros; exact I]); [apply sf_date_format|apply sf_time_format|apply sf_ts_format|].
  destruct H as (M & D & _). now apply sf_iv_format.
Qed.
Print Assumptions C67_serde.

(** Finding: the operator [+] on intervals panics in every build where [add_interval] refuses. *)
Theorem C67_plus_refuted : forall a b,
  interval_op_add a b = Fault FUnwrap <-> exists e, interval_add a b = Err e.
Proof.
  intros a b. unfold interval_op_add. split.
  - destruct (interval_add a b) as [r|e|f] eqn:E; [discriminate|eauto|]. exfalso. revert E. unfold interval_add, ok_or, bind.
    repeat destruct (chk32 _); try destruct (chk64 _); discriminate.
  - now intros (e & ->).
Qed.
Print Assumptions C67_plus_refuted.

(** Garbage in: a timestamp far before the calendar, an interval of extreme fields, the sum of two
    extreme intervals. *)
Example C67_case :
  timestamp_age Release 9223372036854775807 (-9223372036854775808) = Err EOverflow
  /\ interval_format Debug (from_mdt 5 (-2147483648) 3) ISQLStandard = Fault FArith
  /\ interval_format Release (from_mdt 5 (-2147483648) 3) ISQLStandard = Ok (bs "+0-5 --2147483648 +0:00:00.000003")
  /\ machine_interval (from_mdt 5 (-2147483648) 3)
  /\ interval_op_add (from_mdt 2147483647 0 0) (from_mdt 1 0 0) = Fault FUnwrap.
Proof. unfold machine_interval, in_i32, in_i64. repeat split; vm_compute; congruence. Qed.
