(** Precision of parsed values, for every text: C61. *)
From Verif Require Import Model.Parse Spec.Calendar Spec.Ranges Spec.IntervalS Proofs.ParsedP Props.Intervals.
From Coq Require Import List ZArith Bool Lia.
Import ListNotations.
Open Scope Z_scope.

(** A text is a time of day with some precision if and only if it is one without, and the time is
    the other one rounded. An error is the same error. *)
Theorem C61_time : forall md s o p, 0 <= p <= 6 ->
  match time_try_from_str md s (-1) o with
  | Ok t => exists r, time_try_from_str md s p o = Ok r /\ rounded (10 ^ (6 - p)) t r
  | e => time_try_from_str md s p o = e
  end.
Proof.
  intros md s o p P. pose proof (time_range md s (-1) o) as R. unfold time_try_from_str in *.
  destruct (parse_date_time s) as [ts|e|f]; cbn [bind] in *; [|reflexivity..].
  destruct (decode_time_only md o ts) as [x|e|f]; cbn [bind] in *; [|reflexivity..].
  destruct (time_from_pgtime md (fst x) (snd x)) as [t|e|f]; cbn [bind] in *; [|reflexivity..].
  change (time_adjust_by_typmod md t (-1)) with (Ok t) in *. apply C29_time; [|exact P].
  specialize (R t eq_refl). unfold usecs_day. lia.
Qed.
Print Assumptions C61_time.

Theorem C61_timestamp : forall md s o p, 0 <= p <= 6 ->
  match timestamp_try_from_str md s (-1) o with
  | Ok t => exists r, timestamp_try_from_str md s p o = Ok r
      /\ if (t =? pos_inf_ts) || (t =? neg_inf_ts) then r = t else rounded (10 ^ (6 - p)) t r
  | e => timestamp_try_from_str md s p o = e
  end.
Proof.
  intros md s o p P. pose proof (timestamp_range md s o (-1)) as R. unfold timestamp_try_from_str in *.
  destruct (parse_date_time s) as [ts|e|f]; cbn [bind] in *; [|reflexivity..].
  destruct (decode_date_time md o ts) as [[[tm k] fs]|e|f]; cbn [bind] in *; [|reflexivity..].
  match goal with |- context [bind ?x _] => destruct x as [t|e|f] end; cbn [bind] in *; [|reflexivity..].
  destruct (C29_none md t (mkInterval 0 0 0) 0) as (_ & E & _). rewrite E in *. specialize (R t (or_introl eq_refl) eq_refl).
  destruct (Z.eqb_spec t pos_inf_ts) as [-> |]; [|destruct (Z.eqb_spec t neg_inf_ts) as [-> |]].
  - exists pos_inf_ts. split; reflexivity.
  - exists neg_inf_ts. split; reflexivity.
  - cbn [orb]. destruct R as [R|R]; [|exfalso; tauto]. now apply C29_timestamp.
Qed.
Print Assumptions C61_timestamp.

(** The same for intervals without a qualifier, away from the two ends of the range. *)
Theorem C61_interval : forall md s st p, 0 <= p <= 6 ->
  match interval_try_from_str md s (-1) st with
  | Ok a => - (i64_max - 500000) <= iv_time a <= i64_max - 500000 ->
      exists r, interval_try_from_str md s (32767 * 65536 + p) st = Ok (from_mdt (iv_month a) (iv_day a) r)
        /\ rounded (10 ^ (6 - p)) (iv_time a) r
  | e => interval_try_from_str md s (32767 * 65536 + p) st = e
  end.
Proof.
  intros md s st p P. unfold interval_try_from_str. change (0 <=? -1) with false. cbv iota zeta.
  assert ((if 0 <=? 32767 * 65536 + p then interval_range (32767 * 65536 + p) else INTERVAL_FULL_RANGE) = INTERVAL_FULL_RANGE) as ->.
  { assert (p = 0 \/ p = 1 \/ p = 2 \/ p = 3 \/ p = 4 \/ p = 5 \/ p = 6) as C by lia. now destruct C as [-> |[-> |[-> |[-> |[-> |[-> | ->]]]]]]. }
  destruct (parse_date_time s) as [ts|e|f]; cbn [bind]; [|reflexivity..].
  destruct (decode_interval md ts INTERVAL_FULL_RANGE st (tm_new, 0)) as [x r].
  match goal with |- context [bind ?x (fun q => _)] => destruct x as [[y k]|e|f] end; cbn [bind]; [|reflexivity..].
  match goal with |- context [bind ?x (fun q => _)] => destruct x as [a|e|f] end; cbn [bind]; [|reflexivity..].
  change (interval_adjust_by_typmod md a (-1)) with (Ok a). intros B. now apply C29_interval.
Qed.
Print Assumptions C61_interval.

(** Any other precision is ignored for a time of day and refused for a finite timestamp. *)
Theorem C61_unsupported : forall md s o p,
  (p < 0 \/ 6 < p -> time_try_from_str md s p o = time_try_from_str md s (-1) o)
  /\ (p < -1 \/ 6 < p -> forall t, timestamp_try_from_str md s (-1) o = Ok t -> valid_ts t ->
        timestamp_try_from_str md s p o = Err EInvalid).
Proof.
  intros md s o p. split.
  - intros H. unfold time_try_from_str. destruct (parse_date_time s) as [ts|e|f]; cbn [bind]; [|reflexivity..].
    destruct (decode_time_only md o ts) as [x|e|f]; cbn [bind]; [|reflexivity..].
    destruct (time_from_pgtime md (fst x) (snd x)) as [t|e|f]; cbn [bind]; [|reflexivity..].
    now rewrite (proj1 (C29_none md t (mkInterval 0 0 0) p) H).
  - intros H t E V. revert E. unfold timestamp_try_from_str. destruct (parse_date_time s) as [ts|e|f]; cbn [bind]; [|discriminate..].
    destruct (decode_date_time md o ts) as [[[tm k] fs]|e|f]; cbn [bind]; [|discriminate..].
    match goal with |- context [bind ?x _] => destruct x as [t'|e|f] end; cbn [bind]; [|discriminate..].
    destruct (C29_none md t' (mkInterval 0 0 0) p) as (_ & E & B & _). rewrite E. intros [= ->]. auto.
Qed.
Print Assumptions C61_unsupported.

Example C61_case : time_try_from_str Debug (bs "10:20:30.4567") 2 YMD = Ok 37230460000
  /\ time_try_from_str Debug (bs "10:20:30.4567") (-1) YMD = Ok 37230456700 /\ rounded (10 ^ (6 - 2)) 37230456700 37230460000
  /\ interval_try_from_str Debug (bs "1 day 1.25 s") (32767 * 65536 + 1) IPostgres = Ok (from_mdt 0 1 1300000)
  /\ timestamp_try_from_str Debug (bs "infinity") 0 YMD = Ok pos_inf_ts.
Proof.
  repeat split; try (vm_compute; reflexivity). exists 3723046. change (10 ^ (6 - 2)) with 10000. lia.
Qed.
