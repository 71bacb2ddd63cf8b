(** Ranges of parsed values. *)
From Coq Require Import String.
From Verif Require Import Model.Parse Spec.Calendar Spec.Ranges Spec.IntervalS Spec.Text Proofs.Arith Proofs.Cal
  Proofs.DateP Proofs.TsP Proofs.AddP Proofs.TimeP Proofs.NumDateP.
From Coq Require Import List ZArith Bool Lia.
Import ListNotations.
Open Scope Z_scope.

Lemma rounded_range u v r a b : 0 < u -> rounded u v r -> a * u <= v <= b * u -> a * u <= r <= b * u.
Proof. intros U (k & -> & D & _) R. split; apply Z.mul_le_mono_nonneg_r; nia. Qed.

Lemma pow_parts p : 0 <= p <= 6 -> 0 < 10 ^ (6 - p) /\ 1000000 = 10 ^ p * 10 ^ (6 - p).
Proof.
  intros P. split; [apply Z.pow_pos_nonneg; lia|]. rewrite <- Z.pow_add_r by lia.
  replace (p + (6 - p)) with 6 by lia. reflexivity.
Qed.

Lemma rounded_secs p v r a b : 0 <= p <= 6 -> rounded (10 ^ (6 - p)) v r ->
  a * 1000000 <= v <= b * 1000000 -> a * 1000000 <= r <= b * 1000000.
Proof.
  intros P R B. destruct (pow_parts p P) as [U E]. rewrite E, !Z.mul_assoc in *. eapply rounded_range; eassumption.
Qed.

Lemma date_range md s order n : date_try_from_str md s order = Ok n ->
  valid_date n \/ n = pos_inf_date \/ n = neg_inf_date.
Proof.
  unfold date_try_from_str. intros H. apply bind_inv in H as (ts & _ & H). apply bind_inv in H as ([[tm k] fs] & _ & H).
  destruct k; try discriminate; try (injection H as <-; auto; fail).
  destruct (negb _); [discriminate|]. apply bind_inv in H as (j & _ & H). apply bind_inv in H as (d & _ & H).
  destruct (is_valid_date d) eqn:E; cbn [negb] in H; [|discriminate]. injection H as <-. left.
  now apply is_valid_date_spec.
Qed.

Lemma to_timestamp_range md tm fs t : to_timestamp md tm fs = Ok t -> valid_ts t.
Proof.
  unfold to_timestamp. intros H. destruct (negb _); [discriminate|].
  do 6 (apply bind_inv in H as (? & _ & H)).
  destruct (is_valid_timestamp _) eqn:E; cbn [negb] in H; [|discriminate]. injection H as <-. now apply is_valid_timestamp_spec.
Qed.

Lemma typmod_inf md t p : t = pos_inf_ts \/ t = neg_inf_ts -> timestamp_adjust_by_typmod md t p = Ok t.
Proof. intros [-> | ->]; reflexivity. Qed.

Lemma typmod_none md t p : p = -1 \/ p = 6 -> timestamp_adjust_by_typmod md t p = Ok t.
Proof. intros [-> | ->]; unfold timestamp_adjust_by_typmod; rewrite ?andb_false_r; reflexivity. Qed.

Lemma timestamp_raw md s p order t : timestamp_try_from_str md s p order = Ok t ->
  exists v, (valid_ts v \/ v = pos_inf_ts \/ v = neg_inf_ts) /\ timestamp_adjust_by_typmod md v p = Ok t.
Proof.
  unfold timestamp_try_from_str. intros H. apply bind_inv in H as (ts & _ & H).
  apply bind_inv in H as ([[tm k] fs] & _ & H). apply bind_inv in H as (v & E & H). exists v. split; [|exact H].
  destruct k; try discriminate; try (injection E as <-; auto; fail). left. eapply to_timestamp_range; eassumption.
Qed.

Lemma timestamp_range md s order p t : p = -1 \/ p = 6 -> timestamp_try_from_str md s p order = Ok t ->
  valid_ts t \/ t = pos_inf_ts \/ t = neg_inf_ts.
Proof.
  intros P H. apply timestamp_raw in H as (v & R & H). rewrite typmod_none in H by exact P. now injection H as <-.
Qed.

Lemma time_fields_range md tm fs t : 0 <= tm_hour tm <= 24 -> 0 <= tm_min tm <= 59 -> 0 <= tm_sec tm <= 60 ->
  0 <= fs <= 1000000 -> (tm_hour tm = 24 -> tm_min tm = 0 /\ tm_sec tm = 0 /\ fs = 0) ->
  time_from_pgtime md tm fs = Ok t -> 0 <= t <= 86401000000.
Proof.
  intros H M S F L E.
  assert (time_from_pgtime md tm fs = Ok (((tm_hour tm * 60 + tm_min tm) * 60 + tm_sec tm) * 1000000 + fs)) as Q.
  { unfold time_from_pgtime, MINS_PER_HOUR, SECS_PER_MINUTE, USECS_PER_SEC. ar. reflexivity. }
  rewrite Q in E. injection E as <-. lia.
Qed.

Lemma time_range md s p order t : time_try_from_str md s p order = Ok t -> 0 <= t <= 86401000000.
Proof.
  unfold time_try_from_str. intros H. apply bind_inv in H as (ts & _ & H).
  apply bind_inv in H as ([tm fs] & D & H). apply bind_inv in H as (v & E & H). cbn [fst snd] in E.
  assert (0 <= v <= 86401000000) as V.
  { unfold decode_time_only in D. do 2 (apply bind_inv in D as (? & _ & D)). apply bind_inv in D as (tm' & _ & D).
    destruct (_ || _) eqn:B; [discriminate|]. injection D as -> <-.
    change MINS_PER_HOUR with 60 in B. change SECS_PER_MINUTE with 60 in B. change HOURS_PER_DAY with 24 in B.
    change USECS_PER_SEC with 1000000 in B.
    apply (time_fields_range _ _ _ _) in E; [exact E|..]; lia. }
  unfold time_adjust_by_typmod in H. destruct (_ && _) eqn:P; [|injection H as <-; exact V].
  destruct (round_scale_ok md v p) as (r & Er & R); [lia|unfold i64_max; lia|].
  rewrite Er in H. injection H as <-. apply (rounded_secs p v r 0 86401); [lia|exact R|lia].
Qed.

Lemma timestamp_typmod_range md s order p t : timestamp_try_from_str md s p order = Ok t ->
  (valid_ts t \/ t = 9223371331200000000) \/ t = pos_inf_ts \/ t = neg_inf_ts.
Proof.
  intros H. apply timestamp_raw in H as (v & R & H).
  destruct R as [V|R]; [|rewrite typmod_inf in H by exact R; injection H as <-; auto].
  left. unfold timestamp_adjust_by_typmod in H. destruct (_ && _) eqn:Q; [|injection H as <-; auto].
  destruct (_ || _) eqn:P; [discriminate|]. unfold valid_ts in *.
  destruct (round_scale_ok md v p) as (r & Er & R); [lia|unfold i64_max; lia|].
  rewrite Er in H. injection H as <-.
  apply (rounded_secs p v r (-211813488000) 9223371331200) in R; [lia|lia|lia].
Qed.

(** A complete date that passes validation is a day of the calendar. *)
Lemma validate_complete md fm j d2 bc tm tm' : Z.land fm DTK_DATE_M = DTK_DATE_M ->
  validate_date md fm j d2 bc tm = Ok tm' -> valid_ymd (tm_year tm', tm_mon tm', tm_mday tm').
Proof.
  intros F H. unfold validate_date in H.
  apply bind_inv in H as (t1 & _ & H). apply bind_inv in H as (t2 & _ & H).
  assert (forall b, Z.land DTK_DATE_M b <> 0 -> has fm b = true) as Hb.
  { intros b B. unfold has. apply negb_true_iff, Z.eqb_neq. intros Q. apply B. rewrite <- F.
    rewrite <- Z.land_assoc, (Z.land_comm DTK_DATE_M b), Z.land_assoc, Q. reflexivity. }
  rewrite !Hb in H by discriminate. rewrite F, Z.eqb_refl in H.
  change MONTHS_PER_YEAR with 12 in H. cbn [andb] in H.
  destruct (_ || _) eqn:M; [discriminate|]. destruct (_ || _) eqn:D in H; [discriminate|].
  rewrite days_of_month_ok in H by lia. cbn [bind] in H. destruct (Z.ltb_spec (month_len (tm_year t2) (tm_mon t2)) (tm_mday t2)); [discriminate|].
  injection H as <-. unfold valid_ymd. lia.
Qed.

Lemma apply_mer_ymd md mer tm tm' : apply_mer md mer tm = Ok tm' ->
  tm_year tm' = tm_year tm /\ tm_mon tm' = tm_mon tm /\ tm_mday tm' = tm_mday tm.
Proof.
  unfold apply_mer. intros H. destruct (_ && _); [discriminate|]. destruct (_ && _); [injection H as <-; auto|].
  destruct (_ && _); [|injection H as <-; auto]. apply bind_inv in H as (h & _ & H). injection H as <-. auto.
Qed.

Lemma date_complete md order ts c s n : parse_date_time s = Ok ts -> date_time_fields md order ts ctx_new = Ok c ->
  Z.land (c_fmask c) DTK_DATE_M = DTK_DATE_M -> date_try_from_str md s order = Ok n ->
  (exists tm k fs, decode_date_time md order ts = Ok (tm, k, fs)
     /\ valid_ymd (tm_year tm, tm_mon tm, tm_mday tm) /\ day_number (tm_year tm, tm_mon tm, tm_mday tm) n)
  \/ n = pos_inf_date \/ n = neg_inf_date.
Proof.
  intros P C F H. unfold date_try_from_str in H. rewrite P in H. cbn [bind] in H.
  apply bind_inv in H as ([[tm k] fs] & D & H).
  destruct k; try discriminate; try (injection H as <-; auto; fail). left. exists tm, KDate, fs. split; [exact D|].
  assert (valid_ymd (tm_year tm, tm_mon tm, tm_mday tm)) as V.
  { unfold decode_date_time in D. rewrite C in D. cbn [bind] in D.
    apply bind_inv in D as (t1 & V & D). apply bind_inv in D as (t2 & M & D).
    rewrite F, Z.eqb_refl, andb_false_r in D. injection D as -> _ _.
    apply validate_complete in V; [|exact F]. apply apply_mer_ymd in M as (-> & -> & ->). exact V. }
  split; [exact V|]. rewrite (finish_date [] (Nat.le_0_l 2)) in H by exact V. destruct (_ && _); [|discriminate]. injection H as <-.
  apply (day_number_J _ _ V). lia.
Qed.
