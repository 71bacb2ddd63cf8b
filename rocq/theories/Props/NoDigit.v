(** Texts without any digit: C83. *)
From Coq Require Import String.
From Verif Require Import Model.Parse Spec.Calendar Spec.Ranges Spec.Text Spec.IntervalS Spec.NoDigit
  Proofs.Arith Proofs.Cal Proofs.TimeP Proofs.ParsedP Proofs.NoDigitP Proofs.NoDigitDateP.
From Coq Require Import List ZArith Bool Lia.
Import ListNotations.
Open Scope Z_scope.

Lemma no_digit_nodig s : no_digit s -> nodig s.
Proof.
  unfold no_digit, nodig. apply Forall_impl. intros c H. unfold digit in H. unfold is_digit. lia.
Qed.

Lemma day_j c n : valid_ymd c -> Cal.J c = n + 2451545 -> day_number c n.
Proof. intros V E. now apply day_number_J. Qed.

(** The day that comes out of the fields a text without digits can fill. *)
Lemma zero_day md y m d j : (y = 0 /\ d = 0 /\ 0 <= m <= 12) \/ (y = -4713 /\ m = 11 /\ d = 24) ->
  date2julian md y m d = Ok j -> 0 <= j <= 1721394 /\ (j = 0 \/ day_zero (j - 2451545)).
Proof.
  intros [(-> & -> & M)|(-> & -> & ->)] E.
  - assert (m = 0 \/ m = 1 \/ m = 2 \/ m = 3 \/ m = 4 \/ m = 5 \/ m = 6 \/ m = 7 \/ m = 8 \/ m = 9 \/ m = 10 \/ m = 11 \/ m = 12) as K by lia.
    assert (j = match m with 0 => 1721028 | 1 => 1721059 | 2 => 1721090 | 3 => 1721119 | 4 => 1721150 | 5 => 1721180 | 6 => 1721211 | 7 => 1721241
      | 8 => 1721272 | 9 => 1721303 | 10 => 1721333 | 11 => 1721364 | _ => 1721394 end) as Ej.
    { repeat (destruct K as [->|K]; [destruct md; vm_compute in E; now injection E as <-|]). subst m. destruct md; vm_compute in E; now injection E as <-. }
    split; [subst j; repeat (destruct K as [->|K]; [cbv; split; discriminate|]); subst m; cbv; split; discriminate|].
    right. exists (if m =? 0 then -1 else 0), (if m =? 0 then 12 else m). split; [destruct (Z.eqb_spec m 0); lia|].
    apply day_j; subst j.
    + repeat (destruct K as [->|K]; [cbv; repeat split; discriminate|]); subst m; cbv; repeat split; discriminate.
    + repeat (destruct K as [->|K]; [reflexivity|]); subst m; reflexivity.
  - destruct md; vm_compute in E; injection E as <-; (split; [lia|left; reflexivity]).
Qed.

(** An interval text without a digit is refused or is the empty interval. *)
Theorem C83_interval : forall md s p st a, no_digit s ->
  interval_try_from_str md s p st = Ok a -> iv_month a = 0 /\ iv_day a = 0 /\ iv_time a = 0.
Proof.
  intros md s p st a N H. rewrite (interval_nodig _ _ _ _ _ (no_digit_nodig _ N) H). now repeat split.
Qed.
Print Assumptions C83_interval.

(** A time of day without a digit is refused or is midnight or noon. *)
Theorem C83_time : forall md s p o t, no_digit s -> time_try_from_str md s p o = Ok t -> midnight_or_noon t.
Proof. intros md s p o t N H. exact (time_nodig _ _ _ _ _ (no_digit_nodig _ N) H). Qed.
Print Assumptions C83_time.

(** A date without a digit is refused, infinite, Julian day 0 or the last day of a month around 1 BC. *)
Theorem C83_date : forall md s o d, no_digit s -> date_try_from_str md s o = Ok d ->
  d = pos_inf_date \/ d = neg_inf_date \/ d = julian_day_0 \/ day_zero d.
Proof.
  intros md s o d N H. apply no_digit_nodig in N. unfold date_try_from_str in H.
  destruct (parse_date_time s) as [ts| |] eqn:E; [|discriminate H..]. cbn [bind] in H.
  destruct (decode_date_time md o ts) as [((tm, k), fs)| |] eqn:E2; [|discriminate H..]. cbn [bind] in H.
  destruct (decode_nodig _ _ _ _ _ _ _ N E E2) as (_ & _ & _ & _ & D).
  destruct k; try discriminate H; [|right; left; now injection H as <-|left; now injection H as <-].
  destruct (negb (is_valid_julian _ _)); [discriminate H|].
  destruct (date2julian md (tm_year tm) (tm_mon tm) (tm_mday tm)) as [j| |] eqn:Ej; [|discriminate H..]. cbn [bind] in H.
  destruct (zero_day _ _ _ _ _ D Ej) as (B & Z0). unfold POSTGRES_EPOCH_JDATE, sub32 in H. rewrite ar32_ok in H by (rng; lia).
  cbn [bind] in H. destruct (negb _); [discriminate H|]. injection H as <-. right. right. destruct Z0 as [->|Z0]; [left; reflexivity|right; exact Z0].
Qed.
Print Assumptions C83_date.

Lemma whole_seconds md v p r : -1000000000000000000 <= v <= 1000000000000000000 -> (exists q, v = q * 1000000) ->
  timestamp_adjust_by_typmod md v p = Ok r -> r = v.
Proof.
  intros B (q & Q) H. unfold timestamp_adjust_by_typmod in H.
  destruct (ts_is_finite v && negb (p =? -1) && negb (p =? 6)); [|now injection H].
  destruct ((p <? 0) || (6 <? p)) eqn:P; [discriminate H|]. apply orb_false_iff in P. destruct P as (P1 & P2). apply Z.ltb_ge in P1, P2.
  destruct (round_scale_ok md v p) as (r' & E & (k & K1 & K2 & _)); [lia|unfold i64_max; lia|]. rewrite E in H. injection H as <-. clear E.
  assert (p = 0 \/ p = 1 \/ p = 2 \/ p = 3 \/ p = 4 \/ p = 5 \/ p = 6) as C by lia.
  repeat (destruct C as [->|C]); [..|subst p];
    match goal with H : context [10 ^ ?e] |- _ => let x := eval compute in (10 ^ e) in change (10 ^ e) with x in * end; lia.
Qed.

(** So is a timestamp, at midnight or at noon of such a day, whatever precision is asked for. *)
Theorem C83_timestamp : forall md s p o t, no_digit s -> timestamp_try_from_str md s p o = Ok t ->
  t = pos_inf_ts \/ t = neg_inf_ts \/
  exists d c, (d = julian_day_0 \/ day_zero d) /\ midnight_or_noon c /\ t = d * usecs_day + c.
Proof.
  intros md s p o t N H. apply no_digit_nodig in N. unfold timestamp_try_from_str in H.
  destruct (parse_date_time s) as [ts| |] eqn:E; [|discriminate H..]. cbn [bind] in H.
  destruct (decode_date_time md o ts) as [((tm, k), fs)| |] eqn:E2; [|discriminate H..]. cbn [bind] in H.
  destruct (decode_nodig _ _ _ _ _ _ _ N E E2) as (F & Mi & Se & Ho & D).
  destruct k; try discriminate H; cbn [bind] in H.
  2: { rewrite typmod_inf in H by (right; reflexivity). right. left. now injection H as <-. }
  2: { rewrite typmod_inf in H by (left; reflexivity). left. now injection H as <-. }
  right. right. destruct (to_timestamp md tm fs) as [v| |] eqn:T; [|discriminate H..]. cbn [bind] in H. unfold to_timestamp in T.
  destruct (negb (is_valid_julian _ _)); [discriminate T|].
  destruct (date2julian md (tm_year tm) (tm_mon tm) (tm_mday tm)) as [j| |] eqn:Ej; [|discriminate T..]. cbn [bind] in T.
  destruct (zero_day _ _ _ _ _ D Ej) as (B & Z0).
  replace (date2julian md 2000 1 1) with (@Ok Z 2451545) in T by (destruct md; reflexivity). cbn [bind] in T. unfold sub32 in T.
  rewrite ar32_ok in T by (rng; lia). cbn [bind] in T.
  assert (exists c, time2t md (tm_hour tm) (tm_min tm) (tm_sec tm) fs = Ok c /\ midnight_or_noon c) as (c & C1 & C2).
  { rewrite F, Mi, Se. destruct Ho as [-> | ->]; destruct md; (eexists; split; [vm_compute; reflexivity|]); [left|left|right|right]; reflexivity. }
  rewrite C1 in T. cbn [bind] in T. unfold USECS_PER_DAY in T.
  assert (0 <= c <= 43200000000) as Bc by (destruct C2; lia).
  rewrite (proj2 (ok_or_chk64 ((j - 2451545) * 86400000000) EOverflow ((j - 2451545) * 86400000000))) in T by (split; [rng; lia|reflexivity]). cbn [bind] in T.
  rewrite (proj2 (ok_or_chk64 ((j - 2451545) * 86400000000 + c) EOverflow ((j - 2451545) * 86400000000 + c))) in T by (split; [rng; lia|reflexivity]). cbn [bind] in T.
  destruct (negb (is_valid_timestamp _)); [discriminate T|]. injection T as <-.
  apply whole_seconds in H; [|lia|destruct C2 as [-> | ->]; [exists ((j - 2451545) * 86400)|exists ((j - 2451545) * 86400 + 43200)]; lia].
  exists (j - 2451545), c. split; [destruct Z0 as [-> | Z0]; [left; reflexivity|right; exact Z0]|]. split; [exact C2|exact H].
Qed.
Print Assumptions C83_timestamp.

Lemma no_digit_dec s : forallb (fun c => negb (is_digit c)) s = true -> no_digit s.
Proof. rewrite forallb_forall. intros H. apply Forall_forall. intros c I D. specialize (H c I). unfold digit in D. unfold is_digit in H. lia. Qed.

(** Such texts are indeed read, although they name no day and no amount. *)
Example C83_ex_interval : no_digit (bs ". day") /\ forall md st, interval_try_from_str md (bs ". day") (-1) st = Ok (from_mdt 0 0 0).
Proof. split; [apply no_digit_dec; reflexivity|intros [] []; vm_compute; reflexivity]. Qed.
Example C83_ex_time : no_digit (bs ",") /\ no_digit (bs "pm") /\ forall md o,
  time_try_from_str md (bs ",") (-1) o = Ok 0 /\ time_try_from_str md (bs "pm") (-1) o = Ok 43200000000.
Proof. do 2 (split; [apply no_digit_dec; reflexivity|]). intros [] []; vm_compute; split; reflexivity. Qed.
Example C83_ex_date : no_digit (bs "jan allballs") /\ forall md o,
  date_try_from_str md (bs "jan allballs") o = Ok (-730486) /\ date_try_from_str md (bs "allballs") o = Ok (-730517) /\
  date_try_from_str md (bs "julian .") o = Ok julian_day_0 /\ date_try_from_str md (bs "infinity") o = Ok pos_inf_date.
Proof. split; [apply no_digit_dec; reflexivity|]. intros [] []; vm_compute; repeat split; reflexivity. Qed.
Example C83_ex_timestamp : forall md o,
  timestamp_try_from_str md (bs "jan pm allballs") 3 o = Ok (-730486 * usecs_day + 43200000000) /\
  timestamp_try_from_str md (bs "julian .") 0 o = Ok (julian_day_0 * usecs_day).
Proof. intros [] []; vm_compute; split; reflexivity. Qed.

(** "A date text that names no day is refused" is therefore false. *)
Theorem C83_no_day_refuted : ~ (forall md s o, no_digit s -> forall d, date_try_from_str md s o = Ok d -> d = pos_inf_date \/ d = neg_inf_date).
Proof.
  intros H. destruct (H Debug (bs "allballs") YMD ltac:(apply no_digit_dec; reflexivity) (-730517) ltac:(vm_compute; reflexivity)) as [E|E];
    vm_compute in E; discriminate E.
Qed.
Print Assumptions C83_no_day_refuted.
