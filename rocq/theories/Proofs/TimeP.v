(** Timestamp difference, Time arithmetic, interval algebra, precision and range typmods. *)
From Verif Require Import Model.DateTime Spec.Calendar Spec.Ranges Spec.Clock Spec.IntervalS
  Proofs.Arith Proofs.TsP Proofs.AddP Proofs.IntervalP.
From Coq Require Import Lia.

(** ** C11 *)
Lemma sub_timestamp_ok md a b : valid_ts a -> valid_ts b -> in_i64 (a - b) ->
  exists i, timestamp_sub_timestamp md a b = Ok i /\ iv_month i = 0 /\
    Z.abs (iv_time i) < usecs_day /\ agree (iv_day i) (iv_time i) /\
    iv_day i * usecs_day + iv_time i = a - b /\ timestamp_add_interval md b i = Ok a.
Proof.
  intros Va Vb R. unfold timestamp_sub_timestamp.
  rewrite !valid_ts_finite by auto. cbn [negb orb]. ar_unfold. rewrite ar64_ok by auto. cbn [bind].
  assert (fields_ok (from_mdt 0 0 (a - b))) as F.
  { unfold fields_ok; cbn [from_mdt iv_month iv_day iv_time]. rng. lia. }
  destruct (justify_hours_total md _ F) as (r & E & Fr). exists r. split; [exact E|].
  destruct (justify_hours_norm md _ r F E) as (Hm & Ht & G).
  assert (iv_day r * usecs_day + iv_time r = a - b) as S.
  { rewrite (justify_hours_span md _ r F); [cbn; lia| |exact E].
    unfold jh_day; cbn [from_mdt iv_day iv_time]; unfold usecs_day; rng; lia. }
  cbn [iv_month from_mdt] in Hm. repeat (split; [assumption|]).
  destruct r as [t d m]. cbn [iv_time iv_day iv_month] in *. subst m.
  change (mkInterval t d 0) with (from_mdt 0 d t).
  replace a with (b + d * usecs_day + t) by lia. destruct Fr as (_ & Fd & Ft). cbn in Fd, Ft.
  apply add_interval_daytime; auto.
  - unfold valid_ts, agree, usecs_day in *. rng. nia.
  - replace (b + d * usecs_day + t) with a by lia. exact Va.
Qed.
Lemma sub_timestamp_inf md a b : a = pos_inf_ts \/ a = neg_inf_ts \/ b = pos_inf_ts \/ b = neg_inf_ts ->
  timestamp_sub_timestamp md a b = Err EInvalid.
Proof.
  intros H. unfold timestamp_sub_timestamp.
  assert (ts_is_finite pos_inf_ts = false) as E1 by reflexivity.
  assert (ts_is_finite neg_inf_ts = false) as E2 by reflexivity.
  destruct H as [->|[->|[->| ->]]]; rewrite ?E1, ?E2; cbn [negb orb]; try reflexivity;
    destruct (ts_is_finite a); reflexivity.
Qed.

(** ** Time *)
Lemma day_modulo_ok md r : in_i64 r -> day_modulo md r = Ok (r mod usecs_day).
Proof.
  intros H. unfold day_modulo. unit_consts. ar_unfold.
  rewrite ar64_ok by (rng; lia). cbn [bind]. rewrite ar64_ok by (rng; lia). cbn [bind].
  dltb; [rewrite ar64_ok by (rng; lia)|]; f_equal; lia.
Qed.
Lemma wrap64_mod_range z : 0 <= wrap64 z mod usecs_day < usecs_day.
Proof. unfold usecs_day. lia. Qed.
Lemma time_add_ok md t i : time_add_interval md t i = Ok (wrap64 (t + iv_time i) mod usecs_day).
Proof. apply day_modulo_ok, wrap64_range. Qed.
Lemma time_sub_ok md t i : time_sub_interval md t i = Ok (wrap64 (t - iv_time i) mod usecs_day).
Proof. apply day_modulo_ok, wrap64_range. Qed.

Lemma time_of_interval_ok md a : in_i64 (iv_time a) ->
  i64_min + usecs_day < iv_time a ->
  time_of_interval md a = Ok (iv_time a mod usecs_day).
Proof.
  intros H H2. unfold time_of_interval. unit_consts.
  destruct (Z.leb_spec 86400000000 (iv_time a)).
  - ar_unfold. rewrite ar64_ok by (rng; lia). cbn [bind]. rewrite ar64_ok by (rng; lia).
    f_equal. lia.
  - dltb.
    + ar_unfold. rewrite ar64_ok by (rng; lia). cbn [bind]. rewrite ar64_ok by (rng; lia). cbn [bind].
      rewrite ar64_ok by (rng; lia). cbn [bind].
      rewrite ar64_ok by (rng; lia). cbn [bind]. rewrite ar64_ok by (rng; lia). f_equal. lia.
    + f_equal. lia.
Qed.

(** ** Interval algebra *)
Lemma interval_add_spec a b r : interval_add a b = Ok r <->
  fields_ok r /\ r = from_mdt (iv_month a + iv_month b) (iv_day a + iv_day b) (iv_time a + iv_time b).
Proof.
  unfold interval_add, chk32, chk64, fields_ok.
  rewrite <- !in32b_spec, <- in64b_spec. split.
  - destruct (in32b _) eqn:E1; [|discriminate]. cbn [ok_or bind].
    destruct (in32b (iv_day a + _)) eqn:E2; [|discriminate]. cbn [ok_or bind].
    destruct (in64b _) eqn:E3; [|discriminate]. cbn [ok_or bind]. intros [= <-].
    cbn [from_mdt iv_month iv_day iv_time]. auto.
  - intros ((E1 & E2 & E3) & ->). cbn [from_mdt iv_month iv_day iv_time] in *.
    rewrite E1, E2, E3. reflexivity.
Qed.
Lemma interval_sub_spec a b r : interval_sub a b = Ok r <->
  fields_ok r /\ r = from_mdt (iv_month a - iv_month b) (iv_day a - iv_day b) (iv_time a - iv_time b).
Proof.
  unfold interval_sub, chk32, chk64, fields_ok.
  rewrite <- !in32b_spec, <- in64b_spec. split.
  - destruct (in32b _) eqn:E1; [|discriminate]. cbn [ok_or bind].
    destruct (in32b (iv_day a - _)) eqn:E2; [|discriminate]. cbn [ok_or bind].
    destruct (in64b _) eqn:E3; [|discriminate]. cbn [ok_or bind]. intros [= <-].
    cbn [from_mdt iv_month iv_day iv_time]. auto.
  - intros ((E1 & E2 & E3) & ->). cbn [from_mdt iv_month iv_day iv_time] in *.
    rewrite E1, E2, E3. reflexivity.
Qed.
Lemma interval_neg_spec a r : interval_negate a = Ok r <->
  fields_ok r /\ r = from_mdt (- iv_month a) (- iv_day a) (- iv_time a).
Proof.
  unfold interval_negate, chk32, chk64, fields_ok.
  rewrite <- !in32b_spec, <- in64b_spec. split.
  - destruct (in64b _) eqn:E1; [|discriminate]. cbn [ok_or bind].
    destruct (in32b _) eqn:E2; [|discriminate]. cbn [ok_or bind].
    destruct (in32b (- iv_month _)) eqn:E3; [|discriminate]. cbn [ok_or bind]. intros [= <-].
    cbn [from_mdt iv_month iv_day iv_time]. auto.
  - intros ((E1 & E2 & E3) & ->). cbn [from_mdt iv_month iv_day iv_time] in *.
    rewrite E1, E2, E3. reflexivity.
Qed.
(** The only other outcome is Err EOverflow. *)
Definition ok_or_overflow {A} (r : res A) : Prop := (exists x, r = Ok x) \/ r = Err EOverflow.
Lemma interval_add_total a b : ok_or_overflow (interval_add a b).
Proof.
  unfold interval_add, chk32, chk64, ok_or_overflow.
  destruct (in32b _); cbn [ok_or bind]; [|auto]. destruct (in32b _); cbn [ok_or bind]; [|auto].
  destruct (in64b _); cbn [ok_or bind]; eauto.
Qed.
Lemma interval_sub_total a b : ok_or_overflow (interval_sub a b).
Proof.
  unfold interval_sub, chk32, chk64, ok_or_overflow.
  destruct (in32b _); cbn [ok_or bind]; [|auto]. destruct (in32b _); cbn [ok_or bind]; [|auto].
  destruct (in64b _); cbn [ok_or bind]; eauto.
Qed.
Lemma interval_neg_total a : ok_or_overflow (interval_negate a).
Proof.
  unfold interval_negate, chk32, chk64, ok_or_overflow.
  destruct (in64b _); cbn [ok_or bind]; [|auto]. destruct (in32b _); cbn [ok_or bind]; [|auto].
  destruct (in32b _); cbn [ok_or bind]; eauto.
Qed.

Lemma to_i128_span a : interval_to_i128 a = span_of a.
Proof. unfold interval_to_i128, span_of, span, usecs_day, USECS_PER_DAY, DAYS_PER_MONTH. lia. Qed.

(** ** Rounding *)
Lemma rounded_adj u v k : 0 < u ->
  2 * Z.abs (v - k * u) <= u -> 2 * Z.abs (v - (k + 1) * u) <= u ->
  (2 * Z.abs (v - k * u) = u -> Z.abs v < Z.abs (k * u)) ->
  (2 * Z.abs (v - (k + 1) * u) = u -> Z.abs v < Z.abs ((k + 1) * u)) -> False.
Proof.
  intros U A B C D. replace ((k + 1) * u) with (k * u + u) in * by ring.
  assert (k * u <= - u \/ 0 <= k * u) as E.
  { destruct (Z.le_gt_cases 0 k); [right|left]; nia. }
  set (x := k * u) in *. clearbody x. lia.
Qed.
Lemma rounded_near u v k k' : 0 < u -> 2 * Z.abs (v - k * u) <= u -> 2 * Z.abs (v - k' * u) <= u ->
  k = k' \/ k = k' + 1 \/ k' = k + 1.
Proof.
  intros U A B. assert (Z.abs (k * u - k' * u) <= u) as C by lia.
  replace (k * u - k' * u) with ((k - k') * u) in C by ring. rewrite Z.abs_mul in C.
  assert (Z.abs (k - k') <= 1) by nia. lia.
Qed.
Lemma rounded_fun u v r r' : 0 < u -> rounded u v r -> rounded u v r' -> r = r'.
Proof.
  intros U (k & -> & H1 & H2) (k' & -> & H1' & H2').
  destruct (rounded_near u v k k') as [->|[->| ->]]; auto; exfalso.
  - exact (rounded_adj u v k' U H1' H1 H2' H2).
  - exact (rounded_adj u v k U H1 H1' H2 H2').
Qed.
Lemma rounded_idem u r k : 0 < u -> r = k * u -> rounded u r r.
Proof. intros U ->. exists k. repeat split; try lia. Qed.
Lemma rounded_mono u v w r s : 0 < u -> rounded u v r -> rounded u w s -> v <= w -> r <= s.
Proof.
  intros U (k & -> & H1 & H2) (l & -> & H1' & H2') Hvw.
  destruct (Z.le_gt_cases k l) as [|G]; [nia|].
  assert (w = v /\ k = l + 1) as [-> ->].
  { assert (k * u - l * u <= u - 2 * (w - v) + (w - v)) as X by lia.
    replace (k * u - l * u) with ((k - l) * u) in X by ring.
    assert (k - l = 1) by nia. split; [|lia]. nia. }
  exfalso. exact (rounded_adj u v l U H1' H1 H2' H2).
Qed.

Lemma round_scale_ok md v p : 0 <= p <= 6 -> - (i64_max - 500000) <= v <= i64_max - 500000 ->
  exists r, round_scale md v p = Ok r /\ rounded (10 ^ (6 - p)) v r.
Proof.
  intros P V. unfold i64_max in V.
  assert (p = 0 \/ p = 1 \/ p = 2 \/ p = 3 \/ p = 4 \/ p = 5 \/ p = 6) as C by lia.
  unfold rounded. rng.
  repeat (destruct C as [->|C]); [..|subst p];
  match goal with |- context [10 ^ ?e] => let x := eval compute in (10 ^ e) in change (10 ^ e) with x end;
  unfold round_scale;
  match goal with |- context [index OFFSETS ?e] => let x := eval compute in (index OFFSETS e) in change (index OFFSETS e) with x end;
  match goal with |- context [index SCALES ?e] => let x := eval compute in (index SCALES e) in change (index SCALES e) with x end;
  cbn [bind];
  (destruct (Z.leb_spec 0 v);
   [ar_unfold; rewrite ar64_ok by (rng; lia); cbn [bind]; rewrite ar64_ok by (rng; lia); cbn [bind];
    eexists; split; [reflexivity|eexists; split; [reflexivity|lia]]
   |ar_unfold; rewrite ar64_ok by (rng; lia); cbn [bind]; rewrite ar64_ok by (rng; lia); cbn [bind];
    rewrite ar64_ok by (rng; lia); cbn [bind]; rewrite ar64_ok by (rng; lia); cbn [bind];
    eexists; split; [reflexivity|]]);
  match goal with |- exists k, - (?q * _) = _ /\ _ => exists (- q); split; [lia|lia] end.
Qed.

Lemma trunc_to_spec v u : 0 < u -> toward_zero u v (trunc_to v u).
Proof.
  intros U. unfold toward_zero, trunc_to, agree. exists (Z.quot v u). split; [reflexivity|].
  pose proof (quot_mul_abs v u U). pose proof (Z.quot_rem' v u). pose proof (Z.rem_bound_abs v u).
  set (q := Z.quot v u * u) in *. assert (v = q + Z.rem v u) by lia. lia.
Qed.
Lemma toward_zero_fun u v r r' : 0 < u -> toward_zero u v r -> toward_zero u v r' -> r = r'.
Proof.
  unfold toward_zero, agree. intros U (k & -> & A & B) (k' & -> & A' & B').
  assert (k = k' \/ k < k' \/ k' < k) as [->|[H|H]] by lia; [reflexivity| |]; exfalso; nia.
Qed.

(** ** Interval typmod *)
Lemma range_bits c p : 0 <= c <= 32767 -> 0 <= p <= 65535 ->
  interval_range (c * 65536 + p) = c /\ interval_precision (c * 65536 + p) = p.
Proof.
  intros C P. unfold interval_range, interval_precision. split.
  - rewrite Z.shiftr_div_pow2 by lia. change 32767 with (Z.ones 15). rewrite Z.land_ones by lia.
    change (2 ^ 16) with 65536. change (2 ^ 15) with 32768. lia.
  - change 65535 with (Z.ones 16). rewrite Z.land_ones by lia. change (2 ^ 16) with 65536. lia.
Qed.
Definition range_step (range : Z) (a : interval) : res interval :=
      if range =? INTERVAL_FULL_RANGE then Ok a
      else if range =? INTERVAL_MASK_Y then
        Ok (from_mdt (trunc_to (iv_month a) MONTHS_PER_YEAR) 0 0)
      else if (range =? INTERVAL_MASK_M) || (range =? INTERVAL_MASK_YM) then
        Ok (from_mdt (iv_month a) 0 0)
      else if range =? INTERVAL_MASK_D then Ok (from_mdt (iv_month a) (iv_day a) 0)
      else if range =? INTERVAL_MASK_H then
        Ok (from_mdt (iv_month a) (iv_day a) (trunc_to (iv_time a) USECS_PER_HOUR))
      else if range =? INTERVAL_MASK_MIN then
        Ok (from_mdt (iv_month a) (iv_day a) (trunc_to (iv_time a) USECS_PER_MINUTE))
      else if range =? INTERVAL_MASK_S then Ok a
      else if range =? INTERVAL_MASK_DH then
        Ok (from_mdt (iv_month a) (iv_day a) (trunc_to (iv_time a) USECS_PER_HOUR))
      else if range =? INTERVAL_MASK_DHM then
        Ok (from_mdt (iv_month a) (iv_day a) (trunc_to (iv_time a) USECS_PER_MINUTE))
      else if range =? INTERVAL_MASK_DHMS then Ok a
      else if range =? INTERVAL_MASK_HM then
        Ok (from_mdt (iv_month a) (iv_day a) (trunc_to (iv_time a) USECS_PER_MINUTE))
      else if (range =? INTERVAL_MASK_HMS) || (range =? INTERVAL_MASK_MS) then Ok a
      else Err EInvalid.
Lemma adjust_split md a c p : 0 <= c <= 32767 -> 0 <= p <= 65535 ->
  interval_adjust_by_typmod md a (c * 65536 + p) =
  let* a := range_step c a in
  if negb (p =? 65535) then
    if 6 <? p then Err EOverflow
    else let* t := round_scale md (iv_time a) p in Ok (from_mdt (iv_month a) (iv_day a) t)
  else Ok a.
Proof.
  intros C P. unfold interval_adjust_by_typmod. destruct (range_bits c p C P) as [-> ->].
  destruct (Z.leb_spec 0 (c * 65536 + p)); [|lia].
  fold (range_step c a). destruct (range_step c a); cbn [bind]; auto.
  unfold INTERVAL_FULL_PRECISION. destruct (p =? 65535); auto. cbn [negb].
  destruct (Z.ltb_spec p 0); [lia|]. reflexivity.
Qed.
Lemma range_step_ok r a : exists b, range_step (range_code r) a = Ok b /\ restricted r a b /\
  (iv_month b = iv_month a \/ Z.abs (iv_month b) <= Z.abs (iv_month a)) /\
  Z.abs (iv_time b) <= Z.abs (iv_time a).
Proof.
  destruct r; unfold range_step, restricted;
    repeat match goal with
    | |- context [?x =? ?y] => let b := eval vm_compute in (x =? y) in change (x =? y) with b; cbn [orb]
    end; eexists; (split; [reflexivity|]); cbn [from_mdt iv_month iv_day iv_time]; unit_consts.
  all: repeat split; auto; try (apply trunc_to_spec; lia).
  all: unfold trunc_to; lia.
Qed.
Lemma range_step_bad c a : (forall r, c <> range_code r) -> range_step c a = Err EInvalid.
Proof.
  intros H. unfold range_step.
  repeat match goal with
  | |- context [c =? ?y] => 
      let v := eval vm_compute in y in change y with v;
      destruct (Z.eqb_spec c v) as [E|_]; cbn [orb]
  end; try reflexivity; exfalso; subst c.
  - apply (H RFull eq_refl).
  - apply (H RYear eq_refl).
  - apply (H RMonth eq_refl).
  - apply (H RYearMonth eq_refl).
  - apply (H RDay eq_refl).
  - apply (H RHour eq_refl).
  - apply (H RMinute eq_refl).
  - apply (H RSecond eq_refl).
  - apply (H RDayHour eq_refl).
  - apply (H RDayMinute eq_refl).
  - apply (H RDaySecond eq_refl).
  - apply (H RHourMinute eq_refl).
  - apply (H RHourSecond eq_refl).
  - apply (H RMinuteSecond eq_refl).
Qed.
