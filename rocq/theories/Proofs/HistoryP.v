(** Ranges of everything the calls return. *)
From Coq Require Import Floats.SpecFloat.
From Verif Require Import Model.F64 Model.Parse Model.DateTime Spec.Calendar Spec.Ranges Spec.Clock Spec.IntervalS Spec.History
  Proofs.Arith Proofs.Cal Proofs.DateP Proofs.TsP Proofs.ParsedP Proofs.TimeP Proofs.IntervalP Proofs.TypedP Props.Parsed Props.Dates Props.Intervals Props.Construct.
From Verif Require Import Spec.History.
From Coq Require Import List ZArith Bool Lia.
Import ListNotations.
Open Scope Z_scope.

Ltac lu := unfold valid_ts, valid_date, pos_inf_ts, neg_inf_ts, pos_inf_date, neg_inf_date, after_last, last_time, usecs_day in *.

Lemma to_i64_range x : in_i64 (f64_to_i64 x).
Proof. unfold f64_to_i64, f64_to_int. destruct x as [s|s| |s m e]; try destruct s; rng; lia. Qed.

(** ** Dates *)
Lemma ymd_range md y m d r : date_try_from_ymd md y m d = Ok r -> valid_date r.
Proof.
  unfold date_try_from_ymd. intros E. apply bind_inv in E as ([tm bc] & _ & E). apply bind_inv in E as (tm' & _ & E).
  destruct (negb (is_valid_julian _ _)); [discriminate|]. do 2 apply bind_inv in E as (? & _ & E).
  destruct (is_valid_date _) eqn:V; cbn [negb] in E; [|discriminate]. injection E as <-. now apply is_valid_date_spec.
Qed.
Definition fine_date (d : Z) : Prop := valid_date d \/ d = neg_inf_date \/ d = pos_inf_date.
Definition fine_ts (t : Z) : Prop := valid_ts t \/ t = neg_inf_ts \/ t = pos_inf_ts \/ t = after_last.
Lemma add_days_range d n r : fine_date d -> date_add_days d n = Ok r -> fine_date r.
Proof.
  unfold date_add_days. intros F E. destruct (negb _); [now injection E as <-|]. apply bind_inv in E as (x & _ & E).
  destruct (is_valid_date x) eqn:V; [|discriminate]. injection E as <-. left. now apply is_valid_date_spec.
Qed.
Lemma sub_days_range d n r : fine_date d -> date_sub_days d n = Ok r -> fine_date r.
Proof.
  unfold date_sub_days. intros F E. destruct (negb _); [now injection E as <-|]. destruct (chk32 _) as [x|]; [|discriminate].
  destruct (is_valid_date x) eqn:V; [|discriminate]. injection E as <-. left. now apply is_valid_date_spec.
Qed.

Lemma valid_date_of_ts md t r : valid_ts t -> date_of_timestamp md t = Ok r -> valid_date r.
Proof.
  intros V E. rewrite date_of_ts_ok in E by exact V. injection E as <-.
  pose proof (valid_ts_day t V) as H. lu. lia.
Qed.
Lemma date_of_ts_range md t r : fine_ts t -> date_of_timestamp md t = Ok r -> fine_date r.
Proof.
  intros [V|[-> |[-> | ->]]] E.
  - left. exact (valid_date_of_ts md t r V E).
  - right. left. now injection E as <-.
  - right. right. now injection E as <-.
  - assert (date_of_timestamp md after_last = Ok 106751983) as Q by (destruct md; vm_compute; reflexivity).
    rewrite Q in E. injection E as <-. left. lu. lia.
Qed.
Lemma ts_trunc_range md t ty u r : timestamp_truncate md t ty u = Ok r -> valid_ts r.
Proof.
  unfold timestamp_truncate. destruct ty; [|discriminate]. intros E. do 2 apply bind_inv in E as (? & _ & E). exact (to_timestamp_range _ _ _ _ E).
Qed.
Lemma date_trunc_range md d ty u r : date_truncate md d ty u = Ok r -> valid_date r.
Proof.
  unfold date_truncate. intros E. apply bind_inv in E as (t & _ & E). apply bind_inv in E as (x & T & E).
  exact (valid_date_of_ts md x r (ts_trunc_range _ _ _ _ _ T) E).
Qed.

(** ** Timestamps *)
Lemma ts_of_date_range md d r : fine_date d -> timestamp_of_date md d = Ok r -> valid_ts r \/ r = neg_inf_ts \/ r = pos_inf_ts.
Proof.
  intros [V|[-> | ->]] E.
  - destruct (Z.le_gt_cases 106751983 d).
    + rewrite (ts_of_date_err md d V) in E; [discriminate|]. unfold ts_date. lia.
    + assert (ts_date d) as T by (unfold ts_date, valid_date in *; lia). rewrite ts_of_date_ok in E by exact T. injection E as <-.
      left. now apply ts_date_valid.
  - right. left. now injection E as <-.
  - right. right. now injection E as <-.
Qed.
Lemma ts_add_range md t a r : timestamp_add_interval md t a = Ok r -> valid_ts r \/ r = t /\ (t = neg_inf_ts \/ t = pos_inf_ts).
Proof.
  unfold timestamp_add_interval. destruct (ts_is_finite t) eqn:F; cbn [negb]; intros E.
  - apply bind_inv in E as (x & _ & E). apply bind_inv in E as (y & _ & E).
    destruct (is_valid_timestamp _) eqn:V; cbn [negb] in E; [|discriminate]. injection E as <-. left. now apply is_valid_timestamp_spec.
  - injection E as <-. right. split; [reflexivity|]. unfold ts_is_finite in F. lu. unfold i64_min, i64_max in *. lia.
Qed.
Lemma ts_add_fine md t a r : timestamp_add_interval md t a = Ok r -> fine_ts r.
Proof. intros E. destruct (ts_add_range _ _ _ _ E) as [V|(-> & [-> | ->])]; unfold fine_ts; auto. Qed.
Lemma ts_sub_fine md t a r : timestamp_sub_interval md t a = Ok r -> fine_ts r.
Proof. unfold timestamp_sub_interval. intros E. apply bind_inv in E as (? & _ & E). exact (ts_add_fine _ _ _ _ E). Qed.
Lemma ymd_hms_range md y m d h mi s r : timestamp_try_from_ymd_hms md y m d h mi s = Ok r -> valid_ts r.
Proof.
  unfold timestamp_try_from_ymd_hms. intros E. apply bind_inv in E as (? & _ & E). destruct (negb (is_valid_julian _ _)); [discriminate|].
  do 2 apply bind_inv in E as (? & _ & E). match type of E with (if ?c then _ else _) = _ => destruct c end; [discriminate|].
  do 3 apply bind_inv in E as (? & _ & E). match type of E with (if ?c then _ else _) = _ => destruct c end; [discriminate|].
  destruct (is_valid_timestamp _) eqn:V; cbn [negb] in E; [|discriminate]. injection E as <-. now apply is_valid_timestamp_spec.
Qed.

(** ** Times *)
Lemma time_of_ts_range md t r : fine_ts t -> time_of_timestamp md t = Ok (Some r) -> 0 <= r < usecs_day.
Proof.
  intros [V|[H|[H|H]]] E.
  - rewrite time_of_ts_ok in E by exact V. injection E as <-. apply time_part_bounds.
  - rewrite H, (proj1 (ts_inf_time md)) in E. discriminate.
  - rewrite H, (proj2 (ts_inf_time md)) in E. discriminate.
  - assert (time_of_timestamp md after_last = Ok (Some 0)) as Q by (destruct md; vm_compute; reflexivity).
    rewrite H, Q in E. injection E as <-. lu. lia.
Qed.
Lemma ar64_release z : ar64 Release z = Ok (wrap64 z).
Proof. unfold ar64. destruct (in64b z) eqn:E; [|reflexivity]. rewrite wrap64_id; [reflexivity|]. unfold in64b in E. rng. lia. Qed.
Lemma wrap64_over z : i64_max < z <= i64_max + 18446744073709551616 -> wrap64 z = z - 18446744073709551616.
Proof. unfold wrap64. rng. intros H. lia. Qed.
Lemma wrap64_under z : i64_min - 18446744073709551616 <= z < i64_min -> wrap64 z = z + 18446744073709551616.
Proof. unfold wrap64. rng. intros H. lia. Qed.
Lemma near_min t r : -9223372036854775808 <= t <= -9223372036854775808 + 86400000000 ->
  time_of_interval Release (from_mdt 0 0 t) = Ok r -> 0 <= r <= 172799999998.
Proof.
  intros H E. unfold time_of_interval, USECS_PER_DAY in E. cbn [from_mdt iv_time] in E.
  destruct (Z.leb_spec 86400000000 t); [lia|]. destruct (Z.ltb_spec t 0); [|lia].
  unfold neg64, add64, sub64, mul64 in E. rewrite !ar64_release in E. cbn [bind] in E. rewrite !ar64_release in E. cbn [bind] in E.
  rewrite !ar64_release in E. cbn [bind] in E. rewrite !ar64_release in E. cbn [bind] in E. rewrite !ar64_release in E. injection E as <-.
  destruct (Z.eq_dec t (-9223372036854775808)) as [-> |N0]; [vm_compute; intuition congruence|].
  rewrite (wrap64_id (- t)) by (rng; lia). rewrite (wrap64_over (- t + 86400000000)) by (rng; lia).
  destruct (Z.eq_dec t (-9223372036854775808 + 86400000000)) as [-> |N1]; [vm_compute; intuition congruence|].
  rewrite (wrap64_id (- t + 86400000000 - 18446744073709551616 - 1)) by (rng; lia).
  set (k := - t + 86400000000 - 18446744073709551616 - 1).
  assert (Z.quot k 86400000000 = -106751991 \/ Z.quot k 86400000000 = -106751990) as [Q|Q].
  { replace k with (- (- k)) by lia. rewrite Z.quot_opp_l by lia. rewrite Z.quot_div_nonneg by lia. lia. }
  - rewrite Q. assert (k <= -9223372022400000000).
    { replace k with (- (- k)) in Q by lia. rewrite Z.quot_opp_l, Z.quot_div_nonneg in Q by lia. lia. }
    rewrite (wrap64_id (_ * _)) by (rng; lia). rewrite wrap64_under by (rng; lia). lia.
  - rewrite Q. assert (- 9223372022400000000 < k).
    { replace k with (- (- k)) in Q by lia. rewrite Z.quot_opp_l, Z.quot_div_nonneg in Q by lia. lia. }
    rewrite (wrap64_id (_ * _)) by (rng; lia). rewrite wrap64_under by (rng; lia). lia.
Qed.
Lemma time_of_iv_range md a r : in_i64 (iv_time a) -> time_of_interval md a = Ok r -> 0 <= r <= last_time md.
Proof.
  intros I E. destruct (Z.le_gt_cases (iv_time a) (i64_min + usecs_day)) as [L|L].
  - destruct md.
    + exfalso. unfold time_of_interval, USECS_PER_DAY in E. lu. set (t := iv_time a) in *. clearbody t. rng.
      destruct (Z.leb_spec 86400000000 t); [lia|]. destruct (Z.ltb_spec t 0); [|lia].
      apply bind_inv in E as (n & A & E). apply bind_inv in E as (m & B & E).
      unfold neg64, add64, ar64, in64b, i64_min, i64_max in *.
      destruct ((_ <=? - t) && _) eqn:Q; [|discriminate]. injection A as <-.
      destruct ((_ <=? - t + 86400000000) && _) eqn:Q'; [|discriminate]. lia.
    + change (last_time Release) with 172799999998. apply (near_min (iv_time a)); [|exact E]. lu. rng. lia.
  - rewrite time_of_interval_ok in E by assumption. injection E as <-. unfold last_time, usecs_day. destruct md; lia.
Qed.
Lemma time_hms_range md h m s r : valid_binary 53 1024 s = true -> time_try_from_hms md h m s = Ok r -> 0 <= r <= usecs_day.
Proof. intros V E. destruct (C21_never_panics md h m s V) as [(t & E' & R)|E']; rewrite E' in E; [now injection E as <-|discriminate]. Qed.
Lemma time_add_range md t a r : time_add_interval md t a = Ok r -> 0 <= r < usecs_day.
Proof. intros E. destruct (proj1 (C18_range md t a)) as (x & E' & R). rewrite E' in E. now injection E as <-. Qed.
Lemma time_sub_range md t a r : time_sub_interval md t a = Ok r -> 0 <= r < usecs_day.
Proof. intros E. destruct (proj2 (C18_range md t a)) as (x & E' & R). rewrite E' in E. now injection E as <-. Qed.

(** ** Intervals *)
Lemma chk32_range z r : chk32 z = Some r -> in_i32 r.
Proof. unfold chk32, in32b. destruct (_ && _) eqn:E; [|discriminate]. intros H. injection H as <-. rng. lia. Qed.
Lemma chk64_range z r : chk64 z = Some r -> in_i64 r.
Proof. unfold chk64, in64b. destruct (_ && _) eqn:E; [|discriminate]. intros H. injection H as <-. rng. lia. Qed.
Lemma ok32_range z e r : ok_or (chk32 z) e = Ok r -> in_i32 r.
Proof. destruct (chk32 z) as [x|] eqn:E; [|discriminate]. intros H. injection H as <-. exact (chk32_range _ _ E). Qed.
Lemma ok64_range z e r : ok_or (chk64 z) e = Ok r -> in_i64 r.
Proof. destruct (chk64 z) as [x|] eqn:E; [|discriminate]. intros H. injection H as <-. exact (chk64_range _ _ E). Qed.
Lemma mdt_fields m d t : in_i32 m -> in_i32 d -> in_i64 t -> fields_ok (from_mdt m d t).
Proof. intros A B C. exact (conj A (conj B C)). Qed.
Lemma ymwd_range y mo w d h mi s r : interval_try_from_ymwd_hms y mo w d h mi s = Ok r -> fields_ok r.
Proof.
  unfold interval_try_from_ymwd_hms. destruct (_ || _); [discriminate|]. intros E. injection E as <-.
  apply mdt_fields; [apply wrap32_range|apply wrap32_range|apply wrap64_range].
Qed.
Lemma iv_add_range a b r : interval_add a b = Ok r -> fields_ok r.
Proof.
  unfold interval_add. intros E. apply bind_inv in E as (m & A & E). apply bind_inv in E as (d & B & E). apply bind_inv in E as (t & C & E).
  injection E as <-. apply mdt_fields; [exact (ok32_range _ _ _ A)|exact (ok32_range _ _ _ B)|exact (ok64_range _ _ _ C)].
Qed.
Lemma iv_plus_range a b r : interval_op_add a b = Ok r -> fields_ok r.
Proof. unfold interval_op_add. destruct (interval_add a b) eqn:E; try discriminate. intros H. injection H as <-. exact (iv_add_range _ _ _ E). Qed.
Lemma iv_sub_range a b r : interval_sub a b = Ok r -> fields_ok r.
Proof.
  unfold interval_sub. intros E. apply bind_inv in E as (m & A & E). apply bind_inv in E as (d & B & E). apply bind_inv in E as (t & C & E).
  injection E as <-. apply mdt_fields; [exact (ok32_range _ _ _ A)|exact (ok32_range _ _ _ B)|exact (ok64_range _ _ _ C)].
Qed.
Lemma iv_neg_range a r : interval_negate a = Ok r -> fields_ok r.
Proof.
  unfold interval_negate. intros E. apply bind_inv in E as (m & A & E). apply bind_inv in E as (d & B & E). apply bind_inv in E as (t & C & E).
  injection E as <-. apply mdt_fields; [exact (ok32_range _ _ _ C)|exact (ok32_range _ _ _ B)|exact (ok64_range _ _ _ A)].
Qed.
Lemma hours_range md a r : fields_ok a -> justify_hours md a = Ok r -> fields_ok r.
Proof. intros F E. destruct (justify_hours_total md a F) as (x & E' & R). rewrite E' in E. now injection E as <-. Qed.
Lemma days_range md a r : fields_ok a -> justify_days md a = Ok r -> fields_ok r.
Proof. intros F E. destruct (justify_days_total md a F) as (x & E' & R). rewrite E' in E. now injection E as <-. Qed.
Lemma justify_range md a r : fields_ok a -> justify_interval md a = Ok r -> fields_ok r.
Proof. intros F E. destruct (justify_interval_total md a F) as (x & E' & R & _). rewrite E' in E. now injection E as <-. Qed.
Lemma cascade_range md fm fd m d d' sr : cascade_days md fm fd m d = Ok (d', sr) -> in_i32 d'.
Proof.
  unfold cascade_days. intros E. apply bind_inv in E as ([x y] & _ & E). apply bind_inv in E as (z & A & E).
  injection E as <- _. exact (ar32_range _ _ _ A).
Qed.
Lemma mul_range md a f r : interval_mul_f64 md a f = Ok r -> fields_ok r.
Proof.
  unfold interval_mul_f64. cbv zeta. intros E. match type of E with (if ?c then _ else _) = _ => destruct c end; [discriminate|].
  match type of E with (if ?c then _ else _) = _ => destruct c end; [discriminate|].
  apply bind_inv in E as ([d sr] & A & E). match type of E with (if ?c then _ else _) = _ => destruct c end; [discriminate|].
  injection E as <-. apply mdt_fields; [apply to_i32_range|exact (cascade_range _ _ _ _ _ _ _ A)|apply to_i64_range].
Qed.
Lemma div_range md a f r : interval_div_f64 md a f = Ok r -> fields_ok r.
Proof.
  unfold interval_div_f64. cbv zeta. intros E. match type of E with (if ?c then _ else _) = _ => destruct c end; [discriminate|].
  apply bind_inv in E as ([d sr] & A & E).
  injection E as <-. apply mdt_fields; [apply to_i32_range|exact (cascade_range _ _ _ _ _ _ _ A)|apply to_i64_range].
Qed.
Lemma pgtime_range md tm fsec r : in_i32 (tm_mday tm) -> interval_from_pgtime md tm fsec = Ok r -> fields_ok r.
Proof.
  unfold interval_from_pgtime. cbv zeta. intros D E. match type of E with (if ?c then _ else _) = _ => destruct c end; [discriminate|].
  do 5 apply bind_inv in E as (? & _ & E). apply bind_inv in E as (t & A & E).
  injection E as <-. apply mdt_fields; [apply to_i32_range|exact D|exact (ar64_range _ _ _ A)].
Qed.
Lemma to_pgtime_mday md a tm fsec : interval_to_pgtime md a = Ok (tm, fsec) -> tm_mday tm = iv_day a.
Proof.
  unfold interval_to_pgtime. cbv zeta. intros E. do 2 apply bind_inv in E as (? & _ & E).
  match type of E with (if ?c then _ else _) = _ => destruct c end; [discriminate|].
  do 4 apply bind_inv in E as (? & _ & E). now injection E as <- _.
Qed.
Lemma iv_trunc_range md a ty u r : fields_ok a -> interval_truncate md a ty u = Ok r -> fields_ok r.
Proof.
  unfold interval_truncate. destruct ty; [|discriminate]. intros (_ & D & _) E. apply bind_inv in E as ([tm fsec] & A & E).
  apply bind_inv in E as (y & B & E). apply to_pgtime_mday in A. apply (pgtime_range _ _ _ _) in E; [exact E|].
  destruct u; try discriminate; injection B as <-;
    first [exact in32_0|change (in_i32 (tm_mday tm)); rewrite A; exact D].
Qed.
Lemma borrow_hi md w n : forall u lo hi lo' hi', in_i32 hi -> borrow md w n u lo hi = Ok (lo', hi') -> in_i32 hi'.
Proof.
  induction n as [|n IH]; intros u lo hi lo' hi' H E; cbn [borrow] in E; destruct (lo <? 0); try discriminate.
  - now injection E as _ <-.
  - apply bind_inv in E as (l & _ & E). apply bind_inv in E as (h & A & E). exact (IH _ _ _ _ _ (ar32_range _ _ _ A) E).
  - now injection E as _ <-.
Qed.
Lemma borrow_lo md n : forall u lo hi lo' hi', in_i32 lo -> borrow md false n u lo hi = Ok (lo', hi') -> in_i32 lo'.
Proof.
  induction n as [|n IH]; intros u lo hi lo' hi' H E; cbn [borrow] in E; destruct (lo <? 0); try discriminate.
  - now injection E as <- _.
  - apply bind_inv in E as (l & A & E). apply bind_inv in E as (h & _ & E). exact (IH _ _ _ _ _ (ar32_range _ _ _ A) E).
  - now injection E as <- _.
Qed.
Lemma age_borrow_range md ey em f s m h d mo y f' s' m' h' d' mo' y' :
  in_i32 d -> age_borrow md ey em f s m h d mo y = Ok (f', s', m', h', d', mo', y') -> in_i32 d'.
Proof.
  unfold age_borrow. intros D E. do 3 apply bind_inv in E as ([? ?] & _ & E). apply bind_inv in E as ([h1 d1] & A & E).
  apply (borrow_hi _ _ _ _ _ _ _ _ D) in A. apply bind_inv in E as ([d2 m2] & B & E).
  apply bind_inv in E as ([? ?] & _ & E). injection E as _ _ _ _ <- _ _.
  destruct (d1 <? 0); [|now injection B as <- _]. apply bind_inv in B as (dom & _ & B). exact (borrow_lo _ _ _ _ _ _ _ A B).
Qed.
Lemma age_range md a b r : timestamp_age md a b = Ok r -> fields_ok r.
Proof.
  unfold timestamp_age. cbv zeta. intros E. do 2 apply bind_inv in E as ([? ?] & _ & E). do 4 apply bind_inv in E as (? & _ & E).
  apply bind_inv in E as (d & A & E). apply ar32_range in A. do 6 apply bind_inv in E as (? & _ & E).
  apply bind_inv in E as (d1 & B & E).
  assert (in_i32 d1) as D1 by (destruct (a <? b); [exact (ar32_range _ _ _ B)|now injection B as <-]).
  do 2 apply bind_inv in E as (? & _ & E). apply bind_inv in E as ([[[[[[? ?] ?] ?] d2] ?] ?] & C & E).
  apply age_borrow_range in C; [|exact D1]. do 4 apply bind_inv in E as (? & _ & E). apply bind_inv in E as (d3 & F & E).
  do 2 apply bind_inv in E as (? & _ & E). apply pgtime_range in E; [exact E|].
  cbn [set_year set_mon set_mday tm_mday]. destruct (a <? b); [exact (ar32_range _ _ _ F)|now injection F as <-].
Qed.
Lemma diff_range md a b r : timestamp_sub_timestamp md a b = Ok r -> fields_ok r.
Proof.
  unfold timestamp_sub_timestamp. destruct (_ || _); [discriminate|]. intros E. apply bind_inv in E as (t & A & E).
  refine (hours_range _ _ _ _ E). apply mdt_fields; [exact in32_0|exact in32_0|exact (ar64_range _ _ _ A)].
Qed.
Lemma last_i64 md t : 0 <= t <= last_time md -> in_i64 t.
Proof. unfold last_time. destruct md; rng; lia. Qed.
Lemma of_time_range md t : 0 <= t <= last_time md -> fields_ok (interval_of_time t).
Proof. intros H. apply mdt_fields; [exact in32_0|exact in32_0|exact (last_i64 md t H)]. Qed.

Lemma made_range md v : made md v -> in_range md v.
Proof.
  assert (LT : usecs_day <= last_time md) by (unfold last_time, usecs_day; destruct md; lia).
  assert (LP : 86401000000 <= last_time md) by (unfold last_time; destruct md; lia).
  induction 1; cbn [in_range] in *.
  - left. exact (ymd_range _ _ _ _ _ H).
  - destruct (C43_date md s o r H) as [V|[V|V]]; auto.
  - exact (add_days_range _ _ _ IHmade H0).
  - exact (sub_days_range _ _ _ IHmade H0).
  - exact (date_of_ts_range _ _ _ IHmade H0).
  - left. exact (date_trunc_range _ _ _ _ _ H0).
  - pose proof (time_hms_range _ _ _ _ _ H H0). lia.
  - pose proof (C43_time _ _ _ _ _ H). lia.
  - pose proof (time_add_range _ _ _ _ H1). lia.
  - pose proof (time_sub_range _ _ _ _ H1). lia.
  - pose proof (time_of_ts_range _ _ _ IHmade H0). lia.
  - exact (time_of_iv_range _ _ _ (proj2 (proj2 IHmade)) H0).
  - unfold time_truncate in H0. apply bind_inv in H0 as (a & A & E).
    exact (time_of_iv_range _ _ _ (proj2 (proj2 (iv_trunc_range _ _ _ _ _ (of_time_range _ _ IHmade) A))) E).
  - left. exact (ymd_hms_range _ _ _ _ _ _ _ _ H).
  - destruct (C43_timestamp_any_typmod md s o p r H) as [[V|V]|[V|V]]; auto.
  - destruct (ts_of_date_range _ _ _ IHmade H0) as [V|[V|V]]; auto.
  - exact (ts_add_fine _ _ _ _ H1).
  - exact (ts_sub_fine _ _ _ _ H1).
  - exact (ts_add_fine _ _ _ _ H1).
  - exact (ts_sub_fine _ _ _ _ H1).
  - unfold date_add_interval in H1. apply bind_inv in H1 as (x & _ & E). exact (ts_add_fine _ _ _ _ E).
  - unfold date_sub_interval in H1. apply bind_inv in H1 as (x & _ & E). exact (ts_sub_fine _ _ _ _ E).
  - unfold date_add_time in H1. apply bind_inv in H1 as (x & A & E). destruct (ts_is_finite x).
    + apply bind_inv in E as (y & _ & E). destruct (is_valid_timestamp y) eqn:V; cbn [negb] in E; [|discriminate].
      injection E as <-. left. now apply is_valid_timestamp_spec.
    + injection E as <-. destruct (ts_of_date_range _ _ _ IHmade1 A) as [V|[V|V]]; auto.
  - left. exact (ts_trunc_range _ _ _ _ _ H0).
  - exact (ymwd_range _ _ _ _ _ _ _ _ H).
  - exact (parsed_fields _ _ _ _ _ H).
  - exact (iv_add_range _ _ _ H1).
  - exact (iv_plus_range _ _ _ H1).
  - exact (iv_sub_range _ _ _ H1).
  - exact (iv_neg_range _ _ H0).
  - exact (hours_range _ _ _ IHmade H0).
  - exact (days_range _ _ _ IHmade H0).
  - exact (justify_range _ _ _ IHmade H0).
  - exact (mul_range _ _ _ _ H0).
  - exact (div_range _ _ _ _ H0).
  - exact (iv_trunc_range _ _ _ _ _ IHmade H0).
  - exact (diff_range _ _ _ _ H1).
  - unfold timestamp_sub_date in H1. apply bind_inv in H1 as (x & _ & E). exact (diff_range _ _ _ _ E).
  - exact (age_range _ _ _ _ H1).
  - exact (of_time_range _ _ IHmade).
  - apply mdt_fields; [exact in32_0|exact in32_0|apply wrap64_range].
Qed.
