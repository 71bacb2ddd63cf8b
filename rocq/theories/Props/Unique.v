(** C74: different values have different texts, and an interval text says what it means. *)
From Coq Require Import ZArith Lia List.
From Verif Require Import Model.Format Spec.Calendar Spec.Ranges Spec.Clock Spec.Text Spec.IntervalS Spec.IntervalLayout
  Proofs.Arith Proofs.UniqueP Proofs.IvLayoutP Proofs.IvUniqueP.
Import ListNotations.
Open Scope Z_scope.

(** C74. Two dates with the same text in one style and order are the same date, infinities
    included and whichever build mode wrote the texts. *)
Theorem C74_date : forall md md' a b style order s,
  valid_date a \/ a = neg_inf_date \/ a = pos_inf_date ->
  valid_date b \/ b = neg_inf_date \/ b = pos_inf_date ->
  date_format md a style order = Ok s -> date_format md' b style order = Ok s -> a = b.
Proof. exact date_unique. Qed.
Print Assumptions C74_date.
Theorem C74_timestamp : forall md md' a b style order s,
  valid_ts a \/ a = neg_inf_ts \/ a = pos_inf_ts ->
  valid_ts b \/ b = neg_inf_ts \/ b = pos_inf_ts ->
  timestamp_format md a style order = Ok s -> timestamp_format md' b style order = Ok s -> a = b.
Proof. exact timestamp_unique. Qed.
Print Assumptions C74_timestamp.
Theorem C74_time : forall md md' a b s, 0 <= a <= usecs_day -> 0 <= b <= usecs_day ->
  time_format md a = Ok s -> time_format md' b = Ok s -> a = b.
Proof. exact time_unique. Qed.
Print Assumptions C74_time.

(** An interval splits into years, months, days, hours, minutes, seconds and microseconds in one
    way only ... *)
Theorem C74_fields : forall a f f', fields_of_iv a f -> fields_of_iv a f' -> f = f'.
Proof.
  intros a f f' (A & B & C & D & E & F & G & H & I) (A' & B' & C' & D' & E' & F' & G' & H' & I').
  apply same_sign_2' in C, C'. apply same_sign_4' in I, I'. unfold clock in *.
  assert (12 * f_y f + f_mo f = 12 * f_y f' + f_mo f') as X by lia.
  assert (((f_h f * 60 + f_mi f) * 60 + f_s f) * 1000000 + f_us f = ((f_h f' * 60 + f_mi f') * 60 + f_s f') * 1000000 + f_us f') as Y by lia.
  clear A A' E E'.
  assert (f_us f = f_us f') by lia. assert (f_s f = f_s f') by lia. assert (f_mi f = f_mi f') by lia.
  apply fields_eq; lia.
Qed.
Print Assumptions C74_fields.
(** ... and its text in a style is these fields in the layout of the style. *)
Theorem C74_interval_text : forall md a style f,
  fields_ok a -> iv_day a <> i32_min -> Z.abs (iv_time a) < 2147483648 * 3600000000 -> fields_of_iv a f ->
  exists t, interval_format md a style = Ok t /\ interval_layout style f t.
Proof.
  intros md a style f A D T F. rewrite (C74_fields a f _ F (iv_fields a)). apply layout_ok; assumption.
Qed.
Print Assumptions C74_interval_text.
(** Two intervals with the same text in one style are the same interval. *)
Theorem C74_interval : forall md md' a b style s,
  fields_ok a -> iv_day a <> i32_min -> Z.abs (iv_time a) < 2147483648 * 3600000000 ->
  fields_ok b -> iv_day b <> i32_min -> Z.abs (iv_time b) < 2147483648 * 3600000000 ->
  interval_format md a style = Ok s -> interval_format md' b style = Ok s -> a = b.
Proof.
  intros md md' a b style s A DA TA B DB TB Ea Eb.
  destruct (layout_ok md a style A DA TA) as (t & E & L). rewrite Ea in E. injection E as <-.
  destruct (layout_ok md' b style B DB TB) as (t & E & L'). rewrite Eb in E. injection E as <-.
  pose proof (layout_unique _ _ _ _ (fields_signs _ _ (iv_fields a)) (fields_signs _ _ (iv_fields b)) L L') as X.
  pose proof (iv_fields a) as Fa. rewrite X in Fa. exact (fields_interval _ _ _ Fa (iv_fields b)).
Qed.
Print Assumptions C74_interval.

(** The hypotheses are met: an interval of mixed signs has a text in every style, and these are the
    expected ones; the first day of March in 44 BC and the last of February have different texts. *)
Example C74_ex_fields : fields_of_iv (from_mdt 14 (-3) 14706700000) (mkFields 1 2 (-3) 4 5 6 700000).
Proof.
  unfold fields_of_iv. cbn. unfold clock. split; [reflexivity|]. split; [lia|]. split; [apply same_sign_2; lia|].
  split; [reflexivity|]. split; [reflexivity|]. do 3 (split; [lia|]). apply same_sign_4. lia.
Qed.
Example C74_ex_texts : map (interval_format Debug (from_mdt 14 (-3) 14706700000)) [IPostgres; IPostgresVerbose; ISQLStandard; IISO8601]
  = [Ok (bs "1 year 2 mons -3 days +04:05:06.7"); Ok (bs "@ 1 year 2 mons -3 days 4 hours 5 mins 6.7 secs");
     Ok (bs "+1-2 -3 +4:05:06.7"); Ok (bs "P1Y2M-3DT4H5M6.7S")].
Proof. vm_compute. reflexivity. Qed.
(** The plural follows the field, not the number written: "1 years ... ago". *)
Example C74_ex_neg : map (interval_format Debug (from_mdt (-14) 3 (-14706700000))) [IPostgres; IPostgresVerbose; ISQLStandard; IISO8601]
  = [Ok (bs "-1 years -2 mons +3 days -04:05:06.7"); Ok (bs "@ 1 years 2 mons -3 days 4 hours 5 mins 6.7 secs ago");
     Ok (bs "-1-2 +3 -4:05:06.7"); Ok (bs "P-1Y-2M3DT-4H-5M-6.7S")].
Proof. vm_compute. reflexivity. Qed.
Example C74_ex_hyps : fields_ok (from_mdt 14 (-3) 14706700000) /\ valid_date (-746000) /\
  date_format Debug (-746000) SPostgres DMY = Ok (bs "10-07.0044 BC").
Proof. split; [unfold fields_ok; rng; cbn; lia|]. split; [unfold valid_date; vm_compute; intuition discriminate|]. vm_compute. reflexivity. Qed.
