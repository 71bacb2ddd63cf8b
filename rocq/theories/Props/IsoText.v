(** Intervals in the ISO 8601 notation: C59. *)
From Verif Require Import Model.Parse Spec.Calendar Spec.Ranges Spec.Clock Spec.Text Spec.DateText Spec.TimeText Spec.IntervalS Spec.Keywords
  Spec.DateWords Spec.IntervalWords Spec.IsoText Proofs.IvIsoTextP.
Import List ListNotations.
Open Scope Z_scope.

(** Every text of designated amounts (any order, each at most once, with fractions) or of the
    alternative format, before and after the 'T', means the sum of its parts in every style and with
    every qualifier; months outside i32 are refused. The type modifier is applied last. *)
Theorem C59_iso : forall md st r p d t,
  iso_text_ok d t -> qualified r p ->
  interval_try_from_str md (iso_text d t) p st =
  if (i32_min <=? iso_months d) && (iso_months d <=? i32_max)
  then interval_adjust_by_typmod md (from_mdt (iso_months d) (iso_days d) (iso_time d t)) p else Err EOverflow.
Proof.
  intros md st r p d t W [(prec & B & E)|E].
  - apply (iso_accepted md st r p prec d t W B); auto.
  - apply (iso_accepted md st r p 0 d t W); auto. lia.
Qed.
Print Assumptions C59_iso.

(** The designators of one half may be in any order. *)
Theorem C59_order : forall md st r p a b t,
  iso_text_ok (DAmounts a) t -> iso_text_ok (DAmounts b) t -> Permutation.Permutation a b -> qualified r p ->
  interval_try_from_str md (iso_text (DAmounts a) t) p st = interval_try_from_str md (iso_text (DAmounts b) t) p st.
Proof.
  intros md st r p a b t A B P Q. rewrite !(C59_iso md st r p) by assumption.
  assert (forall f, half_total f a = half_total f b) as H.
  { intros f. clear - P. unfold half_total, total. induction P; cbn; [reflexivity|lia|lia|congruence]. }
  unfold iso_months, iso_days, iso_time. now rewrite !H.
Qed.
Print Assumptions C59_order.

(** "Py-m-dTh:mi:s" and "PyYmMdDThHmiMsS" are the same interval, whatever the numbers. *)
Theorem C59_alternative : forall md st r p y m d h mi s,
  short_digits y -> short_digits m -> short_digits d -> short_digits h -> short_digits mi -> short_digits s ->
  digits_value y <= 8000000 -> digits_value m <= 100000000 -> digits_value d <= 100000000 ->
  digits_value h <= 1000000 -> digits_value mi <= 100000000 -> digits_value s <= 100000000 -> qualified r p ->
  interval_try_from_str md (bs "P" ++ y ++ bs "-" ++ m ++ bs "-" ++ d ++ bs "T" ++ h ++ bs ":" ++ mi ++ bs ":" ++ s) p st
  = interval_try_from_str md (bs "P" ++ y ++ bs "Y" ++ m ++ bs "M" ++ d ++ bs "DT" ++ h ++ bs "H" ++ mi ++ bs "M" ++ s ++ bs "S") p st.
Proof.
  intros md st r p y m d h mi s Py Pm Pd Ph Pmi Ps By Bm Bd Bh Bmi Bs Q.
  set (D1 := DAlternative (y ++ 45 :: m ++ 45 :: d) (digits_value y) (digits_value m) (digits_value d)).
  set (T1 := TAlternative (h ++ 58 :: mi ++ 58 :: s) (digits_value h) (digits_value mi) (digits_value s) 0).
  set (D2 := DAmounts [mkA y None UYear; mkA m None UMonth; mkA d None UDay]).
  set (T2 := TAmounts [mkA h None UHour; mkA mi None UMinute; mkA s None USecond]).
  assert (bs "P" ++ y ++ bs "-" ++ m ++ bs "-" ++ d ++ bs "T" ++ h ++ bs ":" ++ mi ++ bs ":" ++ s = iso_text D1 T1) as ->.
  { unfold iso_text, D1, T1. cbn [date_half_text time_half_text]. repeat (rewrite <- app_assoc || cbn [app]). reflexivity. }
  assert (bs "P" ++ y ++ bs "Y" ++ m ++ bs "M" ++ d ++ bs "DT" ++ h ++ bs "H" ++ mi ++ bs "M" ++ s ++ bs "S" = iso_text D2 T2) as ->.
  { unfold iso_text, D2, T2. cbn [date_half_text time_half_text map concat amount_text a_int a_frac a_unit date_letter time_letter].
    unfold amount_text. cbn [a_int a_frac a_unit date_letter time_letter]. repeat (rewrite <- app_assoc || cbn [app]). reflexivity. }
  assert (iso_text_ok D1 T1) as O1.
  { split; [|split; [|split]].
    - split; [now constructor|]. lia.
    - split; [|lia]. pose proof (IC_full h mi s None Ph Pmi Ps I) as K. cbn [seconds_part] in K. rewrite app_nil_r in K. exact K.
    - cbn. destruct y; discriminate || (intros E; apply (f_equal (@length Z)) in E; rewrite !app_length in E; cbn in E; lia).
    - unfold iso_text, D1, T1. cbn [date_half_text time_half_text]. repeat (rewrite app_length || cbn [length]).
      destruct Py, Pm, Pd, Ph, Pmi, Ps. lia. }
  assert (iso_text_ok D2 T2) as O2.
  { assert (forall u v, short_digits u -> digits_value u * weight v <= 100000000 -> amount_ok (mkA u None v)) as Am by (intros u v Pu Bu; split; [exact Pu|split; [exact Bu|exact I]]).
    split; [|split; [|split]].
    - split; [|split].
      + repeat (apply Forall_cons; [apply Am; [assumption|cbn; lia]|]). apply Forall_nil.
      + repeat (apply Forall_cons; [cbn; discriminate|]). apply Forall_nil.
      + cbn. repeat constructor; cbn; intuition discriminate.
    - split; [split; [|split]|discriminate].
      + repeat (apply Forall_cons; [apply Am; [assumption|cbn; lia]|]). apply Forall_nil.
      + repeat (apply Forall_cons; [cbn; discriminate|]). apply Forall_nil.
      + cbn. repeat constructor; cbn; intuition discriminate.
    - intros E; apply (f_equal (@length Z)) in E. unfold D2, T2 in E. cbn in E. rewrite !app_length in E; cbn in E. lia.
    - unfold iso_text, D2, T2. cbn [date_half_text time_half_text map concat]. unfold amount_text. cbn [a_int a_frac a_unit date_letter time_letter].
      repeat (rewrite app_length || cbn [length]). destruct Py, Pm, Pd, Ph, Pmi, Ps. lia. }
  rewrite !(C59_iso md st r p) by assumption.
  assert (iso_months D2 = iso_months D1 /\ iso_days D2 = iso_days D1 /\ iso_time D2 T2 = iso_time D1 T1) as (-> & -> & ->); [|reflexivity].
  unfold D1, D2, T1, T2, iso_months, iso_days, iso_time, half_total, total, q_months, q_days, q_micros, q_val, q_num, q_len, clock, as_quantity. cbn.
  change (12 * 0 ÷ 1) with 0. change (30 * 0 ÷ 1) with 0. change (Z.rem (30 * 0) 1 * usecs_day / 1) with 0. change (0 * usecs_day / 1) with 0.
  change (0 * 3600000000 / 1) with 0. change (0 * 60000000 / 1) with 0. change (0 * 1000000 / 1) with 0. lia.
Qed.
Print Assumptions C59_alternative.

(** The cases of the hypotheses: designators with fractions in an unusual order, and both
    alternative formats *)
Ltac digs := match goal with |- Forall digit ?l => let l' := eval vm_compute in l in change (Forall digit l') end;
  repeat (apply Forall_cons; [unfold digit; lia|]); apply Forall_nil.
Ltac dg := split; [digs|cbn; lia].
Ltac unique := repeat (constructor; [cbn; intuition discriminate|]); constructor.
Example C59_case :
  let d := DAmounts [mkA (bs "3") None UDay; mkA (bs "1") (Some (bs "25")) UYear; mkA (bs "2") (Some (bs "5")) UMonth; mkA (bs "1") (Some (bs "5")) UWeek] in
  let t := TAmounts [mkA (bs "6") (Some (bs "789")) USecond; mkA (bs "4") None UHour; mkA (bs "5") (Some (bs "5")) UMinute] in
  iso_text d t = bs "P3D1.25Y2.5M1.5WT6.789S4H5.5M" /\ iso_text_ok d t
  /\ interval_try_from_str Debug (iso_text d t) (-1) IPostgres = Ok (from_mdt 17 28 57936789000).
Proof.
  cbv zeta. split; [vm_compute; reflexivity|]. split; [|vm_compute; reflexivity].
  assert (forall n p, n = 0 \/ 2 * n = p -> forall i, month_fraction i n p) as MF by (unfold month_fraction; lia).
  split; [|split; [|split; [discriminate|vm_compute; lia]]].
  - split; [|split; [repeat (apply Forall_cons; [discriminate|]); apply Forall_nil|unique]].
    repeat (apply Forall_cons; [|try apply Forall_nil]); (split; [dg|split; [vm_compute; discriminate|cbn [a_frac a_unit a_int]]]); try exact I;
      (split; [digs|split; [cbn; lia|split; [vm_compute; discriminate|]]]); try discriminate.
    intros _. apply MF. right. reflexivity.
  - split; [split; [|split; [repeat (apply Forall_cons; [discriminate|]); apply Forall_nil|unique]]|discriminate].
    repeat (apply Forall_cons; [|try apply Forall_nil]); (split; [dg|split; [vm_compute; discriminate|cbn [a_frac a_unit a_int]]]); try exact I;
      (split; [digs|split; [cbn; lia|split; [vm_compute; discriminate|]]]); discriminate.
Qed.

Example C59_compact :
  let d := DAlternative (bs "00010203") 1 2 3 in let t := TAlternative (bs "040506.25") 4 5 6 250000 in
  iso_text d t = bs "P00010203T040506.25" /\ iso_text_ok d t
  /\ interval_try_from_str Debug (iso_text d t) (-1) ISQLStandard = Ok (from_mdt 14 3 14706250000).
Proof.
  cbv zeta. split; [vm_compute; reflexivity|]. split; [|vm_compute; reflexivity].
  split; [|split; [|split; [discriminate|vm_compute; lia]]].
  - split; [|lia]. apply (ID_compact (bs "0001") (bs "02") (bs "03")); try reflexivity; try (split; [|reflexivity]); digs.
  - split; [|lia]. apply (IC_compact (bs "04") (bs "05") (bs "06") (Some (bs "25"))); (split; [|cbn; lia]); digs.
Qed.

Example C59_full :
  let d := DAlternative (bs "1-02-3") 1 2 3 in let t := TAlternative (bs "4:05") 4 5 0 0 in
  iso_text d t = bs "P1-02-3T4:05" /\ iso_text_ok d t
  /\ interval_try_from_str Debug (iso_text d t) (-1) IISO8601 = Ok (from_mdt 14 3 14700000000).
Proof.
  cbv zeta. split; [vm_compute; reflexivity|]. split; [|vm_compute; reflexivity].
  split; [|split; [|split; [discriminate|vm_compute; lia]]].
  - split; [|lia]. apply (ID_full (bs "1") (bs "02") (bs "3")); dg.
  - split; [|lia]. apply (IC_minutes (bs "4") (bs "05")); dg.
Qed.

(** Without the condition on fractions of months the property fails: 0.9 months are 27 days, but
    "P1.9M" is 1 month 26 days 24 hours, "P0.9M" 27 days. *)
Theorem C59_month_fraction_refuted :
  ~ (forall md i f, short_digits i -> digits_value i <= 100 -> Forall digit f -> (1 <= length f <= 6)%nat ->
     interval_try_from_str md (bs "P" ++ i ++ bs "." ++ f ++ bs "M") (-1) IPostgres =
     Ok (from_mdt (digits_value i) (q_days (mkQ Unsigned i (Some f) None UMonth)) (q_micros (mkQ Unsigned i (Some f) None UMonth)))).
Proof.
  intros H. assert (interval_try_from_str Debug (bs "P1.9M") (-1) IPostgres = Ok (from_mdt 1 27 0)) as Q.
  { exact (H Debug (bs "1") (bs "9") ltac:(dg) ltac:(vm_compute; discriminate) ltac:(digs) ltac:(cbn; lia)). }
  revert Q. vm_compute. discriminate.
Qed.
Print Assumptions C59_month_fraction_refuted.
Example C59_month_fraction_reads : interval_try_from_str Debug (bs "P1.9M") (-1) IPostgres = Ok (from_mdt 1 26 86400000000)
  /\ interval_try_from_str Debug (bs "P0.9M") (-1) IPostgres = Ok (from_mdt 0 27 0).
Proof. split; vm_compute; reflexivity. Qed.

(** A designator given twice is not refused, unlike a unit name given twice (C58_twice); the
    designators after a bare number and a 'T' with nothing after it: *)
Theorem C59_repeat_refuted :
  ~ (forall md st n m u c, date_letter u = Some c -> short_digits n -> short_digits m ->
     interval_try_from_str md (80 :: n ++ [c] ++ m ++ [c]) (-1) st = Err EInvalid).
Proof.
  intros H. specialize (H Debug IPostgres (bs "1") (bs "1") UDay 68 eq_refl ltac:(dg) ltac:(dg)). revert H. vm_compute. discriminate.
Qed.
Print Assumptions C59_repeat_refuted.
Example C59_odd_texts :
  interval_try_from_str Debug (bs "P1D1D") (-1) IPostgres = Ok (from_mdt 0 2 0)
  /\ interval_try_from_str Debug (bs "PT") (-1) IPostgres = Ok (from_mdt 0 0 0)
  /\ interval_try_from_str Debug (bs "P1Y2") (-1) IPostgres = Err EInvalid
  /\ interval_try_from_str Debug (bs "P-1D") (-1) IPostgres = Err EInvalid.
Proof. repeat split; vm_compute; reflexivity. Qed.
