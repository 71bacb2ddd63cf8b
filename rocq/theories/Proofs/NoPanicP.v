(** No operation outside the parsers faults but by arithmetic overflow in a debug build. *)
From Verif Require Import Model.Parse Model.Serde Model.Format Model.Common Model.DateTime Spec.Calendar Spec.Clock Spec.Ranges
  Proofs.Arith Proofs.Cal Proofs.DateP Proofs.TsP Proofs.DigitsP Proofs.SafeP Proofs.TruncP Proofs.AgeP.
From Coq Require Import ZArith List Bool Lia.
Import List ListNotations.
Open Scope Z_scope.

Lemma sf_abs32 md a : sf md (abs32 md a). Proof. apply sf_ar32. Qed.
Lemma sf_abs64 md a : sf md (abs64 md a). Proof. apply sf_ar64. Qed.
Global Hint Resolve sf_abs32 sf_abs64 : sf.

(** ** Arithmetic without tables *)
Ltac auto_sf f := intros; unfold f; sfs.
Lemma sf_time_modulo md a b : sf md (time_modulo md a b). Proof. auto_sf time_modulo. Qed.
Global Hint Resolve sf_time_modulo : sf.
Lemma sf_week_day md a : sf md (julian_to_week_day md a). Proof. auto_sf julian_to_week_day. Qed.
Global Hint Resolve sf_week_day : sf.
Lemma sf_day4 md a : sf md (day4_day0 md a). Proof. auto_sf day4_day0. Qed.
Global Hint Resolve sf_day4 : sf.
Lemma sf_iso_week md a b c : sf md (date_to_iso_week md a b c). Proof. auto_sf date_to_iso_week. Qed.
Global Hint Resolve sf_iso_week : sf.
Lemma sf_week_julian md a b : sf md (iso_week_to_julian md a b). Proof. auto_sf iso_week_to_julian. Qed.
Global Hint Resolve sf_week_julian : sf.
Lemma sf_iso_year md a b c : sf md (date_to_iso_year md a b c). Proof. auto_sf date_to_iso_year. Qed.
Global Hint Resolve sf_iso_year : sf.
Lemma sf_week_date md a b : sf md (iso_week_to_date md a b). Proof. auto_sf iso_week_to_date. Qed.
Global Hint Resolve sf_week_date : sf.
Lemma sf_bc_floor md a b c : sf md (bc_floor md a b c). Proof. auto_sf bc_floor. Qed.
Global Hint Resolve sf_bc_floor : sf.
Lemma sf_t_quarter md a : sf md (truncate_timestamp_quarter md a). Proof. auto_sf truncate_timestamp_quarter. Qed.
Global Hint Resolve sf_t_quarter : sf.
Lemma sf_t_year md a : sf md (truncate_timestamp_year md a). Proof. auto_sf truncate_timestamp_year. Qed.
Global Hint Resolve sf_t_year : sf.
Lemma sf_t_decade md a : sf md (truncate_timestamp_decade md a). Proof. auto_sf truncate_timestamp_decade. Qed.
Global Hint Resolve sf_t_decade : sf.
Lemma sf_t_century md a : sf md (truncate_timestamp_century md a). Proof. auto_sf truncate_timestamp_century. Qed.
Global Hint Resolve sf_t_century : sf.
Lemma sf_t_mill md a : sf md (truncate_timestamp_millennium md a). Proof. auto_sf truncate_timestamp_millennium. Qed.
Global Hint Resolve sf_t_mill : sf.
Lemma sf_t_week md a : sf md (truncate_timestamp_week md a). Proof. auto_sf truncate_timestamp_week. Qed.
Global Hint Resolve sf_t_week : sf.
Lemma sf_ts_modulo md a b : sf md (timestamp_modulo md a b). Proof. auto_sf timestamp_modulo. Qed.
Global Hint Resolve sf_ts_modulo : sf.
Lemma sf_ts2t md a : sf md (timestamp2time md a). Proof. auto_sf timestamp2time. Qed.
Global Hint Resolve sf_ts2t : sf.
Lemma sf_fix md a b : sf md (fix_day_time md a b). Proof. auto_sf fix_day_time. Qed.
Global Hint Resolve sf_fix : sf.
Lemma sf_justify_hours md a : sf md (justify_hours md a). Proof. auto_sf justify_hours. Qed.
Global Hint Resolve sf_justify_hours : sf.
Lemma sf_justify_days md a : sf md (justify_days md a). Proof. auto_sf justify_days. Qed.
Global Hint Resolve sf_justify_days : sf.
Lemma sf_justify_interval md a : sf md (justify_interval md a). Proof. auto_sf justify_interval. Qed.
Global Hint Resolve sf_justify_interval : sf.
Lemma sf_cascade md a b c d : sf md (cascade_days md a b c d). Proof. auto_sf cascade_days. Qed.
Global Hint Resolve sf_cascade : sf.
Lemma sf_mul_f64 md a b : sf md (interval_mul_f64 md a b). Proof. auto_sf interval_mul_f64. Qed.
Global Hint Resolve sf_mul_f64 : sf.
Lemma sf_div_f64 md a b : sf md (interval_div_f64 md a b). Proof. auto_sf interval_div_f64. Qed.
Global Hint Resolve sf_div_f64 : sf.
Lemma sf_to_pgtime md a : sf md (interval_to_pgtime md a). Proof. auto_sf interval_to_pgtime. Qed.
Global Hint Resolve sf_to_pgtime : sf.
Lemma sf_iv_truncate md a b c : sf md (interval_truncate md a b c).
Proof. auto_sf interval_truncate. Qed.
Global Hint Resolve sf_iv_truncate : sf.
Lemma sf_iv_part md a b c : sf md (interval_date_part md a b c). Proof. auto_sf interval_date_part. Qed.
Global Hint Resolve sf_iv_part : sf.
Lemma sf_try_ymd md a b c : sf md (date_try_from_ymd md a b c). Proof. auto_sf date_try_from_ymd. Qed.
Global Hint Resolve sf_try_ymd : sf.
Lemma sf_sub_date md a b : sf md (date_sub_date md a b). Proof. auto_sf date_sub_date. Qed.
Global Hint Resolve sf_sub_date : sf.
Lemma sf_date_of_ts md a : sf md (date_of_timestamp md a). Proof. auto_sf date_of_timestamp. Qed.
Global Hint Resolve sf_date_of_ts : sf.
Lemma sf_ts_of_date md a : sf md (timestamp_of_date md a). Proof. auto_sf timestamp_of_date. Qed.
Global Hint Resolve sf_ts_of_date : sf.
Lemma sf_clock_usecs md a b c : sf md (clock_usecs md a b c). Proof. auto_sf clock_usecs. Qed.
Global Hint Resolve sf_clock_usecs : sf.
Lemma sf_try_ymd_hms md a b c d e f : sf md (timestamp_try_from_ymd_hms md a b c d e f).
Proof. auto_sf timestamp_try_from_ymd_hms. Qed.
Global Hint Resolve sf_try_ymd_hms : sf.
Lemma sf_try_hms md a b c : sf md (time_try_from_hms md a b c). Proof. auto_sf time_try_from_hms. Qed.
Global Hint Resolve sf_try_hms : sf.
Lemma sf_sub_ts md a b : sf md (timestamp_sub_timestamp md a b). Proof. auto_sf timestamp_sub_timestamp. Qed.
Global Hint Resolve sf_sub_ts : sf.
Lemma sf_ts_sub_date md a b : sf md (timestamp_sub_date md a b). Proof. auto_sf timestamp_sub_date. Qed.
Global Hint Resolve sf_ts_sub_date : sf.
Lemma sf_ts_truncate md a b c : sf md (timestamp_truncate md a b c). Proof. auto_sf timestamp_truncate. Qed.
Global Hint Resolve sf_ts_truncate : sf.
Lemma sf_ts_part md a b c : sf md (timestamp_date_part md a b c).
Proof. unfold timestamp_date_part, infinite_part. sfs. Qed.
Global Hint Resolve sf_ts_part : sf.
Lemma sf_negate md a : sf md (interval_negate a). Proof. auto_sf interval_negate. Qed.
Global Hint Resolve sf_negate : sf.

Lemma sf_add_interval md t i : sf md (timestamp_add_interval md t i).
Proof.
  unfold timestamp_add_interval. destruct (negb (ts_is_finite t)); [exact I|]. apply sf_bind.
  - destruct (negb _); [|exact I]. apply sf_bind; [auto with sf|]. intros [tm fs] _.
    apply sf_bind; [sfs|]. intros [y m] E. apply sf_bind; [|intros mx _; auto with sf].
    apply sf_days_of_month. revert E. generalize (wrap32 (tm_mon tm + iv_month i)) (wrap32_range (tm_mon tm + iv_month i)).
    unfold MONTHS_PER_YEAR, in_i32, i32_min, i32_max. intros mon B. destruct (Z.ltb_spec 12 mon).
    + unfold sub32, add32. rewrite ar32_ok by (unfold in_i32, i32_min, i32_max; lia). cbn [bind].
      rewrite ar32_ok by (unfold in_i32, i32_min, i32_max; lia). cbn [bind]. intros E. injection E as <- <-. lia.
    + destruct (Z.ltb_spec mon 1).
      * unfold sub32, add32. rewrite ar32_ok by (unfold in_i32, i32_min, i32_max; lia). cbn [bind].
        rewrite ar32_ok by (unfold in_i32, i32_min, i32_max; lia). cbn [bind]. intros E. injection E as <- <-. lia.
      * intros E. injection E as <- <-. lia.
  - intros ts _. apply sf_bind; [sfs|]. intros ts' _. sfs.
Qed.
Global Hint Resolve sf_add_interval : sf.
Lemma sf_sub_interval md t i : sf md (timestamp_sub_interval md t i). Proof. auto_sf timestamp_sub_interval. Qed.
Global Hint Resolve sf_sub_interval : sf.
Lemma sf_add_time md t i : sf md (timestamp_add_time md t i). Proof. auto_sf timestamp_add_time. Qed.
Global Hint Resolve sf_add_time : sf.
Lemma sf_sub_time md t i : sf md (timestamp_sub_time md t i). Proof. auto_sf timestamp_sub_time. Qed.
Global Hint Resolve sf_sub_time : sf.
Lemma sf_date_add_interval md t i : sf md (date_add_interval md t i). Proof. auto_sf date_add_interval. Qed.
Global Hint Resolve sf_date_add_interval : sf.
Lemma sf_date_sub_interval md t i : sf md (date_sub_interval md t i). Proof. auto_sf date_sub_interval. Qed.
Global Hint Resolve sf_date_sub_interval : sf.
Lemma sf_date_add_time md t i : sf md (date_add_time md t i). Proof. auto_sf date_add_time. Qed.
Global Hint Resolve sf_date_add_time : sf.
Lemma sf_date_part md t a b : sf md (date_date_part md t a b). Proof. auto_sf date_date_part. Qed.
Global Hint Resolve sf_date_part : sf.
Lemma sf_date_truncate md t a b : sf md (date_truncate md t a b). Proof. auto_sf date_truncate. Qed.
Global Hint Resolve sf_date_truncate : sf.
Lemma sf_day_modulo md t : sf md (day_modulo md t). Proof. auto_sf day_modulo. Qed.
Global Hint Resolve sf_day_modulo : sf.
Lemma sf_time_add md t a : sf md (time_add_interval md t a). Proof. auto_sf time_add_interval. Qed.
Global Hint Resolve sf_time_add : sf.
Lemma sf_time_sub md t a : sf md (time_sub_interval md t a). Proof. auto_sf time_sub_interval. Qed.
Global Hint Resolve sf_time_sub : sf.
Lemma sf_time_pg md t : sf md (time_to_pgtime md t). Proof. auto_sf time_to_pgtime. Qed.
Global Hint Resolve sf_time_pg : sf.
Lemma sf_time_of_ts md t : sf md (time_of_timestamp md t). Proof. auto_sf time_of_timestamp. Qed.
Global Hint Resolve sf_time_of_ts : sf.
Lemma sf_time_of_iv md t : sf md (time_of_interval md t). Proof. auto_sf time_of_interval. Qed.
Global Hint Resolve sf_time_of_iv : sf.
Lemma sf_time_part md t a b : sf md (time_date_part md t a b). Proof. auto_sf time_date_part. Qed.
Global Hint Resolve sf_time_part : sf.
Lemma sf_time_truncate md t a b : sf md (time_truncate md t a b). Proof. auto_sf time_truncate. Qed.
Global Hint Resolve sf_time_truncate : sf.

(** ** Texts: no fault, and a condition on the result *)
Definition pf {A} (md : mode) (Q : A -> Prop) (r : res A) : Prop := sf md r /\ forall a, r = Ok a -> Q a.
Lemma pf_ok {A} md (Q : A -> Prop) a : Q a -> pf md Q (Ok a).
Proof. split; [exact I|]. now intros ? [= <-]. Qed.
Lemma pf_err {A} md (Q : A -> Prop) e : pf md Q (Err e).
Proof. split; [exact I|]. discriminate. Qed.
Lemma pf_bind {A B} md (Q : A -> Prop) (R : B -> Prop) m k : pf md Q m -> (forall a, Q a -> pf md R (k a)) -> pf md R (bind m k).
Proof.
  intros [S H] K. destruct m as [a|e|f]; cbn; [apply K, H; auto|apply pf_err|]. split; [exact S|discriminate].
Qed.
Lemma pf_weak {A} md (Q R : A -> Prop) m : pf md Q m -> (forall a, Q a -> R a) -> pf md R m.
Proof. intros [S H] K. split; auto. Qed.
Lemma pf_sf {A} md (Q : A -> Prop) m : pf md Q m -> sf md m. Proof. now intros [S _]. Qed.
Lemma pf_ar32 md z : pf md in_i32 (ar32 md z).
Proof.
  split; [apply sf_ar32|]. unfold ar32. destruct (in32b z) eqn:E; [intros ? [= <-]; now apply in32b_spec|].
  destruct md; [discriminate|]. intros ? [= <-]. apply wrap32_range.
Qed.
Lemma pf_ar64 md z : pf md in_i64 (ar64 md z).
Proof.
  split; [apply sf_ar64|]. unfold ar64. destruct (in64b z) eqn:E; [intros ? [= <-]; now apply in64b_spec|].
  destruct md; [discriminate|]. intros ? [= <-]. apply wrap64_range.
Qed.
Lemma pf_aru32 md z : pf md in_u32 (aru32 md z).
Proof.
  split; [apply sf_aru32|]. unfold aru32. destruct (inu32b z) eqn:E; [intros ? [= <-]; unfold inu32b, in_u32 in *; lia|].
  destruct md; [discriminate|]. intros ? [= <-]. unfold in_u32, wrapu32, u32_max. lia.
Qed.

Definition txt (k : nat) (t : bytes) : Prop := (length t <= k)%nat.
Lemma tx_ltostr md v : in_i32 v -> pf md (txt 11) (pg_ltostr v).
Proof. intros H. destruct (pg_ltostr_ok v H) as (t & -> & _ & L). now apply pf_ok. Qed.
Lemma zeropad_fill_len md w : forall num acc, pf md (fun p => length (fst p) = (w + length acc)%nat) (zeropad_fill md w num acc).
Proof.
  induction w as [|w IH]; intros num acc; cbn [zeropad_fill]; [now apply pf_ok|]. cbv zeta.
  apply (pf_bind md (fun _ => True)).
  - destruct (num <? 0); [|now apply pf_ok]. split; [|auto]. unfold aru8. destruct (inu8b _); [exact I|]. destruct md; [reflexivity|exact I].
  - intros c _. eapply pf_weak; [apply IH|]. cbn [length]. intros. lia.
Qed.
Lemma tx_pad md v w : in_i32 v -> (1 <= w <= 4)%nat -> pf md (txt 11) (pg_ltostr_zeropad md v w).
Proof.
  intros H W. unfold pg_ltostr_zeropad. apply (pf_bind md (fun p => (length (fst p) <= 4)%nat)).
  - destruct (v <? 0).
    + eapply pf_bind; [apply zeropad_fill_len|]. intros [t n] L. apply pf_ok. cbn [fst length] in *. lia.
    + eapply pf_weak; [apply zeropad_fill_len|]. intros [t n] L. cbn [fst length] in *. lia.
  - intros [t n] L. cbn [fst] in L. destruct (negb _); [now apply tx_ltostr|]. apply pf_ok. unfold txt. lia.
Qed.
Lemma frac_len p : forall v g acc, (length (fst (frac_digits p v g acc)) <= p + length acc)%nat.
Proof.
  induction p as [|p IH]; intros v g acc; cbn [frac_digits]; [cbn; lia|]. cbv zeta.
  destruct (g || _); [eapply Nat.le_trans; [apply IH|]; cbn [length]; lia|eapply Nat.le_trans; [apply IH|]; lia].
Qed.
Lemma tx_seconds md s us fill : pf md (txt 18) (append_seconds md s us MAX_PRECISION fill).
Proof.
  unfold append_seconds. eapply pf_bind; [apply pf_ar32|]. intros a Ha. apply (pf_bind md (txt 11)).
  { destruct fill; [apply tx_pad; auto; lia|now apply tx_ltostr]. }
  intros t T. unfold txt in T. destruct (negb _); [|apply pf_ok; unfold txt; lia].
  eapply pf_bind; [apply pf_ar64|]. intros v _. pose proof (frac_len MAX_PRECISION v false []) as F.
  destruct (frac_digits _ v false []) as [ds v']. cbn [fst length] in F. change MAX_PRECISION with 6%nat in F. destruct (negb _).
  - eapply pf_bind; [apply tx_ltostr, wrap32_range|]. intros u U. apply pf_ok. unfold txt in *. rewrite firstn_length. lia.
  - apply pf_ok. unfold txt. rewrite app_length. cbn [length]. lia.
Qed.

Ltac len := unfold txt in *; repeat (cbn [length bs]; rewrite ?app_length); cbn [length bs]; lia.
Lemma tx_fits md r : pf md (txt 128) r -> pf md (txt 128) (let* o := r in fits o).
Proof.
  intros H. eapply pf_bind; [exact H|]. intros t T. unfold fits, txt in *. destruct (Z.leb_spec (Z.of_nat (length t)) 128); [|lia].
  now apply pf_ok.
Qed.
Lemma tx_bc y : (length (bc_suffix y) <= 3)%nat.
Proof. unfold bc_suffix. destruct (y <=? 0); cbn; lia. Qed.
Lemma pf_shown md y : in_i32 y -> pf md in_i32 (shown_year md y).
Proof.
  intros H. unfold shown_year. destruct (0 <? y); [now apply pf_ok|]. eapply pf_bind; [apply pf_ar32|]. intros a _. apply pf_ar32.
Qed.
Definition tm_i32 (tm : pgtime) : Prop :=
  in_i32 (tm_year tm) /\ in_i32 (tm_mon tm) /\ in_i32 (tm_mday tm) /\ in_i32 (tm_hour tm) /\ in_i32 (tm_min tm) /\ in_i32 (tm_sec tm).
Lemma tx_two_two md a c1 b c2 y : in_i32 a -> in_i32 b -> in_i32 y -> pf md (txt 35) (two_two_year md a c1 b c2 y).
Proof.
  intros A B Y. unfold two_two_year. eapply pf_bind; [apply tx_pad; auto; lia|]. intros ta La.
  eapply pf_bind; [apply tx_pad; auto; lia|]. intros tb Lb. eapply pf_bind; [now apply pf_shown|]. intros y' Y'.
  eapply pf_bind; [apply tx_pad; auto; lia|]. intros ty Ly. apply pf_ok. len.
Qed.
Lemma tx_ymd md tm : tm_i32 tm -> pf md (txt 35) (iso_ymd md tm).
Proof.
  intros (Y & M & D & _). unfold iso_ymd. eapply pf_bind; [now apply pf_shown|]. intros y' Y'.
  eapply pf_bind; [apply tx_pad; auto; lia|]. intros ty Ly.
  eapply pf_bind; [apply tx_pad; auto; lia|]. intros tmo Lm. eapply pf_bind; [apply tx_pad; auto; lia|]. intros td Ld.
  apply pf_ok. len.
Qed.
Lemma tx_hms md tm us : tm_i32 tm -> pf md (txt 42) (hms_text md tm us).
Proof.
  intros (_ & _ & _ & H & M & S). unfold hms_text. eapply pf_bind; [apply tx_pad; auto; lia|]. intros th Lh.
  eapply pf_bind; [apply tx_pad; auto; lia|]. intros tmi Lm. eapply pf_bind; [apply tx_seconds|]. intros ts Ls.
  apply pf_ok. len.
Qed.
Lemma pf_assert md b : b = true -> pf md (fun _ => True) (debug_assert md b).
Proof. intros ->. unfold debug_assert. destruct md; now apply pf_ok. Qed.

Lemma tx_date md tm st o : tm_i32 tm -> mon_ok tm = true -> pf md (txt 38) (format_date md tm st o).
Proof.
  intros T M. unfold format_date. eapply pf_bind; [now apply pf_assert|]. intros _ _. eapply pf_bind with (Q := txt 35).
  - pose proof T as (Y & Mo & D & _). destruct st; try (now apply tx_ymd); try destruct (is_dmy o); now apply tx_two_two.
  - intros t L. apply pf_ok. pose proof (tx_bc (tm_year tm)). len.
Qed.
Lemma pf_wday md d : pf md (fun w => 0 <= w <= 6) (julian_to_week_day md d).
Proof.
  unfold julian_to_week_day. eapply pf_bind; [apply pf_ar32|]. intros a A. cbv zeta.
  destruct (Z.ltb_spec (Z.rem a 7) 0); [|apply pf_ok; lia].
  unfold add32. rewrite ar32_ok by (unfold in_i32, i32_min, i32_max; lia). apply pf_ok. lia.
Qed.
Lemma tx_wday md w : 0 <= w <= 6 -> pf md (txt 6) (get_wday_name w).
Proof.
  intros W. assert (w = 0 \/ w = 1 \/ w = 2 \/ w = 3 \/ w = 4 \/ w = 5 \/ w = 6) as C by lia.
  repeat destruct C as [->|C]; try subst w; cbn; apply pf_ok; unfold txt; cbn; lia.
Qed.
Lemma tx_month md m : 1 <= m <= 12 -> pf md (txt 6) (get_month_name md m).
Proof.
  intros W. assert (m = 1 \/ m = 2 \/ m = 3 \/ m = 4 \/ m = 5 \/ m = 6 \/ m = 7 \/ m = 8 \/ m = 9 \/ m = 10 \/ m = 11 \/ m = 12) as C by lia.
  repeat destruct C as [->|C]; try subst m; cbn; apply pf_ok; unfold txt; cbn; lia.
Qed.
Lemma tx_date_time md tm o us st : tm_i32 tm -> mon_ok tm = true -> pf md (txt 128) (format_date_time md tm o us st).
Proof.
  intros T M. unfold format_date_time. eapply pf_bind; [now apply pf_assert|]. intros _ _. eapply pf_bind with (Q := txt 120).
  - pose proof T as (Y & Mo & D & _). destruct st.
    all: try (eapply pf_bind with (Q := txt 35); [first [now apply tx_ymd | now apply tx_two_two | destruct (is_dmy o); now apply tx_two_two]|];
      intros d Ld; eapply pf_bind; [now apply tx_hms|]; intros t Lt; apply pf_ok; len).
    apply (pf_bind md (fun _ => True)); [split; [auto with sf|auto]|]. intros j _.
    eapply pf_bind; [apply pf_wday|]. intros w W. eapply pf_bind; [now apply tx_wday|]. intros wn Lw.
    eapply pf_bind; [apply tx_pad; auto; lia|]. intros td Ld.
    eapply pf_bind; [apply tx_month; unfold mon_ok, MONTHS_PER_YEAR in M; lia|]. intros mn Lm.
    eapply pf_bind; [now apply tx_hms|]. intros t Lt. eapply pf_bind; [now apply pf_shown|]. intros y' Y'.
    eapply pf_bind; [apply tx_pad; auto; lia|]. intros ty Ly. apply pf_ok. destruct (is_dmy o); len.
  - intros t L. apply pf_ok. pose proof (tx_bc (tm_year tm)). len.
Qed.

Lemma pf_julian2date md j : pf md (fun c => let '(y, m, d) := c in in_i32 y /\ 1 <= m <= 12 /\ in_i32 d) (julian2date md j).
Proof.
  split; [auto with sf|]. unfold julian2date. intros c E.
  repeat match type of E with bind ?m _ = Ok _ => let a := fresh "a" in let Ea := fresh "Ea" in destruct m as [a| |] eqn:Ea; cbn [bind] in E; [|discriminate E..] end.
  injection E as <-.
  match goal with |- context [wrap32 ?m] => idtac end.
  split; [|split; [|apply wrap32_range]].
  - match goal with H : sub32 md _ 4800 = Ok ?y |- in_i32 ?y => eapply (proj2 (pf_ar32 md _)); exact H end.
  - match goal with H : addu32 md (Z.rem ?q _) 1 = Ok ?v |- _ =>
      assert (in_u32 q) as B by (match goal with G : addu32 md _ 10 = Ok q |- _ => eapply (proj2 (pf_aru32 md _)); exact G end);
      revert H; change (wrapu32 MONTHS_PER_YEAR) with 12; unfold in_u32, u32_max in B; unfold addu32; rewrite aru32_ok by (unfold in_u32, u32_max; lia);
      intros [= <-]; rewrite wrap32_id by (unfold in_i32, i32_min, i32_max; lia); lia end.
Qed.
Lemma i32_small z : -100 <= z <= 100 -> in_i32 z.
Proof. unfold in_i32, i32_min, i32_max. lia. Qed.
Lemma pf_mon m : 1 <= m <= 12 -> in_i32 m /\ ((1 <=? m) && (m <=? MONTHS_PER_YEAR)) = true.
Proof. intros H. split; [apply i32_small; lia|]. unfold MONTHS_PER_YEAR. lia. Qed.
Lemma sf_date_format md d st o : sf md (date_format md d st o).
Proof.
  unfold date_format. destruct (negb _); [repeat destruct (_ =? _); exact I|]. eapply pf_sf.
  eapply pf_bind; [apply pf_ar32|]. intros j _. eapply pf_bind; [apply pf_julian2date|]. intros [[y m] dd] (Y & M & D).
  apply tx_fits. destruct (pf_mon m M) as [Mi Mo]. eapply pf_weak; [apply tx_date|intros t L; len].
  - repeat split; cbn; auto; try apply D; try apply Y; try apply Mi; unfold i32_min, i32_max; lia.
  - exact Mo.
Qed.
Lemma pf_date2time md j : pf md (fun q => let '(h, m, s, f) := q in in_i32 h /\ in_i32 m /\ in_i32 s) (date2time md j).
Proof.
  split; [auto with sf|]. unfold date2time. intros c E.
  repeat match type of E with bind ?m _ = Ok _ => let a := fresh "a" in let Ea := fresh "Ea" in destruct m as [a| |] eqn:Ea; cbn [bind] in E; [|discriminate E..] end.
  injection E as <-. repeat split; apply wrap32_range.
Qed.
Lemma pf_ts2t md t : pf md (fun x => tm_i32 (fst x) /\ mon_ok (fst x) = true) (timestamp2time md t).
Proof.
  unfold timestamp2time. apply (pf_bind md (fun _ => True)); [split; [auto with sf|auto]|]. intros [time date] _.
  apply (pf_bind md (fun _ => True)); [split; [sfs|auto]|]. clear. intros [time date] _.
  apply (pf_bind md (fun _ => True)); [split; [sfs|auto]|]. intros d _. destruct (_ || _); [apply pf_err|].
  eapply pf_bind; [apply pf_julian2date|]. intros [[y m] dd] (Y & M & D). eapply pf_bind; [apply pf_date2time|].
  intros [[[h mi] s] f] (H & Mi & S). apply pf_ok. destruct (pf_mon m M) as [Mi' Mo]. split; [|exact Mo].
  cbn [fst]. repeat split; cbn; first [apply Y|apply Mi'|apply D|apply H|apply Mi|apply S].
Qed.
Lemma sf_ts_format md t st o : sf md (timestamp_format md t st o).
Proof.
  unfold timestamp_format. destruct (negb _); [repeat destruct (_ =? _); exact I|]. eapply pf_sf.
  eapply pf_bind; [apply pf_ts2t|]. intros [tm us] [T M]. apply tx_fits. now apply tx_date_time.
Qed.
Lemma sf_time_format md t : sf md (time_format md t).
Proof.
  unfold time_format, time_to_pgtime. eapply pf_sf.
  apply (pf_bind md (fun x => tm_i32 (fst x))).
  - eapply pf_bind; [apply pf_date2time|]. intros [[[h mi] s] f] (H & Mi & S). apply pf_ok.
    repeat split; cbn; first [apply H|apply Mi|apply S|unfold i32_min, i32_max; lia].
  - intros [tm us] T. apply tx_fits. eapply pf_weak; [now apply tx_hms|]. intros a L. len.
Qed.

(** Intervals *)
Lemma pf_to_pgtime md a : in_i32 (iv_month a) -> in_i32 (iv_day a) -> pf md (fun x => tm_i32 (fst x)) (interval_to_pgtime md a).
Proof.
  intros M D. unfold interval_to_pgtime. cbv zeta. eapply pf_bind; [apply pf_ar64|]. intros x _. eapply pf_bind; [apply pf_ar64|]. intros time _.
  destruct (_ || _); [apply pf_err|]. eapply pf_bind; [apply pf_ar64|]. intros x2 _. eapply pf_bind; [apply pf_ar64|]. intros t2 _.
  eapply pf_bind; [apply pf_ar64|]. intros x3 _. eapply pf_bind; [apply pf_ar64|]. intros fs _. apply pf_ok. cbn [fst].
  unfold tm_i32. change (in_i32 (Z.quot (iv_month a) 12) /\ in_i32 (Z.rem (iv_month a) 12) /\ in_i32 (iv_day a) /\
    in_i32 (wrap32 (Z.quot (iv_time a) USECS_PER_HOUR)) /\ in_i32 (wrap32 (Z.quot time USECS_PER_MINUTE)) /\ in_i32 (wrap32 (Z.quot t2 USECS_PER_SEC))).
  repeat match goal with |- _ /\ _ => split end; try apply wrap32_range; auto; clear - M; unfold in_i32, i32_min, i32_max in *; lia.
Qed.
Lemma pf_n32 md (b : bool) v : in_i32 v -> pf md in_i32 (if b then neg32 md v else Ok v).
Proof. intros H. destruct b; [apply pf_ar32|now apply pf_ok]. Qed.
Lemma tx_iv_hms md h m s us : in_i32 h -> in_i32 m -> pf md (txt 42) (iv_hms md h m s us).
Proof.
  intros H M. unfold iv_hms. eapply pf_bind; [now apply tx_ltostr|]. intros th Lh.
  eapply pf_bind; [apply tx_pad; auto; lia|]. intros tmi Lm. eapply pf_bind; [apply tx_seconds|]. intros ts Ls. apply pf_ok. len.
Qed.
Lemma tx_sql md tm us : tm_i32 tm -> pf md (txt 128) (format_sql md tm us).
Proof.
  intros (Y & Mo & D & H & Mi & S). unfold format_sql. cbv zeta.
  eapply pf_bind; [apply pf_n32, Y|]. intros y Y'. eapply pf_bind; [apply pf_n32, Mo|]. intros mo Mo'.
  eapply pf_bind; [apply pf_n32, D|]. intros d D'. eapply pf_bind; [apply pf_n32, H|]. intros h H'.
  eapply pf_bind; [apply pf_n32, Mi|]. intros mi Mi'. eapply pf_bind; [apply pf_n32, S|]. intros s S'.
  apply (pf_bind md (fun _ => True)); [split; [sfs|auto]|]. intros f _.
  eapply pf_bind with (Q := txt 120); [|intros t L; apply pf_ok; match goal with |- context [if ?c then [45] else []] => destruct c end; len].
  destruct (negb _ && negb _); [apply pf_ok; len|]. destruct (negb (negb _)).
  - eapply pf_bind; [apply pf_ar32|]. intros ay Ay. eapply pf_bind; [now apply tx_ltostr|]. intros ty Ly.
    eapply pf_bind; [apply pf_ar32|]. intros am Am. eapply pf_bind; [now apply tx_ltostr|]. intros tmo Lm.
    eapply pf_bind; [apply pf_ar32|]. intros ad Ad. eapply pf_bind; [now apply tx_ltostr|]. intros td Ld.
    eapply pf_bind; [apply pf_ar32|]. intros ah Ah. eapply pf_bind; [apply pf_ar32|]. intros ami Ami.
    eapply pf_bind; [now apply tx_iv_hms|]. intros t Lt. apply pf_ok. len.
  - destruct (_ || _).
    + eapply pf_bind; [now apply tx_ltostr|]. intros ty Ly. eapply pf_bind; [now apply tx_ltostr|]. intros tmo Lm. apply pf_ok. len.
    + destruct (nz _); [|eapply pf_weak; [now apply tx_iv_hms|intros; len]].
      eapply pf_bind; [now apply tx_ltostr|]. intros ty Ly. eapply pf_bind; [now apply tx_iv_hms|]. intros tmo Lm. apply pf_ok. len.
Qed.
Lemma tx_iso_part md v u : in_i32 v -> pf md (txt 12) (add_iso8601_int_part v u).
Proof.
  intros H. unfold add_iso8601_int_part. destruct (v =? 0); [apply pf_ok; len|]. eapply pf_bind; [now apply tx_ltostr|].
  intros t L. apply pf_ok. len.
Qed.
Lemma tx_iso md tm us : tm_i32 tm -> pf md (txt 128) (format_iso8601 md tm us).
Proof.
  intros (Y & Mo & D & H & Mi & S). unfold format_iso8601. cbv zeta. destruct (negb _); [apply pf_ok; len|].
  eapply pf_bind; [now apply tx_iso_part|]. intros ty Ly. eapply pf_bind; [now apply tx_iso_part|]. intros tmo Lm.
  eapply pf_bind; [now apply tx_iso_part|]. intros td Ld. eapply pf_bind; [now apply tx_iso_part|]. intros th Lh.
  eapply pf_bind; [now apply tx_iso_part|]. intros tmi Lmi. apply (pf_bind md (txt 20)).
  - destruct (_ || _); [|apply pf_ok; len]. eapply pf_bind; [apply tx_seconds|]. intros t L. apply pf_ok. destruct (_ || _); len.
  - intros ts Ls. apply pf_ok. destruct (_ || _); len.
Qed.
Lemma tx_pg_part md v u zb : in_i32 v -> (length u <= 4)%nat -> pf md (fun p => txt 19 (fst p)) (add_postgres_int_part v u zb).
Proof.
  intros H U. unfold add_postgres_int_part. destruct zb as [iz ib]. destruct (v =? 0); [apply pf_ok; cbn; len|].
  eapply pf_bind; [now apply tx_ltostr|]. intros t L. apply pf_ok. cbn [fst]. destruct iz, (ib && _), (negb _); len.
Qed.
Lemma tx_postgres md tm us : tm_i32 tm -> pf md (txt 128) (format_postgres md tm us).
Proof.
  intros (Y & Mo & D & H & Mi & S). unfold format_postgres. cbv zeta.
  eapply pf_bind; [apply tx_pg_part; auto; cbn; lia|]. intros [ty zb] Ly. eapply pf_bind; [apply tx_pg_part; auto; cbn; lia|]. intros [tmo zb2] Lm.
  eapply pf_bind; [apply tx_pg_part; auto; cbn; lia|]. intros [td [iz ib]] Ld. cbn [fst] in *. apply (pf_bind md (txt 44)).
  - destruct (_ || _); [|apply pf_ok; len]. eapply pf_bind; [apply pf_ar32|]. intros ah Ah. eapply pf_bind; [apply tx_pad; auto; lia|]. intros th Lh.
    eapply pf_bind; [apply pf_ar32|]. intros ami Ami. eapply pf_bind; [apply tx_pad; auto; lia|]. intros tmi Lmi.
    eapply pf_bind; [apply tx_seconds|]. intros ts Ls. apply pf_ok. destruct iz, (_ || _), ib; len.
  - intros t L. apply pf_ok. len.
Qed.
Lemma tx_verbose_part md v u zb n : in_i32 v -> length u = n -> pf md (fun p => txt (14 + n) (fst p)) (add_verbose_int_part md v u zb).
Proof.
  intros H U. unfold add_verbose_int_part. destruct zb as [iz ib]. destruct (v =? 0); [apply pf_ok; cbn; len|]. cbv zeta.
  apply (pf_bind md in_i32); [destruct iz; [apply pf_ar32|now apply pf_n32]|]. intros v' V'.
  eapply pf_bind; [now apply tx_ltostr|]. intros t L. apply pf_ok. cbn [fst]. destruct (negb _); len.
Qed.
Lemma tx_verbose md tm us : tm_i32 tm -> pf md (txt 128) (format_verbose md tm us).
Proof.
  intros (Y & Mo & D & H & Mi & S). unfold format_verbose. cbv zeta.
  eapply pf_bind; [apply tx_verbose_part; auto; reflexivity|]. intros [ty z1] Ly. eapply pf_bind; [apply tx_verbose_part; auto; reflexivity|]. intros [tmo z2] Lm.
  eapply pf_bind; [apply tx_verbose_part; auto; reflexivity|]. intros [td z3] Ld. eapply pf_bind; [apply tx_verbose_part; auto; reflexivity|]. intros [th z4] Lh.
  eapply pf_bind; [apply tx_verbose_part; auto; reflexivity|]. intros [tmi [iz ib]] Lmi. cbn [fst] in *.
  apply (pf_bind md (fun q => txt 25 (fst q))).
  - destruct (_ || _); [|apply pf_ok; cbn; len]. eapply pf_bind; [apply tx_seconds|]. intros t L.
    eapply pf_bind; [apply pf_ar32|]. intros a _. apply pf_ok. cbn [fst]. destruct ((_ <? 0) || _), iz, ib, (negb _ || _); cbn [negb bs app] in *; len.
  - intros [t [iz' ib']] L. apply pf_ok. cbn [fst] in L. repeat match goal with H : context [length (bs ?u)] |- _ => let n := eval vm_compute in (length (bs u)) in change (length (bs u)) with n in H end.
    destruct iz', ib'; len.
Qed.
Lemma sf_iv_format md a st : in_i32 (iv_month a) -> in_i32 (iv_day a) -> sf md (interval_format md a st).
Proof.
  intros M D. unfold interval_format. eapply pf_sf. eapply pf_bind; [now apply pf_to_pgtime|]. intros [tm us] T. apply tx_fits.
  unfold format_interval. destruct st; first [now apply tx_sql|now apply tx_iso|now apply tx_postgres|now apply tx_verbose].
Qed.

(** ** Age of any two timestamps *)
Lemma ts2t_low md t : in_i64 t -> day_part t < -2451545 -> timestamp2time md t = Err EOverflow.
Proof.
  unfold day_part. intros H64 Hd. unfold timestamp2time, timestamp_modulo, USECS_PER_DAY, POSTGRES_EPOCH_JDATE.
  assert (exists q r, Z.quot t 86400000000 = q /\ t = 86400000000 * q + r
    /\ (r < 0 -> t / usecs_day = q - 1) /\ (0 <= r -> t / usecs_day = q)
    /\ -86400000000 < r < 86400000000 /\ -106751992 <= q <= 106751992
    /\ (0 < q -> 0 <= r) /\ (q < 0 -> r <= 0)) as (q & r & Eq & Et & Hn & Hp & Br & Bq & Sp & Sn).
  { exists (Z.quot t 86400000000), (Z.rem t 86400000000). unfold usecs_day. rng. repeat split; try lia. }
  rewrite Eq. clear Eq.
  match goal with |- bind ?e _ = _ => assert (e = Ok (r, q)) as -> end.
  { ar_unfold. destruct (Z.eqb_spec q 0); cbn [negb bind].
    - f_equal. f_equal. lia.
    - rng. ar1. ar1. f_equal. f_equal. lia. }
  cbn [bind].
  match goal with |- bind ?e _ = _ => assert (exists T, e = Ok (T, t / usecs_day)) as (T & ->) end.
  { destruct (Z.ltb_spec r 0).
    - rewrite (Hn ltac:(lia)). ar. eauto.
    - rewrite (Hp ltac:(lia)). eauto. }
  cbn [bind]. assert (-106751993 <= t / usecs_day) by lia. set (D := t / usecs_day) in *. clearbody D. ar_unfold. ar1.
  replace (D + 2451545 <? 0) with true by lia. reflexivity.
Qed.
Lemma ts2t_cases md t : in_i64 t -> timestamp2time md t = Err EOverflow \/
  exists y m d h mi s us, timestamp2time md t = Ok (mk (y, m, d) h mi s, us) /\ reading (y, m, d) h mi s us t
    /\ -4713 <= y <= 294300 /\ 1 <= m <= 12 /\ 1 <= d <= 31.
Proof.
  intros H. destruct (Z_lt_le_dec (day_part t) (-2451545)) as [L|L]; [left; now apply ts2t_low|right].
  rewrite ts2t_gen by assumption. cbv zeta. pose proof (time_part_bounds t) as B. destruct (clock_split (time_part t) B) as [C1 C2].
  assert (day_part t <= 106751992) as U by (unfold day_part, usecs_day, in_i64, i64_max in *; lia).
  pose proof (day_of_valid (day_part t + 2451545)) as V. pose proof (J_day_of (day_part t + 2451545) ltac:(lia)) as JD.
  assert (day_number (day_of (day_part t + 2451545)) (day_part t)) as N by (apply day_of_number; lia).
  destruct (day_of (day_part t + 2451545)) as [[y m] d]. exists y, m, d. do 4 eexists. split; [reflexivity|]. split.
  { split; [exact V|]. split; [exact C1|]. exists (day_part t). split; [exact N|]. rewrite C2. apply day_time. }
  destruct (J_year_bounds y m d V ltac:(lia)) as [Y1 Y2]. pose proof (J_in_year y m d V) as I. pose proof (month_len_bounds y m) as ML.
  destruct V as [Vm Vd]. assert (y <= 294300).
  { destruct (Z_le_gt_dec y 294300) as [|G]; [assumption|].
    pose proof (J_mono_year 294301 y ltac:(lia)) as JM. change (J (294301, 1, 0)) with 109212292 in JM. lia. }
  lia.
Qed.
Lemma sf_age md a b : in_i64 a -> in_i64 b -> sf md (timestamp_age md a b).
Proof.
  intros A B. unfold timestamp_age.
  destruct (ts2t_cases md a A) as [->|(y1 & m1 & d1 & h1 & mi1 & s1 & us1 & E1 & R1 & Y1 & Hm1 & Hd1)]; [exact I|].
  destruct (ts2t_cases md b B) as [->|(y2 & m2 & d2 & h2 & mi2 & s2 & us2 & E2 & R2 & Y2 & Hm2 & Hd2)]; [rewrite E1; exact I|].
  rewrite E1, E2. clear E1 E2. cbn [bind]. tmcbv.
  destruct R1 as (V1 & C1 & N1) eqn:X1. destruct R2 as (V2 & C2 & N2) eqn:X2. clear X1 X2 N1 N2.
  destruct V1 as [_ D1]. destruct V2 as [_ D2]. unfold clock_ok in C1, C2.
  ar_unfold. rewrite ar64_ok by (rng; lia). cbn [bind]. do 6 (rewrite ar32_ok by (rng; lia); cbn [bind]).
  destruct (Z.ltb_spec a b) as [L|L].
  - rewrite ar64_ok by (rng; lia). cbn [bind]. do 6 (rewrite ar32_ok by (rng; lia); cbn [bind]).
    destruct (age_borrow_ok md y1 m1 (-(us1 - us2)) (-(s1 - s2)) (-(mi1 - mi2)) (-(h1 - h2)) (-(d1 - d2)) (-(m1 - m2)) (-(y1 - y2)))
      as (us' & s' & mi' & h' & d' & m' & y' & -> & _); try lia. cbn [bind]. sfs; apply sf_ar32 || apply sf_ar64.
  - cbn [bind]. destruct (age_borrow_ok md y2 m2 (us1 - us2) (s1 - s2) (mi1 - mi2) (h1 - h2) (d1 - d2) (m1 - m2) (y1 - y2))
      as (us' & s' & mi' & h' & d' & m' & y' & -> & _); try lia. cbn [bind]. sfs.
Qed.
