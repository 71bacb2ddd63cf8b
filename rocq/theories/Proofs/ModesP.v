(** Build modes agree: every result of a build with overflow checks is the result of the build
    without, unless the former panics. *)
From Verif Require Import Model.Parse Model.Serde Model.Format Model.Common Model.DateTime.
From Coq Require Import ZArith List Bool.
Import List.
Import ListNotations.
Open Scope Z_scope.

Definition agr {A} (d r : res A) : Prop := (exists f, d = Fault f) \/ d = r.
Definition agr2 {X A} (d r : X * res A) : Prop := (exists f, snd d = Fault f) \/ d = r.

Lemma agr_refl {A} (d : res A) : agr d d. Proof. now right. Qed.
Lemma agr_fault {A} f (r : res A) : agr (Fault f) r. Proof. left. eauto. Qed.
Lemma agr2_refl {X A} (d : X * res A) : agr2 d d. Proof. now right. Qed.
Lemma agr2_pair {X A} (x : X) (d r : res A) : agr d r -> agr2 (x, d) (x, r).
Proof. intros [(f & ->)| ->]; [left; cbn; eauto|now right]. Qed.
Lemma agr_bind {A B} (d r : res A) (k l : A -> res B) : agr d r -> (forall a, agr (k a) (l a)) -> agr (bind d k) (bind r l).
Proof. intros [(f & ->)| ->] H; [left; cbn; eauto|]. destruct r as [a|e|f]; cbn; [apply H|now right|now right]. Qed.
Lemma agr2_bind {A B} (d r : tm_step A) (k l : tmf -> A -> tm_step B) : agr2 d r -> (forall x a, agr2 (k x a) (l x a)) ->
  agr2 (step_bind d k) (step_bind r l).
Proof.
  intros [(f & E)| ->] H.
  - left. destruct d as [x d]. cbn in E. subst d. cbn. eauto.
  - destruct r as [x [a|e|f]]; cbn; [apply H|now right|now right].
Qed.
Lemma agr2_set x (d r : res Z) set : agr d r -> agr2 (step_set x d set) (step_set x r set).
Proof. intros [(f & ->)| ->]; [left; cbn; eauto|now right]. Qed.

Lemma agr_done {A} (d r : tm_step A) : agr2 d r -> agr (done d) (done r).
Proof.
  intros [(f & E)| ->]; [|now right]. destruct d as [x d]. cbn in E. subst d. left. cbn. eauto.
Qed.
Lemma agr_upd x (d r : res Z) set : agr d r -> agr (upd x d set) (upd x r set).
Proof. intros [(f & ->)| ->]; [left; cbn; eauto|now right]. Qed.

Create HintDb agr discriminated.
#[export] Hint Constants Opaque : agr.
#[export] Hint Transparent bytes token tm_step tmf : agr.
#[export] Hint Resolve agr_refl agr_fault agr2_refl : agr.
Lemma ar32_agr z : agr (ar32 Debug z) (ar32 Release z).
Proof. unfold ar32. destruct (in32b z); auto with agr. Qed.
Lemma ar64_agr z : agr (ar64 Debug z) (ar64 Release z).
Proof. unfold ar64. destruct (in64b z); auto with agr. Qed.
Lemma aru32_agr z : agr (aru32 Debug z) (aru32 Release z).
Proof. unfold aru32. destruct (inu32b z); auto with agr. Qed.
Lemma aru8_agr z : agr (aru8 Debug z) (aru8 Release z).
Proof. unfold aru8. destruct (inu8b z); auto with agr. Qed.
Lemma debug_assert_agr b : agr (debug_assert Debug b) (debug_assert Release b).
Proof. unfold debug_assert. destruct b; auto with agr. Qed.
#[export] Hint Resolve ar32_agr ar64_agr aru32_agr aru8_agr debug_assert_agr : agr.

(** A match on two agreeing results *)
Ltac same a b :=
  let H := fresh "H" in
  first [ assert (agr a b) as H by (solve [auto with agr nocore]);
          let f := fresh "f" in let E := fresh "E" in destruct H as [(f & E)|E]; rewrite E; clear E; [|destruct b]
        | assert (agr2 a b) as H by (solve [auto with agr nocore]);
          let f := fresh "f" in let E := fresh "E" in
          destruct H as [(f & E)|E]; [destruct a as [? ?]; cbn [snd] in E; subst|rewrite E; clear E; destruct b as [? [?|?|?]]] ].
Ltac ag1 :=
  match goal with
  | |- agr ?a ?b => constr_eq a b; apply agr_refl
  | |- agr2 ?a ?b => constr_eq a b; apply agr2_refl
  | |- agr (Fault _) _ => apply agr_fault
  | |- agr2 (_, Fault _) _ => left; eexists; reflexivity
  | |- agr (done _) (done _) => apply agr_done
  | |- agr (upd _ _ _) (upd _ _ _) => apply agr_upd
  | |- agr (bind (Fault _) _) _ => apply agr_fault
  | |- agr2 (step_bind (_, Fault _) _) _ => left; eexists; reflexivity
  | |- agr (bind _ _) (bind _ _) => apply agr_bind; [|intros]
  | |- agr2 (step_bind _ _) (step_bind _ _) => apply agr2_bind; [|intros]
  | |- agr2 (step_set _ _ _) (step_set _ _ _) => apply agr2_set
  | |- agr2 (?x, _) (?y, _) => constr_eq x y; apply agr2_pair
  | |- agr (if ?c then _ else _) (if ?d then _ else _) => constr_eq c d; destruct c
  | |- agr2 (if ?c then _ else _) (if ?d then _ else _) => constr_eq c d; destruct c
  | |- agr (match ?x with _ => _ end) (match ?y with _ => _ end) => constr_eq x y; destruct x
  | |- agr2 (match ?x with _ => _ end) (match ?y with _ => _ end) => constr_eq x y; destruct x
  | |- agr (match ?a with _ => _ end) (match ?b with _ => _ end) => same a b
  | |- agr2 (match ?a with _ => _ end) (match ?b with _ => _ end) => same a b
  | |- agr _ _ => solve [auto with agr nocore]
  | |- agr2 _ _ => solve [auto with agr nocore]
  end; cbv beta iota.
Ltac ag := cbv zeta; repeat ag1.

Lemma add32_agr (a0 : Z) (a1 : Z) : agr (add32 Debug a0 a1) (add32 Release a0 a1).
Proof. unfold add32. ag. Qed.
#[export] Hint Resolve add32_agr : agr.
Lemma sub32_agr (a0 : Z) (a1 : Z) : agr (sub32 Debug a0 a1) (sub32 Release a0 a1).
Proof. unfold sub32. ag. Qed.
#[export] Hint Resolve sub32_agr : agr.
Lemma mul32_agr (a0 : Z) (a1 : Z) : agr (mul32 Debug a0 a1) (mul32 Release a0 a1).
Proof. unfold mul32. ag. Qed.
#[export] Hint Resolve mul32_agr : agr.
Lemma neg32_agr (a0 : Z) : agr (neg32 Debug a0) (neg32 Release a0).
Proof. unfold neg32. ag. Qed.
#[export] Hint Resolve neg32_agr : agr.
Lemma abs32_agr (a0 : Z) : agr (abs32 Debug a0) (abs32 Release a0).
Proof. unfold abs32. ag. Qed.
#[export] Hint Resolve abs32_agr : agr.
Lemma add64_agr (a0 : Z) (a1 : Z) : agr (add64 Debug a0 a1) (add64 Release a0 a1).
Proof. unfold add64. ag. Qed.
#[export] Hint Resolve add64_agr : agr.
Lemma sub64_agr (a0 : Z) (a1 : Z) : agr (sub64 Debug a0 a1) (sub64 Release a0 a1).
Proof. unfold sub64. ag. Qed.
#[export] Hint Resolve sub64_agr : agr.
Lemma mul64_agr (a0 : Z) (a1 : Z) : agr (mul64 Debug a0 a1) (mul64 Release a0 a1).
Proof. unfold mul64. ag. Qed.
#[export] Hint Resolve mul64_agr : agr.
Lemma neg64_agr (a0 : Z) : agr (neg64 Debug a0) (neg64 Release a0).
Proof. unfold neg64. ag. Qed.
#[export] Hint Resolve neg64_agr : agr.
Lemma abs64_agr (a0 : Z) : agr (abs64 Debug a0) (abs64 Release a0).
Proof. unfold abs64. ag. Qed.
#[export] Hint Resolve abs64_agr : agr.
Lemma addu32_agr (a0 : Z) (a1 : Z) : agr (addu32 Debug a0 a1) (addu32 Release a0 a1).
Proof. unfold addu32. ag. Qed.
#[export] Hint Resolve addu32_agr : agr.
Lemma subu32_agr (a0 : Z) (a1 : Z) : agr (subu32 Debug a0 a1) (subu32 Release a0 a1).
Proof. unfold subu32. ag. Qed.
#[export] Hint Resolve subu32_agr : agr.
Lemma mulu32_agr (a0 : Z) (a1 : Z) : agr (mulu32 Debug a0 a1) (mulu32 Release a0 a1).
Proof. unfold mulu32. ag. Qed.
#[export] Hint Resolve mulu32_agr : agr.
Lemma date2julian_agr (a0 : Z) (a1 : Z) (a2 : Z) : agr (date2julian Debug a0 a1 a2) (date2julian Release a0 a1 a2).
Proof. unfold date2julian. ag. Qed.
#[export] Hint Resolve date2julian_agr : agr.
Lemma julian2date_agr (a0 : Z) : agr (julian2date Debug a0) (julian2date Release a0).
Proof. unfold julian2date. ag. Qed.
#[export] Hint Resolve julian2date_agr : agr.
Lemma index_minus1_agr A (a0 : list A) (a1 : Z) : agr (index_minus1 Debug a0 a1) (index_minus1 Release a0 a1).
Proof. unfold index_minus1. ag. Qed.
#[export] Hint Resolve index_minus1_agr : agr.
Lemma days_of_month_agr (a0 : Z) (a1 : Z) : agr (days_of_month Debug a0 a1) (days_of_month Release a0 a1).
Proof. unfold days_of_month. ag. Qed.
#[export] Hint Resolve days_of_month_agr : agr.
Lemma time_modulo_agr (a0 : Z) (a1 : Z) : agr (time_modulo Debug a0 a1) (time_modulo Release a0 a1).
Proof. unfold time_modulo. ag. Qed.
#[export] Hint Resolve time_modulo_agr : agr.
Lemma julian_to_week_day_agr (a0 : Z) : agr (julian_to_week_day Debug a0) (julian_to_week_day Release a0).
Proof. unfold julian_to_week_day. ag. Qed.
#[export] Hint Resolve julian_to_week_day_agr : agr.
Lemma day4_day0_agr (a0 : Z) : agr (day4_day0 Debug a0) (day4_day0 Release a0).
Proof. unfold day4_day0. ag. Qed.
#[export] Hint Resolve day4_day0_agr : agr.
Lemma date_to_iso_week_agr (a0 : Z) (a1 : Z) (a2 : Z) : agr (date_to_iso_week Debug a0 a1 a2) (date_to_iso_week Release a0 a1 a2).
Proof. unfold date_to_iso_week. ag. Qed.
#[export] Hint Resolve date_to_iso_week_agr : agr.
Lemma iso_week_to_julian_agr (a0 : Z) (a1 : Z) : agr (iso_week_to_julian Debug a0 a1) (iso_week_to_julian Release a0 a1).
Proof. unfold iso_week_to_julian. ag. Qed.
#[export] Hint Resolve iso_week_to_julian_agr : agr.
Lemma iso_week_to_date_agr (a0 : Z) (a1 : pgtime) : agr (iso_week_to_date Debug a0 a1) (iso_week_to_date Release a0 a1).
Proof. unfold iso_week_to_date. ag. Qed.
#[export] Hint Resolve iso_week_to_date_agr : agr.
Lemma date_to_iso_year_agr (a0 : Z) (a1 : Z) (a2 : Z) : agr (date_to_iso_year Debug a0 a1 a2) (date_to_iso_year Release a0 a1 a2).
Proof. unfold date_to_iso_year. ag. Qed.
#[export] Hint Resolve date_to_iso_year_agr : agr.
Lemma truncate_timestamp_quarter_agr (a0 : tmf) : agr (truncate_timestamp_quarter Debug a0) (truncate_timestamp_quarter Release a0).
Proof. unfold truncate_timestamp_quarter. ag. Qed.
#[export] Hint Resolve truncate_timestamp_quarter_agr : agr.
Lemma truncate_timestamp_year_agr (a0 : tmf) : agr (truncate_timestamp_year Debug a0) (truncate_timestamp_year Release a0).
Proof. unfold truncate_timestamp_year. ag. Qed.
#[export] Hint Resolve truncate_timestamp_year_agr : agr.
Lemma bc_floor_agr (a0 : Z) (a1 : Z) (a2 : Z) : agr (bc_floor Debug a0 a1 a2) (bc_floor Release a0 a1 a2).
Proof. unfold bc_floor. ag. Qed.
#[export] Hint Resolve bc_floor_agr : agr.
Lemma truncate_timestamp_decade_agr (a0 : tmf) : agr (truncate_timestamp_decade Debug a0) (truncate_timestamp_decade Release a0).
Proof. unfold truncate_timestamp_decade. ag. Qed.
#[export] Hint Resolve truncate_timestamp_decade_agr : agr.
Lemma truncate_timestamp_century_agr (a0 : tmf) : agr (truncate_timestamp_century Debug a0) (truncate_timestamp_century Release a0).
Proof. unfold truncate_timestamp_century. ag. Qed.
#[export] Hint Resolve truncate_timestamp_century_agr : agr.
Lemma truncate_timestamp_millennium_agr (a0 : tmf) : agr (truncate_timestamp_millennium Debug a0) (truncate_timestamp_millennium Release a0).
Proof. unfold truncate_timestamp_millennium. ag. Qed.
#[export] Hint Resolve truncate_timestamp_millennium_agr : agr.
Lemma truncate_timestamp_week_agr (a0 : tmf) : agr (truncate_timestamp_week Debug a0) (truncate_timestamp_week Release a0).
Proof. unfold truncate_timestamp_week. ag. Qed.
#[export] Hint Resolve truncate_timestamp_week_agr : agr.
Lemma validate_date_agr (a0 : Z) (a1 : bool) (a2 : bool) (a3 : bool) (a4 : pgtime) : agr (validate_date Debug a0 a1 a2 a3 a4) (validate_date Release a0 a1 a2 a3 a4).
Proof. unfold validate_date. ag. Qed.
#[export] Hint Resolve validate_date_agr : agr.
Lemma time2t_agr (a0 : Z) (a1 : Z) (a2 : Z) (a3 : Z) : agr (time2t Debug a0 a1 a2 a3) (time2t Release a0 a1 a2 a3).
Proof. unfold time2t. ag. Qed.
#[export] Hint Resolve time2t_agr : agr.
Lemma to_timestamp_agr (a0 : pgtime) (a1 : Z) : agr (to_timestamp Debug a0 a1) (to_timestamp Release a0 a1).
Proof. unfold to_timestamp. ag. Qed.
#[export] Hint Resolve to_timestamp_agr : agr.
Lemma zeropad_fill_agr (a0 : nat) (a1 : Z) (a2 : bytes) : agr (zeropad_fill Debug a0 a1 a2) (zeropad_fill Release a0 a1 a2).
Proof. revert a1 a2; (induction a0 as [|? ? IH] || induction a0 as [|? IH]); intros; cbn [zeropad_fill]; ag. Qed.
#[export] Hint Resolve zeropad_fill_agr : agr.
Lemma pg_ltostr_zeropad_agr (a0 : Z) (a1 : nat) : agr (pg_ltostr_zeropad Debug a0 a1) (pg_ltostr_zeropad Release a0 a1).
Proof. unfold pg_ltostr_zeropad. ag. Qed.
#[export] Hint Resolve pg_ltostr_zeropad_agr : agr.
Lemma append_seconds_agr (a0 : Z) (a1 : Z) (a2 : nat) (a3 : bool) : agr (append_seconds Debug a0 a1 a2 a3) (append_seconds Release a0 a1 a2 a3).
Proof. unfold append_seconds. ag. Qed.
#[export] Hint Resolve append_seconds_agr : agr.
Lemma get_month_name_agr (a0 : Z) : agr (get_month_name Debug a0) (get_month_name Release a0).
Proof. unfold get_month_name. ag. Qed.
#[export] Hint Resolve get_month_name_agr : agr.
Lemma date2time_agr (a0 : Z) : agr (date2time Debug a0) (date2time Release a0).
Proof. unfold date2time. ag. Qed.
#[export] Hint Resolve date2time_agr : agr.
Lemma timestamp_modulo_agr (a0 : Z) (a1 : Z) : agr (timestamp_modulo Debug a0 a1) (timestamp_modulo Release a0 a1).
Proof. unfold timestamp_modulo. ag. Qed.
#[export] Hint Resolve timestamp_modulo_agr : agr.
Lemma timestamp2time_agr (a0 : Z) : agr (timestamp2time Debug a0) (timestamp2time Release a0).
Proof. unfold timestamp2time. ag. Qed.
#[export] Hint Resolve timestamp2time_agr : agr.
Lemma fix_day_time_agr (a0 : Z) (a1 : Z) : agr (fix_day_time Debug a0 a1) (fix_day_time Release a0 a1).
Proof. unfold fix_day_time. ag. Qed.
#[export] Hint Resolve fix_day_time_agr : agr.
Lemma justify_hours_agr (a0 : interval) : agr (justify_hours Debug a0) (justify_hours Release a0).
Proof. unfold justify_hours. ag. Qed.
#[export] Hint Resolve justify_hours_agr : agr.
Lemma justify_days_agr (a0 : interval) : agr (justify_days Debug a0) (justify_days Release a0).
Proof. unfold justify_days. ag. Qed.
#[export] Hint Resolve justify_days_agr : agr.
Lemma justify_interval_agr (a0 : interval) : agr (justify_interval Debug a0) (justify_interval Release a0).
Proof. unfold justify_interval. ag. Qed.
#[export] Hint Resolve justify_interval_agr : agr.
Lemma cascade_days_agr (a0 : f64) (a1 : f64) (a2 : Z) (a3 : Z) : agr (cascade_days Debug a0 a1 a2 a3) (cascade_days Release a0 a1 a2 a3).
Proof. unfold cascade_days. ag. Qed.
#[export] Hint Resolve cascade_days_agr : agr.
Lemma interval_mul_f64_agr (a0 : interval) (a1 : f64) : agr (interval_mul_f64 Debug a0 a1) (interval_mul_f64 Release a0 a1).
Proof. unfold interval_mul_f64. ag. Qed.
#[export] Hint Resolve interval_mul_f64_agr : agr.
Lemma interval_div_f64_agr (a0 : interval) (a1 : f64) : agr (interval_div_f64 Debug a0 a1) (interval_div_f64 Release a0 a1).
Proof. unfold interval_div_f64. ag. Qed.
#[export] Hint Resolve interval_div_f64_agr : agr.
Lemma interval_from_pgtime_agr (a0 : pgtime) (a1 : Z) : agr (interval_from_pgtime Debug a0 a1) (interval_from_pgtime Release a0 a1).
Proof. unfold interval_from_pgtime. ag. Qed.
#[export] Hint Resolve interval_from_pgtime_agr : agr.
Lemma interval_to_pgtime_agr (a0 : interval) : agr (interval_to_pgtime Debug a0) (interval_to_pgtime Release a0).
Proof. unfold interval_to_pgtime. ag. Qed.
#[export] Hint Resolve interval_to_pgtime_agr : agr.
Lemma round_scale_agr (a0 : Z) (a1 : Z) : agr (round_scale Debug a0 a1) (round_scale Release a0 a1).
Proof. unfold round_scale. ag. Qed.
#[export] Hint Resolve round_scale_agr : agr.
Lemma interval_adjust_by_typmod_agr (a0 : interval) (a1 : Z) : agr (interval_adjust_by_typmod Debug a0 a1) (interval_adjust_by_typmod Release a0 a1).
Proof. unfold interval_adjust_by_typmod. ag. Qed.
#[export] Hint Resolve interval_adjust_by_typmod_agr : agr.
Lemma interval_truncate_agr (a0 : interval) (a1 : field_type) (a2 : date_unit) : agr (interval_truncate Debug a0 a1 a2) (interval_truncate Release a0 a1 a2).
Proof. unfold interval_truncate. ag. Qed.
#[export] Hint Resolve interval_truncate_agr : agr.
Lemma interval_date_part_agr (a0 : interval) (a1 : field_type) (a2 : date_unit) : agr (interval_date_part Debug a0 a1 a2) (interval_date_part Release a0 a1 a2).
Proof. unfold interval_date_part. ag. Qed.
#[export] Hint Resolve interval_date_part_agr : agr.
Lemma date_try_from_ymd_agr (a0 : Z) (a1 : Z) (a2 : Z) : agr (date_try_from_ymd Debug a0 a1 a2) (date_try_from_ymd Release a0 a1 a2).
Proof. unfold date_try_from_ymd. ag. Qed.
#[export] Hint Resolve date_try_from_ymd_agr : agr.
Lemma date_sub_date_agr (a0 : Z) (a1 : Z) : agr (date_sub_date Debug a0 a1) (date_sub_date Release a0 a1).
Proof. unfold date_sub_date. ag. Qed.
#[export] Hint Resolve date_sub_date_agr : agr.
Lemma date_of_timestamp_agr (a0 : Z) : agr (date_of_timestamp Debug a0) (date_of_timestamp Release a0).
Proof. unfold date_of_timestamp. ag. Qed.
#[export] Hint Resolve date_of_timestamp_agr : agr.
Lemma timestamp_of_date_agr (a0 : Z) : agr (timestamp_of_date Debug a0) (timestamp_of_date Release a0).
Proof. unfold timestamp_of_date. ag. Qed.
#[export] Hint Resolve timestamp_of_date_agr : agr.
Lemma clock_usecs_agr (a0 : Z) (a1 : Z) (a2 : f64) : agr (clock_usecs Debug a0 a1 a2) (clock_usecs Release a0 a1 a2).
Proof. unfold clock_usecs. ag. Qed.
#[export] Hint Resolve clock_usecs_agr : agr.
Lemma timestamp_try_from_ymd_hms_agr (a0 : Z) (a1 : Z) (a2 : Z) (a3 : Z) (a4 : Z) (a5 : f64) : agr (timestamp_try_from_ymd_hms Debug a0 a1 a2 a3 a4 a5) (timestamp_try_from_ymd_hms Release a0 a1 a2 a3 a4 a5).
Proof. unfold timestamp_try_from_ymd_hms. ag. Qed.
#[export] Hint Resolve timestamp_try_from_ymd_hms_agr : agr.
Lemma timestamp_adjust_by_typmod_agr (a0 : Z) (a1 : Z) : agr (timestamp_adjust_by_typmod Debug a0 a1) (timestamp_adjust_by_typmod Release a0 a1).
Proof. unfold timestamp_adjust_by_typmod. ag. Qed.
#[export] Hint Resolve timestamp_adjust_by_typmod_agr : agr.
Lemma timestamp_add_interval_agr (a0 : Z) (a1 : interval) : agr (timestamp_add_interval Debug a0 a1) (timestamp_add_interval Release a0 a1).
Proof. unfold timestamp_add_interval. ag. Qed.
#[export] Hint Resolve timestamp_add_interval_agr : agr.
Lemma timestamp_add_time_agr (a0 : Z) (a1 : Z) : agr (timestamp_add_time Debug a0 a1) (timestamp_add_time Release a0 a1).
Proof. unfold timestamp_add_time. ag. Qed.
#[export] Hint Resolve timestamp_add_time_agr : agr.
Lemma timestamp_sub_interval_agr (a0 : Z) (a1 : interval) : agr (timestamp_sub_interval Debug a0 a1) (timestamp_sub_interval Release a0 a1).
Proof. unfold timestamp_sub_interval. ag. Qed.
#[export] Hint Resolve timestamp_sub_interval_agr : agr.
Lemma timestamp_sub_time_agr (a0 : Z) (a1 : Z) : agr (timestamp_sub_time Debug a0 a1) (timestamp_sub_time Release a0 a1).
Proof. unfold timestamp_sub_time. ag. Qed.
#[export] Hint Resolve timestamp_sub_time_agr : agr.
Lemma timestamp_sub_timestamp_agr (a0 : Z) (a1 : Z) : agr (timestamp_sub_timestamp Debug a0 a1) (timestamp_sub_timestamp Release a0 a1).
Proof. unfold timestamp_sub_timestamp. ag. Qed.
#[export] Hint Resolve timestamp_sub_timestamp_agr : agr.
Lemma timestamp_sub_date_agr (a0 : Z) (a1 : Z) : agr (timestamp_sub_date Debug a0 a1) (timestamp_sub_date Release a0 a1).
Proof. unfold timestamp_sub_date. ag. Qed.
#[export] Hint Resolve timestamp_sub_date_agr : agr.
Lemma borrow_agr (a0 : bool) (a1 : nat) (a2 : Z) (a3 : Z) (a4 : Z) : agr (borrow Debug a0 a1 a2 a3 a4) (borrow Release a0 a1 a2 a3 a4).
Proof. revert a0 a2 a3 a4; (induction a1 as [|? ? IH] || induction a1 as [|? IH]); intros; cbn [borrow]; ag. Qed.
#[export] Hint Resolve borrow_agr : agr.
Lemma age_borrow_agr (a0 : Z) (a1 : Z) (a2 : Z) (a3 : Z) (a4 : Z) (a5 : Z) (a6 : Z) (a7 : Z) (a8 : Z) : agr (age_borrow Debug a0 a1 a2 a3 a4 a5 a6 a7 a8) (age_borrow Release a0 a1 a2 a3 a4 a5 a6 a7 a8).
Proof. unfold age_borrow. ag. Qed.
#[export] Hint Resolve age_borrow_agr : agr.
Lemma timestamp_age_agr (a0 : Z) (a1 : Z) : agr (timestamp_age Debug a0 a1) (timestamp_age Release a0 a1).
Proof. unfold timestamp_age. ag. Qed.
#[export] Hint Resolve timestamp_age_agr : agr.
Lemma timestamp_date_part_agr (a0 : Z) (a1 : field_type) (a2 : date_unit) : agr (timestamp_date_part Debug a0 a1 a2) (timestamp_date_part Release a0 a1 a2).
Proof. unfold timestamp_date_part. ag. Qed.
#[export] Hint Resolve timestamp_date_part_agr : agr.
Lemma timestamp_truncate_agr (a0 : Z) (a1 : field_type) (a2 : date_unit) : agr (timestamp_truncate Debug a0 a1 a2) (timestamp_truncate Release a0 a1 a2).
Proof. unfold timestamp_truncate. ag. Qed.
#[export] Hint Resolve timestamp_truncate_agr : agr.
Lemma date_add_interval_agr (a0 : Z) (a1 : interval) : agr (date_add_interval Debug a0 a1) (date_add_interval Release a0 a1).
Proof. unfold date_add_interval. ag. Qed.
#[export] Hint Resolve date_add_interval_agr : agr.
Lemma date_sub_interval_agr (a0 : Z) (a1 : interval) : agr (date_sub_interval Debug a0 a1) (date_sub_interval Release a0 a1).
Proof. unfold date_sub_interval. ag. Qed.
#[export] Hint Resolve date_sub_interval_agr : agr.
Lemma date_add_time_agr (a0 : Z) (a1 : Z) : agr (date_add_time Debug a0 a1) (date_add_time Release a0 a1).
Proof. unfold date_add_time. ag. Qed.
#[export] Hint Resolve date_add_time_agr : agr.
Lemma date_date_part_agr (a0 : Z) (a1 : field_type) (a2 : date_unit) : agr (date_date_part Debug a0 a1 a2) (date_date_part Release a0 a1 a2).
Proof. unfold date_date_part. ag. Qed.
#[export] Hint Resolve date_date_part_agr : agr.
Lemma date_truncate_agr (a0 : Z) (a1 : field_type) (a2 : date_unit) : agr (date_truncate Debug a0 a1 a2) (date_truncate Release a0 a1 a2).
Proof. unfold date_truncate. ag. Qed.
#[export] Hint Resolve date_truncate_agr : agr.
Lemma time_try_from_hms_agr (a0 : Z) (a1 : Z) (a2 : f64) : agr (time_try_from_hms Debug a0 a1 a2) (time_try_from_hms Release a0 a1 a2).
Proof. unfold time_try_from_hms. ag. Qed.
#[export] Hint Resolve time_try_from_hms_agr : agr.
Lemma time_from_pgtime_agr (a0 : pgtime) (a1 : Z) : agr (time_from_pgtime Debug a0 a1) (time_from_pgtime Release a0 a1).
Proof. unfold time_from_pgtime. ag. Qed.
#[export] Hint Resolve time_from_pgtime_agr : agr.
Lemma time_adjust_by_typmod_agr (a0 : Z) (a1 : Z) : agr (time_adjust_by_typmod Debug a0 a1) (time_adjust_by_typmod Release a0 a1).
Proof. unfold time_adjust_by_typmod. ag. Qed.
#[export] Hint Resolve time_adjust_by_typmod_agr : agr.
Lemma day_modulo_agr (a0 : Z) : agr (day_modulo Debug a0) (day_modulo Release a0).
Proof. unfold day_modulo. ag. Qed.
#[export] Hint Resolve day_modulo_agr : agr.
Lemma time_add_interval_agr (a0 : Z) (a1 : interval) : agr (time_add_interval Debug a0 a1) (time_add_interval Release a0 a1).
Proof. unfold time_add_interval. ag. Qed.
#[export] Hint Resolve time_add_interval_agr : agr.
Lemma time_sub_interval_agr (a0 : Z) (a1 : interval) : agr (time_sub_interval Debug a0 a1) (time_sub_interval Release a0 a1).
Proof. unfold time_sub_interval. ag. Qed.
#[export] Hint Resolve time_sub_interval_agr : agr.
Lemma time_to_pgtime_agr (a0 : Z) : agr (time_to_pgtime Debug a0) (time_to_pgtime Release a0).
Proof. unfold time_to_pgtime. ag. Qed.
#[export] Hint Resolve time_to_pgtime_agr : agr.
Lemma time_of_timestamp_agr (a0 : Z) : agr (time_of_timestamp Debug a0) (time_of_timestamp Release a0).
Proof. unfold time_of_timestamp. ag. Qed.
#[export] Hint Resolve time_of_timestamp_agr : agr.
Lemma time_of_interval_agr (a0 : interval) : agr (time_of_interval Debug a0) (time_of_interval Release a0).
Proof. unfold time_of_interval. ag. Qed.
#[export] Hint Resolve time_of_interval_agr : agr.
Lemma time_date_part_agr (a0 : Z) (a1 : field_type) (a2 : date_unit) : agr (time_date_part Debug a0 a1 a2) (time_date_part Release a0 a1 a2).
Proof. unfold time_date_part. ag. Qed.
#[export] Hint Resolve time_date_part_agr : agr.
Lemma time_truncate_agr (a0 : Z) (a1 : field_type) (a2 : date_unit) : agr (time_truncate Debug a0 a1 a2) (time_truncate Release a0 a1 a2).
Proof. unfold time_truncate. ag. Qed.
#[export] Hint Resolve time_truncate_agr : agr.
Lemma shown_year_agr (a0 : Z) : agr (shown_year Debug a0) (shown_year Release a0).
Proof. unfold shown_year. ag. Qed.
#[export] Hint Resolve shown_year_agr : agr.
Lemma two_two_year_agr (a0 : Z) (a1 : Z) (a2 : Z) (a3 : Z) (a4 : Z) : agr (two_two_year Debug a0 a1 a2 a3 a4) (two_two_year Release a0 a1 a2 a3 a4).
Proof. unfold two_two_year. ag. Qed.
#[export] Hint Resolve two_two_year_agr : agr.
Lemma iso_ymd_agr (a0 : pgtime) : agr (iso_ymd Debug a0) (iso_ymd Release a0).
Proof. unfold iso_ymd. ag. Qed.
#[export] Hint Resolve iso_ymd_agr : agr.
Lemma hms_text_agr (a0 : pgtime) (a1 : Z) : agr (hms_text Debug a0 a1) (hms_text Release a0 a1).
Proof. unfold hms_text. ag. Qed.
#[export] Hint Resolve hms_text_agr : agr.
Lemma format_date_agr (a0 : pgtime) (a1 : date_style) (a2 : date_order) : agr (format_date Debug a0 a1 a2) (format_date Release a0 a1 a2).
Proof. unfold format_date. ag. Qed.
#[export] Hint Resolve format_date_agr : agr.
Lemma date_format_agr (a0 : Z) (a1 : date_style) (a2 : date_order) : agr (date_format Debug a0 a1 a2) (date_format Release a0 a1 a2).
Proof. unfold date_format. ag. Qed.
#[export] Hint Resolve date_format_agr : agr.
Lemma time_format_agr (a0 : Z) : agr (time_format Debug a0) (time_format Release a0).
Proof. unfold time_format. ag. Qed.
#[export] Hint Resolve time_format_agr : agr.
Lemma format_date_time_agr (a0 : pgtime) (a1 : date_order) (a2 : Z) (a3 : date_style) : agr (format_date_time Debug a0 a1 a2 a3) (format_date_time Release a0 a1 a2 a3).
Proof. unfold format_date_time. ag. Qed.
#[export] Hint Resolve format_date_time_agr : agr.
Lemma timestamp_format_agr (a0 : Z) (a1 : date_style) (a2 : date_order) : agr (timestamp_format Debug a0 a1 a2) (timestamp_format Release a0 a1 a2).
Proof. unfold timestamp_format. ag. Qed.
#[export] Hint Resolve timestamp_format_agr : agr.
Lemma add_verbose_int_part_agr (a0 : Z) (a1 : bytes) (a2 : bool * bool) : agr (add_verbose_int_part Debug a0 a1 a2) (add_verbose_int_part Release a0 a1 a2).
Proof. unfold add_verbose_int_part. ag. Qed.
#[export] Hint Resolve add_verbose_int_part_agr : agr.
Lemma iv_hms_agr (a0 : Z) (a1 : Z) (a2 : Z) (a3 : Z) : agr (iv_hms Debug a0 a1 a2 a3) (iv_hms Release a0 a1 a2 a3).
Proof. unfold iv_hms. ag. Qed.
#[export] Hint Resolve iv_hms_agr : agr.
Lemma format_sql_agr (a0 : pgtime) (a1 : Z) : agr (format_sql Debug a0 a1) (format_sql Release a0 a1).
Proof. unfold format_sql. ag. Qed.
#[export] Hint Resolve format_sql_agr : agr.
Lemma format_iso8601_agr (a0 : pgtime) (a1 : Z) : agr (format_iso8601 Debug a0 a1) (format_iso8601 Release a0 a1).
Proof. unfold format_iso8601. ag. Qed.
#[export] Hint Resolve format_iso8601_agr : agr.
Lemma format_postgres_agr (a0 : pgtime) (a1 : Z) : agr (format_postgres Debug a0 a1) (format_postgres Release a0 a1).
Proof. unfold format_postgres. ag. Qed.
#[export] Hint Resolve format_postgres_agr : agr.
Lemma format_verbose_agr (a0 : pgtime) (a1 : Z) : agr (format_verbose Debug a0 a1) (format_verbose Release a0 a1).
Proof. unfold format_verbose. ag. Qed.
#[export] Hint Resolve format_verbose_agr : agr.
Lemma format_interval_agr (a0 : pgtime) (a1 : Z) (a2 : interval_style) : agr (format_interval Debug a0 a1 a2) (format_interval Release a0 a1 a2).
Proof. unfold format_interval. ag. Qed.
#[export] Hint Resolve format_interval_agr : agr.
Lemma interval_format_agr (a0 : interval) (a1 : interval_style) : agr (interval_format Debug a0 a1) (interval_format Release a0 a1).
Proof. unfold interval_format. ag. Qed.
#[export] Hint Resolve interval_format_agr : agr.
Lemma parse_fractional_second_agr (a0 : bytes) : agr (parse_fractional_second Debug a0) (parse_fractional_second Release a0).
Proof. unfold parse_fractional_second. ag. Qed.
#[export] Hint Resolve parse_fractional_second_agr : agr.
Lemma decode_number_agr (a0 : bytes) (a1 : bool) (a2 : Z) (a3 : nst) (a4 : date_order) : agr (decode_number Debug a0 a1 a2 a3 a4) (decode_number Release a0 a1 a2 a3 a4).
Proof. unfold decode_number. ag. Qed.
#[export] Hint Resolve decode_number_agr : agr.
Lemma number_parts_agr (a0 : list (option bytes)) (a1 : bool) (a2 : date_order) (a3 : Z) (a4 : Z) (a5 : pgtime) (a6 : bool) (a7 : Z) : agr (number_parts Debug a0 a1 a2 a3 a4 a5 a6 a7) (number_parts Release a0 a1 a2 a3 a4 a5 a6 a7).
Proof. revert a1 a2 a3 a4 a5 a6 a7; (induction a0 as [|? ? IH] || induction a0 as [|? IH]); intros; cbn [number_parts]; ag. Qed.
#[export] Hint Resolve number_parts_agr : agr.
Lemma decode_date_agr (a0 : bytes) (a1 : Z) (a2 : bool) (a3 : pgtime) (a4 : date_order) : agr (decode_date Debug a0 a1 a2 a3 a4) (decode_date Release a0 a1 a2 a3 a4).
Proof. unfold decode_date. ag. Qed.
#[export] Hint Resolve decode_date_agr : agr.
Lemma decode_time_agr (a0 : bytes) (a1 : Z) (a2 : tmf) : agr2 (decode_time Debug a0 a1 a2) (decode_time Release a0 a1 a2).
Proof. unfold decode_time. ag. Qed.
#[export] Hint Resolve decode_time_agr : agr.
Lemma time_field_agr (a0 : bytes) (a1 : tmf) : agr (time_field Debug a0 a1) (time_field Release a0 a1).
Proof. unfold time_field. ag. Qed.
#[export] Hint Resolve time_field_agr : agr.
Lemma ctx_decode_date_agr (a0 : bytes) (a1 : date_order) (a2 : ctx) : agr (ctx_decode_date Debug a0 a1 a2) (ctx_decode_date Release a0 a1 a2).
Proof. unfold ctx_decode_date. ag. Qed.
#[export] Hint Resolve ctx_decode_date_agr : agr.
Lemma ctx_decode_number_agr (a0 : bytes) (a1 : Z) (a2 : date_order) (a3 : ctx) : agr (ctx_decode_number Debug a0 a1 a2 a3) (ctx_decode_number Release a0 a1 a2 a3).
Proof. unfold ctx_decode_number. ag. Qed.
#[export] Hint Resolve ctx_decode_number_agr : agr.
Lemma decode_date_token_agr (a0 : bytes) (a1 : date_order) (a2 : ctx) : agr (decode_date_token Debug a0 a1 a2) (decode_date_token Release a0 a1 a2).
Proof. unfold decode_date_token. ag. Qed.
#[export] Hint Resolve decode_date_token_agr : agr.
Lemma prefixed_number_agr (a0 : bytes) (a1 : ctx) : agr (prefixed_number Debug a0 a1) (prefixed_number Release a0 a1).
Proof. unfold prefixed_number. ag. Qed.
#[export] Hint Resolve prefixed_number_agr : agr.
Lemma decode_number_token_agr (a0 : bytes) (a1 : date_order) (a2 : ctx) : agr (decode_number_token Debug a0 a1 a2) (decode_number_token Release a0 a1 a2).
Proof. unfold decode_number_token. ag. Qed.
#[export] Hint Resolve decode_number_token_agr : agr.
Lemma date_time_field_agr (a0 : date_order) (a1 : token) (a2 : option token) (a3 : ctx) : agr (date_time_field Debug a0 a1 a2 a3) (date_time_field Release a0 a1 a2 a3).
Proof. unfold date_time_field. ag. Qed.
#[export] Hint Resolve date_time_field_agr : agr.
Lemma date_time_fields_agr (a0 : date_order) (a1 : list token) (a2 : ctx) : agr (date_time_fields Debug a0 a1 a2) (date_time_fields Release a0 a1 a2).
Proof. revert a0 a2; (induction a1 as [|? ? IH] || induction a1 as [|? IH]); intros; cbn [date_time_fields]; ag. Qed.
#[export] Hint Resolve date_time_fields_agr : agr.
Lemma apply_mer_agr (a0 : Z) (a1 : pgtime) : agr (apply_mer Debug a0 a1) (apply_mer Release a0 a1).
Proof. unfold apply_mer. ag. Qed.
#[export] Hint Resolve apply_mer_agr : agr.
Lemma decode_date_time_agr (a0 : date_order) (a1 : list token) : agr (decode_date_time Debug a0 a1) (decode_date_time Release a0 a1).
Proof. unfold decode_date_time. ag. Qed.
#[export] Hint Resolve decode_date_time_agr : agr.
Lemma date_try_from_str_agr (a0 : bytes) (a1 : date_order) : agr (date_try_from_str Debug a0 a1) (date_try_from_str Release a0 a1).
Proof. unfold date_try_from_str. ag. Qed.
#[export] Hint Resolve date_try_from_str_agr : agr.
Lemma timestamp_try_from_str_agr (a0 : bytes) (a1 : Z) (a2 : date_order) : agr (timestamp_try_from_str Debug a0 a1 a2) (timestamp_try_from_str Release a0 a1 a2).
Proof. unfold timestamp_try_from_str. ag. Qed.
#[export] Hint Resolve timestamp_try_from_str_agr : agr.
Lemma time_date_token_agr (a0 : nat) (a1 : list (option tfield)) (a2 : bytes) (a3 : date_order) (a4 : ctx) : agr (time_date_token Debug a0 a1 a2 a3 a4) (time_date_token Release a0 a1 a2 a3 a4).
Proof. unfold time_date_token. ag. Qed.
#[export] Hint Resolve time_date_token_agr : agr.
Lemma time_number_token_agr (a0 : nat) (a1 : list (option tfield)) (a2 : bytes) (a3 : date_order) (a4 : ctx) : agr (time_number_token Debug a0 a1 a2 a3 a4) (time_number_token Release a0 a1 a2 a3 a4).
Proof. unfold time_number_token. ag. Qed.
#[export] Hint Resolve time_number_token_agr : agr.
Lemma time_only_field_agr (a0 : date_order) (a1 : nat) (a2 : list (option tfield)) (a3 : token) (a4 : option token) (a5 : ctx) : agr (time_only_field Debug a0 a1 a2 a3 a4 a5) (time_only_field Release a0 a1 a2 a3 a4 a5).
Proof. unfold time_only_field. ag. Qed.
#[export] Hint Resolve time_only_field_agr : agr.
Lemma time_only_fields_agr (a0 : date_order) (a1 : nat) (a2 : list (option tfield)) (a3 : list token) (a4 : ctx) : agr (time_only_fields Debug a0 a1 a2 a3 a4) (time_only_fields Release a0 a1 a2 a3 a4).
Proof. revert a0 a1 a2 a4; (induction a3 as [|? ? IH] || induction a3 as [|? IH]); intros; cbn [time_only_fields]; ag. Qed.
#[export] Hint Resolve time_only_fields_agr : agr.
Lemma decode_time_only_agr (a0 : date_order) (a1 : list token) : agr (decode_time_only Debug a0 a1) (decode_time_only Release a0 a1).
Proof. unfold decode_time_only. ag. Qed.
#[export] Hint Resolve decode_time_only_agr : agr.
Lemma time_try_from_str_agr (a0 : bytes) (a1 : Z) (a2 : date_order) : agr (time_try_from_str Debug a0 a1 a2) (time_try_from_str Release a0 a1 a2).
Proof. unfold time_try_from_str. ag. Qed.
#[export] Hint Resolve time_try_from_str_agr : agr.
Lemma adjust_fract_seconds_agr (a0 : f64) (a1 : Z) (a2 : tmf) : agr2 (adjust_fract_seconds Debug a0 a1 a2) (adjust_fract_seconds Release a0 a1 a2).
Proof. unfold adjust_fract_seconds. ag. Qed.
#[export] Hint Resolve adjust_fract_seconds_agr : agr.
Lemma adjust_fract_days_agr (a0 : f64) (a1 : Z) (a2 : tmf) : agr2 (adjust_fract_days Debug a0 a1 a2) (adjust_fract_days Release a0 a1 a2).
Proof. unfold adjust_fract_days. ag. Qed.
#[export] Hint Resolve adjust_fract_days_agr : agr.
Lemma interval_number_agr (a0 : bytes) (a1 : Z) : agr (interval_number Debug a0 a1) (interval_number Release a0 a1).
Proof. unfold interval_number. ag. Qed.
#[export] Hint Resolve interval_number_agr : agr.
Lemma add_years_agr (a0 : Z) (a1 : Z) (a2 : f64) (a3 : f64) (a4 : tmf) : agr2 (add_years Debug a0 a1 a2 a3 a4) (add_years Release a0 a1 a2 a3 a4).
Proof. unfold add_years. ag. Qed.
#[export] Hint Resolve add_years_agr : agr.
Lemma interval_number_field_agr (a0 : bytes) (a1 : Z) (a2 : Z) (a3 : tmf) : agr2 (interval_number_field Debug a0 a1 a2 a3) (interval_number_field Release a0 a1 a2 a3).
Proof. unfold interval_number_field. ag. Qed.
#[export] Hint Resolve interval_number_field_agr : agr.
Lemma negate_clock_agr (a0 : tmf) : agr2 (negate_clock Debug a0) (negate_clock Release a0).
Proof. unfold negate_clock. ag. Qed.
#[export] Hint Resolve negate_clock_agr : agr.
Lemma interval_field_agr (a0 : Z) (a1 : token) (a2 : ist) (a3 : tmf) : agr2 (interval_field Debug a0 a1 a2 a3) (interval_field Release a0 a1 a2 a3).
Proof. unfold interval_field. ag. Qed.
#[export] Hint Resolve interval_field_agr : agr.
Lemma interval_fields_agr (a0 : Z) (a1 : list token) (a2 : ist) (a3 : tmf) : agr2 (interval_fields Debug a0 a1 a2 a3) (interval_fields Release a0 a1 a2 a3).
Proof. revert a0 a2 a3; (induction a1 as [|? ? IH] || induction a1 as [|? IH]); intros; cbn [interval_fields]; ag. Qed.
#[export] Hint Resolve interval_fields_agr : agr.
Lemma carry_fsec_agr (a0 : tmf) : agr2 (carry_fsec Debug a0) (carry_fsec Release a0).
Proof. unfold carry_fsec. ag. Qed.
#[export] Hint Resolve carry_fsec_agr : agr.
Lemma negate_all_agr (a0 : tmf) : agr2 (negate_all Debug a0) (negate_all Release a0).
Proof. unfold negate_all. ag. Qed.
#[export] Hint Resolve negate_all_agr : agr.
Lemma decode_interval_agr (a0 : list token) (a1 : Z) (a2 : interval_style) (a3 : tmf) : agr2 (decode_interval Debug a0 a1 a2 a3) (decode_interval Release a0 a1 a2 a3).
Proof. unfold decode_interval. ag. Qed.
#[export] Hint Resolve decode_interval_agr : agr.
Lemma fract_secs_agr (a0 : f64) (a1 : Z) (a2 : tmf) : agr (fract_secs Debug a0 a1 a2) (fract_secs Release a0 a1 a2).
Proof. unfold fract_secs. ag. Qed.
#[export] Hint Resolve fract_secs_agr : agr.
Lemma fract_days_agr (a0 : f64) (a1 : Z) (a2 : tmf) : agr (fract_days Debug a0 a1 a2) (fract_days Release a0 a1 a2).
Proof. unfold fract_days. ag. Qed.
#[export] Hint Resolve fract_days_agr : agr.
Lemma add_year_agr (a0 : Z) (a1 : tmf) : agr (add_year Debug a0 a1) (add_year Release a0 a1).
Proof. unfold add_year. ag. Qed.
#[export] Hint Resolve add_year_agr : agr.
Lemma add_mon_agr (a0 : Z) (a1 : tmf) : agr (add_mon Debug a0 a1) (add_mon Release a0 a1).
Proof. unfold add_mon. ag. Qed.
#[export] Hint Resolve add_mon_agr : agr.
Lemma add_mday_agr (a0 : Z) (a1 : tmf) : agr (add_mday Debug a0 a1) (add_mday Release a0 a1).
Proof. unfold add_mday. ag. Qed.
#[export] Hint Resolve add_mday_agr : agr.
Lemma add_hour_agr (a0 : Z) (a1 : tmf) : agr (add_hour Debug a0 a1) (add_hour Release a0 a1).
Proof. unfold add_hour. ag. Qed.
#[export] Hint Resolve add_hour_agr : agr.
Lemma add_min_agr (a0 : Z) (a1 : tmf) : agr (add_min Debug a0 a1) (add_min Release a0 a1).
Proof. unfold add_min. ag. Qed.
#[export] Hint Resolve add_min_agr : agr.
Lemma add_sec_agr (a0 : Z) (a1 : tmf) : agr (add_sec Debug a0 a1) (add_sec Release a0 a1).
Proof. unfold add_sec. ag. Qed.
#[export] Hint Resolve add_sec_agr : agr.
Lemma decode_date_part_left_agr (a0 : bytes) (a1 : Z) (a2 : bool) (a3 : Z) (a4 : f64) (a5 : tmf) : agr (decode_date_part_left Debug a0 a1 a2 a3 a4 a5) (decode_date_part_left Release a0 a1 a2 a3 a4 a5).
Proof. unfold decode_date_part_left. ag. Qed.
#[export] Hint Resolve decode_date_part_left_agr : agr.
Lemma decode_time_part_left_agr (a0 : bytes) (a1 : Z) (a2 : bool) (a3 : Z) (a4 : f64) (a5 : tmf) : agr (decode_time_part_left Debug a0 a1 a2 a3 a4 a5) (decode_time_part_left Release a0 a1 a2 a3 a4 a5).
Proof. unfold decode_time_part_left. ag. Qed.
#[export] Hint Resolve decode_time_part_left_agr : agr.
Lemma iso_loop_agr (a0 : nat) (a1 : bytes) (a2 : bool) (a3 : bool) (a4 : tmf) : agr (iso_loop Debug a0 a1 a2 a3 a4) (iso_loop Release a0 a1 a2 a3 a4).
Proof. revert a1 a2 a3 a4; (induction a0 as [|? ? IH] || induction a0 as [|? IH]); intros; cbn [iso_loop]; ag. Qed.
#[export] Hint Resolve iso_loop_agr : agr.
Lemma decode_iso8601_interval_agr (a0 : bytes) (a1 : tmf) : agr (decode_iso8601_interval Debug a0 a1) (decode_iso8601_interval Release a0 a1).
Proof. unfold decode_iso8601_interval. ag. Qed.
#[export] Hint Resolve decode_iso8601_interval_agr : agr.
Lemma interval_try_from_str_agr (a0 : bytes) (a1 : Z) (a2 : interval_style) : agr (interval_try_from_str Debug a0 a1 a2) (interval_try_from_str Release a0 a1 a2).
Proof. unfold interval_try_from_str. ag. Qed.
#[export] Hint Resolve interval_try_from_str_agr : agr.
Lemma date_ser_agr (a0 : bool) (a1 : Z) : agr (date_ser Debug a0 a1) (date_ser Release a0 a1).
Proof. unfold date_ser. ag. Qed.
#[export] Hint Resolve date_ser_agr : agr.
Lemma date_de_agr (a0 : dval_in) : agr (date_de Debug a0) (date_de Release a0).
Proof. unfold date_de. ag. Qed.
#[export] Hint Resolve date_de_agr : agr.
Lemma time_ser_agr (a0 : bool) (a1 : Z) : agr (time_ser Debug a0 a1) (time_ser Release a0 a1).
Proof. unfold time_ser. ag. Qed.
#[export] Hint Resolve time_ser_agr : agr.
Lemma time_de_agr (a0 : dval_in) : agr (time_de Debug a0) (time_de Release a0).
Proof. unfold time_de. ag. Qed.
#[export] Hint Resolve time_de_agr : agr.
Lemma timestamp_ser_agr (a0 : bool) (a1 : Z) : agr (timestamp_ser Debug a0 a1) (timestamp_ser Release a0 a1).
Proof. unfold timestamp_ser. ag. Qed.
#[export] Hint Resolve timestamp_ser_agr : agr.
Lemma timestamp_de_agr (a0 : dval_in) : agr (timestamp_de Debug a0) (timestamp_de Release a0).
Proof. unfold timestamp_de. ag. Qed.
#[export] Hint Resolve timestamp_de_agr : agr.
Lemma interval_ser_agr (a0 : bool) (a1 : interval) : agr (interval_ser Debug a0 a1) (interval_ser Release a0 a1).
Proof. unfold interval_ser. ag. Qed.
#[export] Hint Resolve interval_ser_agr : agr.
Lemma interval_de_agr (a0 : dval_in) : agr (interval_de Debug a0) (interval_de Release a0).
Proof. unfold interval_de. ag. Qed.
#[export] Hint Resolve interval_de_agr : agr.
