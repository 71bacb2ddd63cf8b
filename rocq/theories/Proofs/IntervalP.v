(** Interval and Time arithmetic. *)
From Verif Require Import Model.DateTime Spec.Calendar Spec.Ranges Spec.Clock Spec.IntervalS
  Proofs.Arith Proofs.TsP Proofs.AddP.
From Coq Require Import Lia.

Ltac unit_consts :=
  unfold USECS_PER_DAY, USECS_PER_HOUR, USECS_PER_MINUTE, USECS_PER_SEC, MONTHS_PER_YEAR,
    DAYS_PER_MONTH, usecs_day in *.

Ltac dltb := match goal with |- context [?a <? ?b] => destruct (Z.ltb_spec a b) end.

Lemma quot_mul_abs t u : 0 < u ->
  (0 <= t /\ 0 <= Z.quot t u * u <= t) \/ (t <= 0 /\ t <= Z.quot t u * u <= 0).
Proof.
  intros U. rewrite (Z.mul_comm _ u). destruct (Z.le_ge_cases 0 t).
  - pose proof (Z.mul_quot_le t u). lia.
  - pose proof (Z.mul_quot_ge t u). lia.
Qed.

Lemma time_modulo_ok md t u : in_i64 t -> 0 < u ->
  time_modulo md t u = Ok (Z.rem t u, Z.quot t u).
Proof.
  intros H U. unfold time_modulo. pose proof (quot_mul_abs t u U).
  pose proof (Z.quot_rem' t u).
  set (q := Z.quot t u) in *. set (r := Z.rem t u) in *. clearbody q r.
  destruct (Z.eqb_spec q 0) as [E|E]; cbn [negb].
  - do 2 f_equal. rewrite E in *. lia.
  - set (qu := q * u) in *. assert (t = qu + r) by (unfold qu; lia). clearbody qu.
    ar_unfold. rewrite ar64_ok by (rng; lia). cbn [bind].
    rewrite ar64_ok by (rng; lia). cbn [bind]. do 2 f_equal. lia.
Qed.

(** ** fix_day_time *)
Definition fixdt (day time : Z) : Z * Z :=
  if (0 <? day) && (time <? 0) then (day - 1, time + USECS_PER_DAY)
  else if (day <? 0) && (0 <? time) then (day + 1, time - USECS_PER_DAY)
  else (day, time).
Lemma fix_day_time_ok md day time : in_i32 day -> in_i64 time ->
  fix_day_time md day time = Ok (fixdt day time).
Proof.
  intros Hd Ht. unfold fix_day_time, fixdt. unit_consts.
  destruct (Z.ltb_spec 0 day), (Z.ltb_spec time 0), (Z.ltb_spec day 0), (Z.ltb_spec 0 time);
    cbn [andb]; try reflexivity; try lia; ar; reflexivity.
Qed.

(** ** justify_hours *)
Definition jh_day (a : interval) := iv_day a + Z.quot (iv_time a) usecs_day.
Lemma jh_quot a : in_i64 (iv_time a) -> -106751992 <= Z.quot (iv_time a) usecs_day <= 106751992.
Proof. intros. unfold usecs_day. rng. lia. Qed.

Lemma justify_hours_eq md a : fields_ok a ->
  justify_hours md a =
    let p := fixdt (wrap32 (jh_day a)) (Z.rem (iv_time a) usecs_day) in
    Ok (from_mdt (iv_month a) (fst p) (snd p)).
Proof.
  intros (Hm & Hd & Ht). unfold justify_hours. rewrite time_modulo_ok by (auto; unit_consts; lia).
  cbn [bind]. pose proof (jh_quot a Ht) as Q. unfold jh_day. unit_consts.
  rewrite (wrap32_id (Z.quot _ _)) by (rng; lia).
  rewrite fix_day_time_ok; [|apply wrap32_range|rng; lia].
  cbn [bind]. destruct (fixdt _ _); reflexivity.
Qed.

Lemma justify_hours_total md a : fields_ok a -> exists r, justify_hours md a = Ok r /\ fields_ok r.
Proof.
  intros F. rewrite justify_hours_eq by auto. cbv zeta. eexists. split; [reflexivity|].
  destruct F as (Hm & Hd & Ht). pose proof (wrap32_range (jh_day a)) as W.
  unfold fields_ok, from_mdt, fixdt. cbn [iv_month iv_day iv_time]. unit_consts.
  repeat dltb; cbn [andb fst snd]; rng; lia.
Qed.

(** The wrapped case still gives a normalised interval; the exact case preserves the span. *)
Lemma justify_hours_norm md a r : fields_ok a -> justify_hours md a = Ok r ->
  iv_month r = iv_month a /\ Z.abs (iv_time r) < usecs_day /\ agree (iv_day r) (iv_time r).
Proof.
  intros (Hm & Hd & Ht). rewrite justify_hours_eq by (repeat split; auto; apply Hm || apply Hd || apply Ht).
  cbv zeta. intros [= <-]. unfold from_mdt, fixdt, agree. cbn [iv_month iv_day iv_time]. unit_consts.
  repeat dltb; cbn [andb fst snd]; lia.
Qed.
Lemma justify_hours_span md a r : fields_ok a -> in_i32 (jh_day a) ->
  justify_hours md a = Ok r ->
  iv_day r * usecs_day + iv_time r = iv_day a * usecs_day + iv_time a.
Proof.
  intros F Hj. rewrite justify_hours_eq by auto. rewrite wrap32_id by auto.
  cbv zeta. intros [= <-]. unfold from_mdt, fixdt, jh_day. cbn [iv_month iv_day iv_time]. unit_consts.
  repeat dltb; cbn [andb fst snd]; lia.
Qed.
Lemma justify_hours_fixed md a : fields_ok a -> Z.abs (iv_time a) < usecs_day ->
  agree (iv_day a) (iv_time a) -> justify_hours md a = Ok a.
Proof.
  intros F Ht G. rewrite justify_hours_eq by auto. unfold jh_day, fixdt.
  unfold usecs_day in Ht.
  assert (Z.quot (iv_time a) usecs_day = 0) as -> by (unfold usecs_day; lia).
  assert (Z.rem (iv_time a) usecs_day = iv_time a) as -> by (unfold usecs_day; lia).
  destruct F as (Hm & Hd & Ht'). rewrite Z.add_0_r, wrap32_id by auto.
  unfold agree in G. destruct a as [t d m]. cbn in *. unfold from_mdt.
  repeat dltb; cbn [andb fst snd]; try lia; reflexivity.
Qed.

Lemma hours_normal_unique d t d' t' : Z.abs t < usecs_day -> Z.abs t' < usecs_day ->
  agree d t -> agree d' t' -> d * usecs_day + t = d' * usecs_day + t' -> d = d' /\ t = t'.
Proof. unfold agree, usecs_day. intros. lia. Qed.

(** ** justify_days *)
Definition fixmd (month day : Z) : Z * Z :=
  if (0 <? month) && (day <? 0) then (month - 1, day + 30)
  else if (month <? 0) && (0 <? day) then (month + 1, day - 30)
  else (month, day).
Lemma justify_days_eq md a : fields_ok a ->
  justify_days md a =
    let p := fixmd (wrap32 (iv_month a + Z.quot (iv_day a) 30)) (Z.rem (iv_day a) 30) in
    Ok (from_mdt (fst p) (snd p) (iv_time a)).
Proof.
  intros (Hm & Hd & Ht). unfold justify_days. unit_consts.
  pose proof (wrap32_range (iv_month a + Z.quot (iv_day a) 30)) as W.
  ar_unfold. rewrite ar32_ok by (rng; lia). cbn [bind].
  rewrite ar32_ok by (rng; lia). cbn [bind].
  replace (iv_day a - Z.quot (iv_day a) 30 * 30) with (Z.rem (iv_day a) 30) by lia.
  set (m := wrap32 _) in *. clearbody m. unfold fixmd.
  repeat dltb; cbn [andb fst snd]; try lia; try reflexivity; ar; reflexivity.
Qed.
Lemma justify_days_total md a : fields_ok a -> exists r, justify_days md a = Ok r /\ fields_ok r.
Proof.
  intros F. rewrite justify_days_eq by auto. cbv zeta. eexists. split; [reflexivity|].
  destruct F as (Hm & Hd & Ht).
  pose proof (wrap32_range (iv_month a + Z.quot (iv_day a) 30)) as W.
  unfold fields_ok, from_mdt, fixmd. cbn [iv_month iv_day iv_time].
  repeat dltb; cbn [andb fst snd]; rng; lia.
Qed.
Lemma justify_days_norm md a r : fields_ok a -> justify_days md a = Ok r ->
  iv_time r = iv_time a /\ Z.abs (iv_day r) < 30 /\ agree (iv_month r) (iv_day r).
Proof.
  intros F. rewrite justify_days_eq by auto.
  cbv zeta. intros [= <-]. unfold from_mdt, fixmd, agree. cbn [iv_month iv_day iv_time].
  repeat dltb; cbn [andb fst snd]; lia.
Qed.
Lemma justify_days_span md a r : fields_ok a -> in_i32 (iv_month a + Z.quot (iv_day a) 30) ->
  justify_days md a = Ok r ->
  iv_month r * 30 + iv_day r = iv_month a * 30 + iv_day a.
Proof.
  intros F Hj. rewrite justify_days_eq by auto. rewrite wrap32_id by auto.
  cbv zeta. intros [= <-]. unfold from_mdt, fixmd. cbn [iv_month iv_day iv_time].
  repeat dltb; cbn [andb fst snd]; lia.
Qed.
Lemma justify_days_fixed md a : fields_ok a -> Z.abs (iv_day a) < 30 ->
  agree (iv_month a) (iv_day a) -> justify_days md a = Ok a.
Proof.
  intros F Ht G. rewrite justify_days_eq by auto. unfold fixmd.
  assert (Z.quot (iv_day a) 30 = 0) as -> by lia.
  assert (Z.rem (iv_day a) 30 = iv_day a) as -> by lia.
  destruct F as (Hm & Hd & Ht'). rewrite Z.add_0_r, wrap32_id by auto.
  unfold agree in G. destruct a as [t d m]. cbn in *. unfold from_mdt.
  repeat dltb; cbn [andb fst snd]; try lia; reflexivity.
Qed.
Lemma days_normal_unique m d m' d' : Z.abs d < 30 -> Z.abs d' < 30 ->
  agree m d -> agree m' d' -> m * 30 + d = m' * 30 + d' -> m = m' /\ d = d'.
Proof. unfold agree. intros. lia. Qed.

(** ** justify_interval *)
Definition fixmdt (month day time : Z) : Z * Z :=
  if (0 <? month) && ((day <? 0) || ((day =? 0) && (time <? 0))) then (month - 1, day + 30)
  else if (month <? 0) && ((0 <? day) || ((day =? 0) && (0 <? time))) then (month + 1, day - 30)
  else (month, day).
Definition ji_month (a : interval) (day : Z) := iv_month a + Z.quot day 30.
Ltac dcmp := match goal with
  | |- context [?a <? ?b] => destruct (Z.ltb_spec a b)
  | |- context [?a =? ?b] => destruct (Z.eqb_spec a b)
  end.
Lemma justify_interval_eq md a : fields_ok a ->
  justify_interval md a =
    let day := wrap32 (jh_day a) in
    let time := Z.rem (iv_time a) usecs_day in
    let p := fixmdt (wrap32 (ji_month a day)) (Z.rem day 30) time in
    let q := fixdt (snd p) time in
    Ok (from_mdt (fst p) (fst q) (snd q)).
Proof.
  intros (Hm & Hd & Ht). unfold justify_interval. rewrite time_modulo_ok by (auto; unit_consts; lia).
  cbn [bind]. pose proof (jh_quot a Ht) as Q. unfold jh_day in *. unit_consts.
  rewrite (wrap32_id (Z.quot _ _)) by (rng; lia).
  set (day := wrap32 (iv_day a + _)). assert (in_i32 day) as Hday by apply wrap32_range. clearbody day.
  cbv zeta. unfold ji_month.
  set (mo := wrap32 (iv_month a + _)). assert (in_i32 mo) as Hmo by apply wrap32_range. clearbody mo.
  set (ti := Z.rem (iv_time a) _). assert (Z.abs ti < 86400000000) by (unfold ti; lia). clearbody ti.
  ar_unfold. rewrite ar32_ok by (rng; lia). cbn [bind].
  replace (day - Z.quot day 30 * 30) with (Z.rem day 30) by lia.
  rewrite (wrap32_id (Z.rem day 30)) by (rng; lia).
  set (d := Z.rem day 30). assert (Z.abs d < 30) by (unfold d; lia). clearbody d.
  assert (forall A (f : A -> res interval) x, bind (Ok x) f = f x) as BO by reflexivity.
  match goal with |- bind ?X _ = _ => assert (X = Ok (fixmdt mo d ti)) as -> end.
  { unfold fixmdt. repeat dcmp; cbn [andb orb]; try lia; try reflexivity; ar; reflexivity. }
  rewrite BO. destruct (fixmdt mo d ti) as [m' d'] eqn:E. cbn [fst snd].
  rewrite fix_day_time_ok.
  - cbn [bind]. destruct (fixdt d' ti); reflexivity.
  - unfold fixmdt in E. revert E. repeat dcmp; cbn [andb orb]; intros [= <- <-]; rng; lia.
  - rng; lia.
Qed.
Definition normal3 (r : interval) : Prop :=
  Z.abs (iv_time r) < usecs_day /\ Z.abs (iv_day r) < 30 /\
  agree (iv_month r) (iv_day r) /\ agree (iv_month r) (iv_time r) /\ agree (iv_day r) (iv_time r).
Lemma justify_interval_total md a : fields_ok a ->
  exists r, justify_interval md a = Ok r /\ fields_ok r /\ normal3 r.
Proof.
  intros F. rewrite justify_interval_eq by auto. cbv zeta. eexists. split; [reflexivity|].
  destruct F as (Hm & Hd & Ht).
  set (day := wrap32 (jh_day a)). assert (in_i32 day) as Hday by apply wrap32_range. clearbody day.
  set (mo := wrap32 (ji_month a _)). assert (in_i32 mo) as Hmo by apply wrap32_range. clearbody mo.
  set (ti := Z.rem (iv_time a) _). assert (Z.abs ti < 86400000000) by (unfold ti, usecs_day; lia). clearbody ti.
  set (d := Z.rem day 30). assert (Z.abs d < 30) by (unfold d; lia). clearbody d.
  unfold fields_ok, normal3, agree, from_mdt.
  cbn [iv_month iv_day iv_time]. clear Hm Hd Ht Hday. rng.
  destruct (fixmdt mo d ti) as [m' d'] eqn:E. cbn [fst snd].
  assert ((0 < mo /\ (d < 0 \/ d = 0 /\ ti < 0) /\ m' = mo - 1 /\ d' = d + 30) \/
          (mo < 0 /\ (0 < d \/ d = 0 /\ 0 < ti) /\ m' = mo + 1 /\ d' = d - 30) \/
          (~ (0 < mo /\ (d < 0 \/ d = 0 /\ ti < 0)) /\ ~ (mo < 0 /\ (0 < d \/ d = 0 /\ 0 < ti)) /\
           m' = mo /\ d' = d)) as C.
  { revert E. unfold fixmdt. repeat (dcmp; cbn [andb orb]); intros [= <- <-]; lia. }
  clear E. unfold fixdt. unit_consts.
  repeat (dcmp; cbn [andb orb fst snd]; try lia).
Qed.
Lemma justify_interval_span md a r : fields_ok a -> in_i32 (jh_day a) ->
  in_i32 (ji_month a (jh_day a)) -> justify_interval md a = Ok r -> span_of r = span_of a.
Proof.
  intros F Hj Hk. rewrite justify_interval_eq by auto. rewrite wrap32_id by auto.
  cbv zeta. rewrite wrap32_id by auto. intros [= <-].
  unfold span_of, span, ji_month. cbn [iv_month iv_day iv_time from_mdt].
  assert (iv_day a * usecs_day + iv_time a = jh_day a * usecs_day + Z.rem (iv_time a) usecs_day) as E.
  { unfold jh_day, usecs_day. lia. }
  set (day := jh_day a) in *. clearbody day.
  set (ti := Z.rem (iv_time a) _) in *. clearbody ti.
  pose proof (Z.quot_rem' day 30) as Q.
  set (d := Z.rem day 30) in *. clearbody d. set (q := Z.quot day 30) in *. clearbody q.
  destruct (fixmdt _ d ti) as [m' d'] eqn:E'. cbn [fst snd].
  assert (m' * 30 + d' = (iv_month a + q) * 30 + d) as E2.
  { revert E'. unfold fixmdt. repeat (dcmp; cbn [andb orb]); intros [= <- <-]; lia. }
  clear E'. unfold fixdt. unit_consts.
  repeat (dcmp; cbn [andb orb fst snd]; try lia).
Qed.
Lemma justify_interval_fixed md a : fields_ok a -> normal3 a -> justify_interval md a = Ok a.
Proof.
  intros F (N1 & N2 & N3 & N4 & N5). rewrite justify_interval_eq by auto.
  unfold jh_day, ji_month, usecs_day in *.
  assert (Z.quot (iv_time a) 86400000000 = 0) as -> by lia.
  assert (Z.rem (iv_time a) 86400000000 = iv_time a) as -> by lia.
  destruct F as (Hm & Hd & Ht'). rewrite Z.add_0_r, (wrap32_id (iv_day a)) by auto. cbv zeta.
  assert (Z.quot (iv_day a) 30 = 0) as -> by lia.
  assert (Z.rem (iv_day a) 30 = iv_day a) as -> by lia.
  rewrite Z.add_0_r, (wrap32_id (iv_month a)) by auto.
  unfold agree, from_mdt in *. destruct a as [t d m]. cbn [iv_time iv_day iv_month] in *.
  assert (fixmdt m d t = (m, d)) as ->.
  { unfold fixmdt. repeat (dcmp; cbn [andb orb fst snd]; try lia); reflexivity. }
  cbn [fst snd]. assert (fixdt d t = (d, t)) as ->; [|reflexivity].
  unfold fixdt. repeat (dcmp; cbn [andb orb fst snd]; try lia); reflexivity.
Qed.
Lemma agree_days m d t : Z.abs d < 30 -> agree m d -> agree m t -> agree d t -> agree (m * 30 + d) t.
Proof. unfold agree. intros. lia. Qed.
Lemma normal3_unique a b : normal3 a -> normal3 b -> span_of a = span_of b -> a = b.
Proof.
  unfold normal3, span_of, span. destruct a as [t d m], b as [t' d' m'].
  cbn [iv_time iv_day iv_month]. intros (A1 & A2 & A3 & A4 & A5) (B1 & B2 & B3 & B4 & B5) E.
  destruct (hours_normal_unique (m * 30 + d) t (m' * 30 + d') t') as (Ed & ->); auto using agree_days.
  destruct (days_normal_unique m d m' d') as (-> & ->); auto.
Qed.
