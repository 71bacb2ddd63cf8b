(** Interval break-down, truncation and Time truncation. *)
From Verif Require Import Model.DateTime Spec.Calendar Spec.Ranges Spec.Clock Spec.IntervalS
  Proofs.Arith Proofs.TsP Proofs.IntervalP Proofs.TimeP Proofs.FloatP.
From Coq Require Import Lia Reals.
Open Scope Z_scope.

Definition iv_tm (a : interval) : pgtime :=
  mkTm (Z.quot (Z.rem (iv_time a) 60000000) 1000000)
       (Z.quot (Z.rem (iv_time a) 3600000000) 60000000)
       (Z.quot (iv_time a) 3600000000) (iv_day a)
       (Z.rem (iv_month a) 12) (Z.quot (iv_month a) 12) 0 0 (-1).
Definition iv_us (a : interval) : Z := Z.rem (iv_time a) 1000000.

Lemma iv_to_pgtime_ok md a : fields_ok a ->
  interval_to_pgtime md a =
  if in32b (Z.quot (iv_time a) 3600000000) then Ok (iv_tm a, iv_us a) else Err EOverflow.
Proof.
  intros (Hm & Hd & Ht). unfold interval_to_pgtime. unit_consts. cbv zeta.
  ar_unfold. rewrite ar64_ok by (rng; lia). cbn [bind]. rewrite ar64_ok by (rng; lia). cbn [bind].
  unfold in32b.
  destruct (Z.ltb_spec (Z.quot (iv_time a) 3600000000) i32_min);
    [destruct (Z.leb_spec i32_min (Z.quot (iv_time a) 3600000000)); [lia|reflexivity]|].
  destruct (Z.ltb_spec i32_max (Z.quot (iv_time a) 3600000000));
    [destruct (Z.leb_spec (Z.quot (iv_time a) 3600000000) i32_max); [lia|]; rewrite Bool.andb_false_r; reflexivity|].
  destruct (Z.leb_spec i32_min (Z.quot (iv_time a) 3600000000)); [|lia].
  destruct (Z.leb_spec (Z.quot (iv_time a) 3600000000) i32_max); [|lia]. cbn [orb andb].
  replace (iv_time a - Z.quot (iv_time a) 3600000000 * 3600000000) with (Z.rem (iv_time a) 3600000000) by lia.
  set (r := Z.rem (iv_time a) 3600000000).
  assert (Z.abs r < 3600000000) as Hr by (unfold r; lia).
  ar_unfold. rewrite ar64_ok by (rng; lia). cbn [bind]. rewrite ar64_ok by (rng; lia). cbn [bind].
  rewrite ar64_ok by (rng; lia). cbn [bind]. rewrite ar64_ok by (rng; lia). cbn [bind].
  rewrite !wrap32_id by (rng; lia).
  replace (r - Z.quot r 60000000 * 60000000) with (Z.rem (iv_time a) 60000000) by (unfold r; lia).
  replace (Z.rem (iv_time a) 60000000 - Z.quot (Z.rem (iv_time a) 60000000) 1000000 * 1000000)
    with (Z.rem (iv_time a) 1000000) by lia.
  reflexivity.
Qed.

(** Years and months through f64 are exact. *)
Lemma months_f64 y m : in_i32 (y * 12 + m) -> Z.abs y <= 200000000 -> Z.abs m <= 2147483648 ->
  rep (fadd (fmul (f64_of_Z y) (f64_of_Z MONTHS_PER_YEAR)) (f64_of_Z m)) (Rdefinitions.IZR (y * 12 + m)).
Proof.
  intros H Y M. unfold MONTHS_PER_YEAR. rng.
  apply rep_add_int; [apply rep_mul_int|..]; try apply rep_int; lia.
Qed.
Lemma iv_from_pgtime_ok md s mi h d mo y w yd dst us :
  in_i32 (y * 12 + mo) -> Z.abs y <= 200000000 -> Z.abs mo <= 2147483648 ->
  Z.abs h <= 35791393 -> Z.abs mi < 60 -> Z.abs s < 60 -> Z.abs us < 1000000 ->
  interval_from_pgtime md (mkTm s mi h d mo y w yd dst) us =
  Ok (from_mdt (y * 12 + mo) d (clock h mi s us)).
Proof.
  intros H Y M Hh Hmi Hs Hus. unfold interval_from_pgtime. cbn [tm_year tm_mon tm_hour tm_min tm_sec tm_mday].
  pose proof (months_f64 y mo H Y M) as R. cbv zeta. set (total := fadd _ _) in *. clearbody total.
  unfold fgt. rewrite (rep_lt_int _ _ i32_max (y * 12 + mo)); [|apply rep_int; unfold i32_max; lia|exact R].
  rewrite (rep_lt_int _ _ (y * 12 + mo) i32_min); [|exact R|apply rep_int; unfold i32_min; lia].
  destruct (Z.ltb_spec i32_max (y * 12 + mo)); [unfold in_i32 in H; lia|].
  destruct (Z.ltb_spec (y * 12 + mo) i32_min); [unfold in_i32 in H; lia|]. cbn [orb].
  rewrite (rep_to_i32 _ _ R H). unit_consts. unfold clock. ar. reflexivity.
Qed.

Definition trunc_tm (unit : date_unit) (a : interval) : option tmf :=
  let x := (iv_tm a, iv_us a) in
  match unit with
  | Millennium => Some (truncate_interval_millennium x)
  | Century => Some (truncate_interval_century x)
  | Decade => Some (truncate_interval_decade x)
  | Year => Some (truncate_interval_year x)
  | Quarter => Some (truncate_interval_quarter x)
  | Month => Some (truncate_interval_month x)
  | Day => Some (truncate_day x)
  | Hour => Some (truncate_hour x)
  | Minute => Some (truncate_minute x)
  | Second => Some (truncate_sec x)
  | MilliSec => Some (truncate_milli_sec x)
  | MicroSec => Some (truncate_micro_sec x)
  | _ => None
  end.
Definition big_unit (unit : date_unit) : bool :=
  match unit with
  | Millennium | Century | Decade | Year | Quarter | Month | Day => true | _ => false end.

Section Clock.
Variable t : Z.
Let h := Z.quot t 3600000000.
Let mi := Z.quot (Z.rem t 3600000000) 60000000.
Let s := Z.quot (Z.rem t 60000000) 1000000.
Let us := Z.rem t 1000000.
Lemma clk_h : clock h 0 0 0 = Z.quot t 3600000000 * 3600000000.
Proof. unfold clock, h. lia. Qed.
Lemma clk_m : clock h mi 0 0 = Z.quot t 60000000 * 60000000.
Proof. unfold clock, h, mi. lia. Qed.
Lemma clk_s : clock h mi s 0 = Z.quot t 1000000 * 1000000.
Proof.
  assert (clock h mi s 0 = clock h mi 0 0 + s * 1000000) as -> by (unfold clock; lia).
  rewrite clk_m. unfold s. lia.
Qed.
Lemma clk_u : clock h mi s us = t.
Proof.
  assert (clock h mi s us = clock h mi s 0 + us) as -> by (unfold clock; lia).
  rewrite clk_s. unfold us. lia.
Qed.
Lemma clk_ms : clock h mi s (Z.quot us 1000 * 1000) = Z.quot t 1000 * 1000.
Proof.
  assert (clock h mi s (Z.quot us 1000 * 1000) = clock h mi s 0 + Z.quot us 1000 * 1000) as ->
    by (unfold clock; lia).
  rewrite clk_s. unfold us. lia.
Qed.
Lemma clk_bounds : Z.abs mi < 60 /\ Z.abs s < 60 /\ Z.abs us < 1000000 /\
  Z.abs (Z.quot us 1000 * 1000) < 1000000.
Proof.
  split; [unfold mi; lia|]. split; [unfold s; lia|].
  assert (Z.abs us < 1000000) as U by (unfold us; lia). clearbody us. lia.
Qed.
End Clock.

Section Months.
Variable m : Z.
Hypothesis M : in_i32 m.
Lemma mon_year : Z.abs (Z.quot m 12) <= 178956970 /\ Z.abs (Z.rem m 12) <= 11.
Proof. rng. lia. Qed.
Lemma mon_q : Z.quot m 12 * 12 + 3 * Z.quot (Z.rem m 12) 3 = Z.quot m 3 * 3.
Proof. lia. Qed.
Lemma mon_n n k : k = 12 * n -> 0 < n -> Z.quot (Z.quot m 12) n * n * 12 = Z.quot m k * k.
Proof. intros -> N. rewrite Z.quot_quot by lia. ring. Qed.
Lemma quot_le_abs v n : 0 < n -> Z.abs (Z.quot v n * n) <= Z.abs v.
Proof. intros N. pose proof (quot_mul_abs v n N). lia. Qed.
End Months.
Lemma ten_of_hundred q : Z.quot (q * 100) 10 * 10 = q * 100.
Proof. lia. Qed.
Lemma hundred_of_thousand q : Z.quot (q * 1000) 100 * 100 = q * 1000.
Proof. lia. Qed.
Lemma ten_of_thousand q : Z.quot (q * 1000) 10 * 10 = q * 1000.
Proof. lia. Qed.
Lemma three_zero : 3 * Z.quot 0 3 = 0. Proof. reflexivity. Qed.
Lemma zero_k : Z.quot 0 1000 * 1000 = 0. Proof. reflexivity. Qed.

Lemma trunc_fields unit a x : fields_ok a ->
  trunc_tm unit a = Some x -> (big_unit unit = true \/ Z.abs (Z.quot (iv_time a) 3600000000) <= 35791393) ->
  exists b, truncated_iv unit a b /\ forall md, interval_from_pgtime md (fst x) (snd x) = Ok b.
Proof.
  intros (Hm & Hd & Ht) E D.
  assert (forall y mo d h mi s us w yd dst,
    in_i32 (y * 12 + mo) -> Z.abs y <= 200000000 -> Z.abs mo <= 12 ->
    Z.abs h <= 35791393 -> Z.abs mi < 60 -> Z.abs s < 60 -> Z.abs us < 1000000 ->
    truncated_iv unit a (from_mdt (y * 12 + mo) d (clock h mi s us)) ->
    exists b, truncated_iv unit a b /\ forall md,
      interval_from_pgtime md (mkTm s mi h d mo y w yd dst) us = Ok b) as G.
  { intros. eexists. split; [eassumption|]. intros md. apply iv_from_pgtime_ok; auto; lia. }
  assert (forall n r, 0 < n -> r = Z.quot (iv_month a) n * n -> toward_zero n (iv_month a) r) as TM.
  { intros n r N ->. apply (trunc_to_spec (iv_month a) n N). }
  assert (forall n r, 0 < n -> r = Z.quot (iv_time a) n * n -> toward_zero n (iv_time a) r) as TT.
  { intros n r N ->. apply (trunc_to_spec (iv_time a) n N). }
  pose proof (mon_year (iv_month a) Hm) as (Y1 & Y2).
  assert (clock 0 0 0 0 = 0) as K0 by reflexivity.
  assert (Z.quot (iv_month a) 12 * 12 + Z.rem (iv_month a) 12 = iv_month a) as Y3 by (rewrite (Z.mul_comm _ 12); symmetry; apply Z.quot_rem').
  assert (forall n k, k = 12 * n -> 0 < n ->
    Z.quot (Z.quot (iv_month a) 12) n * n * 12 + 0 = Z.quot (iv_month a) k * k /\
    Z.abs (Z.quot (Z.quot (iv_month a) 12) n * n) <= 200000000 /\
    in_i32 (Z.quot (Z.quot (iv_month a) 12) n * n * 12 + 0)) as YN.
  { intros n k Kk N. rewrite (Z.add_0_r (_ * 12)), (mon_n (iv_month a) n k Kk N). split; [reflexivity|].
    pose proof (quot_le_abs (Z.quot (iv_month a) 12) n N).
    assert (0 < k) as Kp by (clear - Kk N; lia).
    pose proof (quot_mul_abs (iv_month a) k Kp) as Q. set (z := Z.quot (iv_month a) k * k) in *. clearbody z.
    split; [apply Z.le_trans with 178956970; [eapply Z.le_trans; eassumption|discriminate]|]. clear - Q Hm. rng; lia. }
  assert (Z.quot (iv_month a) 12 * 12 + 0 = Z.quot (iv_month a) 12 * 12) as YY by apply Z.add_0_r.
  assert (in_i32 (Z.quot (iv_month a) 12 * 12 + 0)) as YY2.
  { rewrite YY. pose proof (quot_mul_abs (iv_month a) 12 eq_refl) as Q.
    set (z := Z.quot (iv_month a) 12 * 12) in *. clearbody z. clear - Q Hm. rng; lia. }
  pose proof (mon_q (iv_month a)) as QQ.
  assert (in_i32 (Z.quot (iv_month a) 12 * 12 + 3 * Z.quot (Z.rem (iv_month a) 12) 3)) as QQ2.
  { rewrite QQ. pose proof (quot_mul_abs (iv_month a) 3 eq_refl) as Q.
    set (z := Z.quot (iv_month a) 3 * 3) in *. clearbody z. clear - Q Hm. rng; lia. }
  assert (Z.abs (3 * Z.quot (Z.rem (iv_month a) 12) 3) <= 12) as QQ3.
  { set (r := Z.rem (iv_month a) 12) in *. clearbody r. clear - Y2. lia. }
  pose proof (YN 10 120 eq_refl eq_refl) as (N10a & N10b & N10c).
  pose proof (YN 100 1200 eq_refl eq_refl) as (N100a & N100b & N100c).
  pose proof (YN 1000 12000 eq_refl eq_refl) as (N1000a & N1000b & N1000c). clear YN.
  pose proof (clk_bounds (iv_time a)) as (B1 & B2 & B3 & B4).
  pose proof (clk_h (iv_time a)) as K1. pose proof (clk_m (iv_time a)) as K2.
  pose proof (clk_s (iv_time a)) as K3. pose proof (clk_u (iv_time a)) as K4.
  pose proof (clk_ms (iv_time a)) as K5.
  assert (Z.quot (iv_month a) 1 * 1 = iv_month a) as M1 by (rewrite Z.quot_1_r; apply Z.mul_1_r).
  assert (Z.quot (iv_time a) 1 * 1 = iv_time a) as T1 by (rewrite Z.quot_1_r; apply Z.mul_1_r).
  destruct unit; try discriminate E; cbn [trunc_tm] in E; injection E as <-;
    unfold iv_tm, iv_us;
    unfold truncate_interval_millennium, truncate_interval_century, truncate_interval_decade,
         truncate_interval_year, truncate_interval_quarter, truncate_interval_month, truncate_day,
         truncate_hour, truncate_minute, truncate_sec, truncate_milli_sec, truncate_micro_sec;
    cbv beta iota delta [fst snd set_year set_mon set_mday set_hour set_min set_sec tm_year tm_mon
         tm_mday tm_hour tm_min tm_sec tm_wday tm_yday tm_isdst];
    rewrite ?hundred_of_thousand, ?ten_of_hundred, ?ten_of_thousand, ?three_zero, ?zero_k;
    cbn [big_unit] in D; (apply G; clear G;
      [..|cbn [truncated_iv from_mdt iv_month iv_day iv_time]]);
    rewrite ?Y3, ?YY, ?K0, ?K1, ?K2, ?K3, ?K4, ?K5, ?N10a, ?N100a, ?N1000a, ?QQ;
    rewrite ?YY, ?N10a, ?N100a, ?N1000a, ?QQ in *;
    try assumption; try reflexivity; try discriminate;
    try (destruct D as [D|D]; [discriminate D|]; assumption);
    try (match goal with |- Z.abs ?x <= ?y => apply Z.le_trans with 178956970; [assumption|discriminate] end);
    try (match goal with |- Z.abs ?x <= ?y => apply Z.le_trans with 11; [assumption|discriminate] end).
  all: repeat split; try (apply TM; [reflexivity|]); try (apply TT; [reflexivity|]); try reflexivity; try congruence.
  all: idtac.
Qed.

(** The supported units, and the size of the time part up to which each works. *)
Definition trunc_unit (unit : date_unit) : bool :=
  match unit with
  | Millennium | Century | Decade | Year | Quarter | Month | Day
  | Hour | Minute | Second | MilliSec | MicroSec => true | _ => false end.
Definition iv_limit (unit : date_unit) : Z :=
  if big_unit unit then 2147483648 * 3600000000 else 35791394 * 3600000000.

Lemma hours_quot t n : 0 < n -> Z.abs t < n * 3600000000 -> Z.abs (Z.quot t 3600000000) < n.
Proof. intros. lia. Qed.

Lemma interval_truncate_ok md a unit : fields_ok a -> trunc_unit unit = true ->
  Z.abs (iv_time a) < iv_limit unit ->
  exists b, interval_truncate md a FTUnit unit = Ok b /\ truncated_iv unit a b.
Proof.
  intros F U L.
  assert (in32b (Z.quot (iv_time a) 3600000000) = true) as I.
  { apply in32b_true. pose proof (hours_quot (iv_time a) 2147483648 eq_refl) as Q.
    set (z := Z.quot (iv_time a) 3600000000) in *. clearbody z.
    assert (Z.abs (iv_time a) < 2147483648 * 3600000000) as L2.
    { unfold iv_limit in L. destruct (big_unit unit); lia. }
    specialize (Q L2). clear - Q. rng. lia. }
  assert (big_unit unit = true \/ Z.abs (Z.quot (iv_time a) 3600000000) <= 35791393) as D.
  { unfold iv_limit in L. destruct (big_unit unit); [left; reflexivity|right].
    pose proof (hours_quot (iv_time a) 35791394 eq_refl L) as Q.
    set (z := Z.quot (iv_time a) 3600000000) in *. clearbody z. clear - Q. lia. }
  unfold interval_truncate. rewrite iv_to_pgtime_ok, I by auto. cbn [bind].
  destruct (trunc_tm unit a) as [x|] eqn:E.
  - destruct (trunc_fields unit a x F E D) as (b & T & Hb). exists b. split; [|exact T].
    destruct unit; try discriminate U; cbn [trunc_tm] in E; injection E as <-; cbn [bind]; apply Hb.
  - destruct unit; discriminate.
Qed.
Lemma interval_truncate_err md a unit : fields_ok a -> 
  Z.abs (iv_time a) >= 2147483649 * 3600000000 ->
  interval_truncate md a FTUnit unit = Err EOverflow.
Proof.
  intros F L. unfold interval_truncate. rewrite iv_to_pgtime_ok by auto.
  replace (in32b _) with false; [reflexivity|]. symmetry. unfold in32b. rng. lia.
Qed.
Lemma interval_truncate_bad md a unit : fields_ok a -> trunc_unit unit = false ->
  Z.abs (iv_time a) < 2147483648 * 3600000000 ->
  interval_truncate md a FTUnit unit = Err EInvalid.
Proof.
  intros F U L. unfold interval_truncate. rewrite iv_to_pgtime_ok by auto.
  replace (in32b _) with true.
  - destruct unit; try discriminate U; reflexivity.
  - symmetry. apply in32b_true. pose proof (hours_quot (iv_time a) 2147483648 eq_refl L) as Q.
    set (z := Z.quot (iv_time a) 3600000000) in *. clearbody z. clear - Q. rng. lia.
Qed.

Lemma toward_zero_bound u v r : toward_zero u v r -> Z.abs r <= Z.abs v /\ agree r v.
Proof. intros (k & _ & A & B). split; [lia|auto]. Qed.
Lemma toward_zero_idem u v r : 0 < u -> toward_zero u v r -> toward_zero u r r.
Proof. intros U (k & E & _ & _). exists k. unfold agree. lia. Qed.

Lemma truncated_fun unit a b c : truncated_iv unit a b -> truncated_iv unit a c -> b = c.
Proof.
  assert (forall u v r r', 0 < u -> toward_zero u v r -> toward_zero u v r' -> r = r') as F
    by (exact toward_zero_fun).
  destruct b as [t d m], c as [t' d' m'].
  destruct unit; cbn [truncated_iv iv_time iv_day iv_month]; try contradiction;
  intros (A1 & A2 & A3) (B1 & B2 & B3); subst; f_equal; auto;
  first [eapply F; [|exact A1|exact B1]; lia|eapply F; [|exact A3|exact B3]; lia].
Qed.
Lemma truncated_idem unit a b : truncated_iv unit a b -> truncated_iv unit b b.
Proof.
  destruct unit; cbn [truncated_iv]; try contradiction; intros (A1 & A2 & A3);
    repeat split; auto; eapply toward_zero_idem; try eassumption; lia.
Qed.
Lemma truncated_ok unit a b : fields_ok a -> truncated_iv unit a b ->
  fields_ok b /\ Z.abs (iv_time b) <= Z.abs (iv_time a).
Proof.
  intros (F1 & F2 & F3).
  assert (forall u r, toward_zero u (iv_month a) r -> in_i32 r) as M.
  { intros u r T. apply toward_zero_bound in T as [B G]. unfold agree in G. rng. lia. }
  assert (forall u r, toward_zero u (iv_time a) r -> in_i64 r /\ Z.abs r <= Z.abs (iv_time a)) as T.
  { intros u r T. apply toward_zero_bound in T as [B G]. unfold agree in G. rng. lia. }
  unfold fields_ok.
  destruct unit; cbn [truncated_iv]; try contradiction; intros (A1 & A2 & A3);
  try rewrite A1 by fail;
  (split; [repeat split|]);
  repeat match goal with
  | H : toward_zero _ (iv_month a) _ |- _ => apply M in H
  | H : toward_zero _ (iv_time a) _ |- _ => apply T in H
  end; try rewrite A1; try rewrite A2; try rewrite A3; clear M T; rng; try lia.
Qed.

Lemma time_truncate_ok md t unit : 0 <= t <= usecs_day -> trunc_unit unit = true ->
  exists r, time_truncate md t FTUnit unit = Ok r /\
    0 <= r < usecs_day /\
    (big_unit unit = true -> r = 0) /\
    (forall u, (unit, u) = (Hour, 3600000000) \/ (unit, u) = (Minute, 60000000) \/
               (unit, u) = (Second, 1000000) \/ (unit, u) = (MilliSec, 1000) \/ (unit, u) = (MicroSec, 1) ->
       t < usecs_day -> r = t / u * u).
Proof.
  intros T U. unfold time_truncate, interval_of_time.
  assert (fields_ok (from_mdt 0 0 t)) as F.
  { unfold fields_ok. cbn [from_mdt iv_month iv_day iv_time]. unfold usecs_day in T. rng. lia. }
  destruct (interval_truncate_ok md _ unit F U) as (b & E & B).
  { cbn [from_mdt iv_time]. unfold usecs_day in T. unfold iv_limit. destruct (big_unit unit); lia. }
  rewrite E. cbn [bind].
  destruct (truncated_ok unit _ b F B) as (Fb & Bb). cbn [from_mdt iv_time] in Bb.
  assert (0 <= iv_time b <= t) as P.
  { destruct unit; try discriminate U; cbn [truncated_iv from_mdt iv_time iv_day iv_month] in B;
    destruct B as (_ & _ & B3); try lia; apply toward_zero_bound in B3 as [_ G]; unfold agree in G; lia. }
  unfold usecs_day in T. rewrite time_of_interval_ok by (rng; unfold usecs_day; lia).
  exists (iv_time b mod usecs_day). split; [reflexivity|]. unfold usecs_day. split; [lia|]. split.
  - intros Bu. assert (iv_time b = 0) as ->; [|reflexivity].
    destruct unit; try discriminate Bu; cbn [truncated_iv from_mdt iv_time iv_day iv_month] in B; tauto.
  - intros u Hu Lt. rewrite Z.mod_small by lia.
    assert (0 < u /\ toward_zero u t (iv_time b)) as [Up TZ].
    { destruct Hu as [[= -> ->]|[[= -> ->]|[[= -> ->]|[[= -> ->]|[= -> ->]]]]];
      cbn [truncated_iv from_mdt iv_time iv_day iv_month] in B; (split; [lia|tauto]). }
    apply (toward_zero_fun u t); auto. exists (t / u). split; [reflexivity|]. unfold agree.
    pose proof (Z.mul_div_le t u Up). pose proof (Z.mul_succ_div_gt t u Up).
    assert (0 <= t / u) by (apply Z.div_pos; lia).
    set (q := t / u) in *. clearbody q. nia.
Qed.
