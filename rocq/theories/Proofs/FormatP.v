(** Text produced by the format functions. *)
From Verif Require Import Model.Format Spec.Calendar Spec.Ranges Spec.Clock Spec.Text
  Proofs.Arith Proofs.Cal Proofs.DateP Proofs.TsP Proofs.DigitsP.

Lemma decimal_padded1 n t : decimal n t <-> padded 1 n t.
Proof.
  unfold decimal, padded. split; intros [N H]; (split; [easy|]).
  - destruct H; [now left|]. destruct N as (_ & N & _). destruct t as [|a [|b t]]; [easy|now left|].
    right. split; [cbn; lia|easy].
  - destruct H as [H|[_ H]]; auto.
Qed.
Lemma padded_numeral w n t : padded w n t -> numeral n t.
Proof. now intros []. Qed.
Lemma padded_len w n t k : padded w n t -> n < 10 ^ Z.of_nat k -> (w <= k)%nat -> (length t <= k)%nat.
Proof.
  intros [(F & N & V) H] L W. destruct H as [H|[H D]]; [lia|].
  destruct t as [|a t]; [cbn in H; lia|].
  inversion F as [|? ? Da Fr]; subst. pose proof (digits_value_bound _ Fr) as B.
  destruct (le_lt_dec (length (a :: t)) k) as [G|G]; [easy|]. exfalso.
  cbn [hd] in D. unfold digit in Da. cbn [digits_value] in L. cbn [length] in G.
  assert (10 ^ Z.of_nat k <= 10 ^ Z.of_nat (length t)) by (apply Z.pow_le_mono_r; lia).
  set (q := 10 ^ Z.of_nat (length t)) in *. clearbody q.
  assert (1 * q <= (a - 48) * q) by (apply Z.mul_le_mono_nonneg_r; lia). lia.
Qed.
Lemma padded_len_ge w n t : padded w n t -> (w <= length t)%nat.
Proof. intros [_ [H|H]]; lia. Qed.
Lemma padded_len2 n t : padded 2 n t -> n < 100 -> length t = 2%nat.
Proof.
  intros P L. pose proof (padded_len _ _ _ 2 P L ltac:(lia)). pose proof (padded_len_ge _ _ _ P). lia.
Qed.

(** Two texts of the same number with the same padding are equal. *)
Lemma digits_value_inj a b : Forall digit a -> Forall digit b -> length a = length b ->
  digits_value a = digits_value b -> a = b.
Proof.
  revert b. induction a as [|x a IH]; intros [|y b] Fa Fb L V; try discriminate; [easy|].
  inversion Fa; inversion Fb; subst. cbn [length] in L. injection L as L.
  cbn [digits_value] in V. rewrite L in V.
  pose proof (digits_value_bound a ltac:(easy)) as Ba. pose proof (digits_value_bound b ltac:(easy)) as Bb.
  rewrite L in Ba. set (q := 10 ^ Z.of_nat (length b)) in *. clearbody q.
  assert (x = y) by (assert (x - 48 < y - 48 \/ x - 48 > y - 48 \/ x = y) as [|[|]] by lia; [nia|nia|easy]).
  subst. f_equal. apply IH; auto. lia.
Qed.
Lemma padded_fun w n a b : padded w n a -> padded w n b -> a = b.
Proof.
  intros [(Fa & Na & Va) La] [(Fb & Nb & Vb) Lb].
  apply digits_value_inj; auto; [|congruence].
  assert (forall p q, Forall digit p -> Forall digit q -> digits_value p = digits_value q ->
    hd 0 q <> 48 -> (length p < length q)%nat -> False) as K.
  { intros p q Fp Fq V H L. destruct q as [|c r]; [cbn in L; lia|]. cbn [hd] in H.
    inversion Fq; subst. pose proof (digits_value_bound p Fp) as Bp.
    pose proof (digits_value_bound r ltac:(easy)) as Br. cbn [digits_value] in V. cbn [length] in L.
    assert (10 ^ Z.of_nat (length p) <= 10 ^ Z.of_nat (length r)) by (apply Z.pow_le_mono_r; lia).
    unfold digit in *. nia. }
  destruct La as [La|[La Ha]], Lb as [Lb|[Lb Hb]]; try congruence.
  - exfalso. apply (K a b); auto; (congruence || lia).
  - exfalso. apply (K b a); auto; (congruence || lia).
  - destruct (Nat.lt_trichotomy (length a) (length b)) as [G|[G|G]]; [|easy|]; exfalso;
      [apply (K a b)|apply (K b a)]; auto; congruence.
Qed.

Lemma seconds_len w s us t k : seconds_text w s us t -> s < 10 ^ Z.of_nat k -> (w <= k)%nat ->
  (length t <= k + 7)%nat.
Proof.
  intros (ds & P & H) L W. pose proof (padded_len _ _ _ _ P L W) as B.
  destruct H as [[_ ->]|[_ (fr & (F & N & Lf & V & D) & ->)]]; [lia|].
  rewrite app_length. cbn [length]. lia.
Qed.
Lemma clock_len w h mi s us t k : clock_text w h mi s us t -> h < 10 ^ Z.of_nat k -> (w <= k)%nat ->
  mi < 100 -> s < 100 -> (length t <= k + 13)%nat.
Proof.
  intros (th & tmi & ts & Ph & Pm & Ps & ->) Lh W Lm Ls.
  pose proof (padded_len _ _ _ _ Ph Lh W). pose proof (padded_len2 _ _ Pm Lm).
  pose proof (seconds_len _ _ _ _ 2 Ps Ls ltac:(lia)).
  rewrite app_length. cbn [length]. rewrite app_length. cbn [length]. lia.
Qed.

Lemma append_seconds_ok md sec us fill : -2147483648 < sec <= 2147483647 -> -1000000 < us < 1000000 ->
  exists t, append_seconds md sec us 6 fill = Ok t
    /\ seconds_text (if fill then 2 else 1) (Z.abs sec) (Z.abs us) t.
Proof.
  intros Hs Hu. unfold append_seconds. ar.
  assert (exists ds, (if fill then pg_ltostr_zeropad md (Z.abs sec) 2 else pg_ltostr (Z.abs sec)) = Ok ds
    /\ padded (if fill then 2 else 1) (Z.abs sec) ds) as (ds & E & P).
  { destruct fill.
    - destruct (zeropad_ok md 2 (Z.abs sec) ltac:(lia) ltac:(rng; lia)) as (t & E & P & _). eauto.
    - destruct (pg_ltostr_nonneg (Z.abs sec) ltac:(lia)) as (t & E & P & _). exists t.
      split; [easy|]. now apply decimal_padded1. }
  rewrite E. cbn [bind]. destruct (Z.eqb_spec us 0) as [->|N]; cbn [negb].
  - exists ds. split; [easy|]. exists ds. split; [easy|]. left. easy.
  - ar. destruct (frac_digits_fraction 6 (Z.abs us)) as (fr & Ef & Ff); [change (10 ^ Z.of_nat 6) with 1000000; lia|].
    rewrite Ef. change (negb (0 =? 0)) with false. cbv iota. exists (ds ++ 46 :: fr). split; [easy|].
    exists ds. split; [easy|]. right. split; [lia|]. eauto.
Qed.

Lemma hms_ok md tm us : 0 <= tm_hour tm <= i32_max -> 0 <= tm_min tm <= i32_max -> 0 <= tm_sec tm <= i32_max ->
  0 <= us < 1000000 ->
  exists t, hms_text md tm us = Ok t /\ clock_text 2 (tm_hour tm) (tm_min tm) (tm_sec tm) us t.
Proof.
  intros Hh Hm Hs Hu. unfold hms_text.
  destruct (zeropad_ok md 2 (tm_hour tm) ltac:(lia) Hh) as (th & -> & Ph & _). cbn [bind].
  destruct (zeropad_ok md 2 (tm_min tm) ltac:(lia) Hm) as (tmi & -> & Pm & _). cbn [bind].
  destruct (append_seconds_ok md (tm_sec tm) us true) as (ts & E & Ps); [rng; lia|lia|].
  unfold MAX_PRECISION. rewrite E. cbn [bind]. rewrite (Z.abs_eq (tm_sec tm)), (Z.abs_eq us) in Ps by lia.
  eexists. split; [easy|]. exists th, tmi, ts. auto.
Qed.

Lemma fits_ok t : (length t <= 128)%nat -> fits t = Ok t.
Proof. intros H. unfold fits. destruct (Z.leb_spec (Z.of_nat (length t)) 128); [easy|lia]. Qed.

(** ** Time *)
Lemma time_fields md t : 0 <= t <= usecs_day ->
  exists h mi s us, time_to_pgtime md t = Ok (mkTm s mi h 0 0 0 0 0 (-1), us)
    /\ 0 <= h <= 24 /\ 0 <= mi < 60 /\ 0 <= s < 60 /\ 0 <= us < 1000000 /\ clock h mi s us = t
    /\ (h = 24 -> mi = 0 /\ s = 0 /\ us = 0).
Proof.
  intros H. exists (hour_of t), (min_of t), (sec_of t), (usec_of t).
  unfold time_to_pgtime. rewrite date2time_ok by easy. cbn [bind]. split; [reflexivity|].
  destruct (Z.eq_dec t usecs_day) as [->|N].
  - repeat split; vm_compute; intuition congruence.
  - destruct (clock_split t ltac:(lia)) as [C E]. unfold clock_ok in C. repeat split; try lia.
Qed.

Lemma time_format_ok md t : 0 <= t <= usecs_day ->
  exists h mi s us txt, time_format md t = Ok txt /\ clock_text 2 h mi s us txt
    /\ 0 <= h <= 24 /\ 0 <= mi < 60 /\ 0 <= s < 60 /\ 0 <= us < 1000000 /\ clock h mi s us = t
    /\ (h = 24 -> mi = 0 /\ s = 0 /\ us = 0).
Proof.
  intros H. destruct (time_fields md t H) as (h & mi & s & us & E & R).
  unfold time_format. rewrite E. cbn [bind fst snd].
  destruct (hms_ok md (mkTm s mi h 0 0 0 0 0 (-1)) us) as (txt & Et & C); cbn [tm_hour tm_min tm_sec]; rng; try lia.
  rewrite Et. cbn [bind]. cbn [tm_hour tm_min tm_sec] in C.
  exists h, mi, s, us, txt. split; [|easy]. apply fits_ok.
  pose proof (clock_len _ _ _ _ _ _ 2 C ltac:(change (10 ^ Z.of_nat 2) with 100; lia) ltac:(lia) ltac:(lia) ltac:(lia)). lia.
Qed.

(** ** Dates *)
Lemma shown_year_ok md y : -2147483647 < y <= 2147483647 -> shown_year md y = Ok (era_year y).
Proof.
  intros H. unfold shown_year, era_year. destruct (Z.ltb_spec 0 y); [easy|]. ar. f_equal. lia.
Qed.
Lemma bc_suffix_ok y : bc_suffix y = era_suffix y.
Proof. unfold bc_suffix, era_suffix. destruct (Z.leb_spec y 0), (Z.ltb_spec 0 y); try lia; reflexivity. Qed.

Lemma two_two_year_ok md a c1 b c2 y : 0 <= a <= i32_max -> 0 <= b <= i32_max -> -2147483640 < y <= 2147483647 ->
  exists t, two_two_year md a c1 b c2 y = Ok t /\ three 2 a c1 2 b c2 4 (era_year y) t.
Proof.
  intros Ha Hb Hy. unfold two_two_year.
  destruct (zeropad_ok md 2 a ltac:(lia) Ha) as (ta & -> & Pa & _). cbn [bind].
  destruct (zeropad_ok md 2 b ltac:(lia) Hb) as (tb & -> & Pb & _). cbn [bind].
  rewrite shown_year_ok by lia. cbn [bind].
  destruct (zeropad_ok md 4 (era_year y) ltac:(lia)) as (ty & -> & Py & _).
  { unfold era_year. rng. destruct (Z.ltb_spec 0 y); lia. }
  cbn [bind]. eexists. split; [easy|]. exists ta, tb, ty. auto.
Qed.
Lemma iso_ymd_ok md tm : 0 <= tm_mon tm <= i32_max -> 0 <= tm_mday tm <= i32_max ->
  -2147483640 < tm_year tm <= 2147483647 ->
  exists t, iso_ymd md tm = Ok t
    /\ three 4 (era_year (tm_year tm)) 45 2 (tm_mon tm) 45 2 (tm_mday tm) t.
Proof.
  intros Ha Hb Hy. unfold iso_ymd. rewrite shown_year_ok by lia. cbn [bind].
  destruct (zeropad_ok md 4 (era_year (tm_year tm)) ltac:(lia)) as (ty & -> & Py & _).
  { unfold era_year. rng. destruct (Z.ltb_spec 0 (tm_year tm)); lia. }
  cbn [bind].
  destruct (zeropad_ok md 2 (tm_mon tm) ltac:(lia) Ha) as (ta & -> & Pa & _). cbn [bind].
  destruct (zeropad_ok md 2 (tm_mday tm) ltac:(lia) Hb) as (tb & -> & Pb & _). cbn [bind].
  eexists. split; [easy|]. exists ty, ta, tb. auto.
Qed.

Lemma three_len wa a c1 wb b c2 wc c t ka kb kc : three wa a c1 wb b c2 wc c t ->
  a < 10 ^ Z.of_nat ka -> (wa <= ka)%nat -> b < 10 ^ Z.of_nat kb -> (wb <= kb)%nat ->
  c < 10 ^ Z.of_nat kc -> (wc <= kc)%nat -> (length t <= ka + kb + kc + 2)%nat.
Proof.
  intros (ta & tb & tc & Pa & Pb & Pc & ->) La Wa Lb Wb Lc Wc.
  pose proof (padded_len _ _ _ _ Pa La Wa). pose proof (padded_len _ _ _ _ Pb Lb Wb).
  pose proof (padded_len _ _ _ _ Pc Lc Wc).
  rewrite app_length. cbn [length]. rewrite app_length. cbn [length]. lia.
Qed.
Lemma era_suffix_len y : (length (era_suffix y) <= 3)%nat.
Proof. unfold era_suffix. destruct (0 <? y); cbn; lia. Qed.

Lemma date_layout_len style order y m d t : date_layout style order (y, m, d) t ->
  -999999998 <= y <= 999999999 -> m < 100 -> d < 100 -> (length t <= 15)%nat.
Proof.
  intros H Y M D.
  assert (era_year y < 10 ^ Z.of_nat 9) as E.
  { change (10 ^ Z.of_nat 9) with 1000000000. unfold era_year. destruct (Z.ltb_spec 0 y); lia. }
  assert (m < 10 ^ Z.of_nat 2) by (change (10 ^ Z.of_nat 2) with 100; lia).
  assert (d < 10 ^ Z.of_nat 2) by (change (10 ^ Z.of_nat 2) with 100; lia).
  destruct style; cbn in H; try (destruct order; cbn in H);
  first [ pose proof (three_len _ _ _ _ _ _ _ _ _ 9 2 2 H ltac:(assumption) ltac:(lia) ltac:(assumption) ltac:(lia) ltac:(assumption) ltac:(lia))
        | pose proof (three_len _ _ _ _ _ _ _ _ _ 2 2 9 H ltac:(assumption) ltac:(lia) ltac:(assumption) ltac:(lia) ltac:(assumption) ltac:(lia)) ]; lia.
Qed.

Lemma format_date_ok md tm style order : 1 <= tm_mon tm <= 12 -> 1 <= tm_mday tm <= 31 ->
  -2147483640 < tm_year tm <= 2147483647 ->
  exists t, format_date md tm style order = Ok (t ++ era_suffix (tm_year tm))
    /\ date_layout style order (tm_year tm, tm_mon tm, tm_mday tm) t.
Proof.
  intros Hm Hd Hy. unfold format_date.
  assert (mon_ok tm = true) as -> by (unfold mon_ok, MONTHS_PER_YEAR; lia).
  assert (debug_assert md true = Ok tt) as -> by now destruct md. cbn [bind].
  rewrite bc_suffix_ok.
  pose proof (iso_ymd_ok md tm ltac:(rng; lia) ltac:(rng; lia) Hy) as (ti & Ei & Pi).
  assert (forall c1 c2, exists t, two_two_year md (tm_mday tm) c1 (tm_mon tm) c2 (tm_year tm) = Ok t
    /\ three 2 (tm_mday tm) c1 2 (tm_mon tm) c2 4 (era_year (tm_year tm)) t) as D
    by (intros; apply two_two_year_ok; rng; lia).
  assert (forall c1 c2, exists t, two_two_year md (tm_mon tm) c1 (tm_mday tm) c2 (tm_year tm) = Ok t
    /\ three 2 (tm_mon tm) c1 2 (tm_mday tm) c2 4 (era_year (tm_year tm)) t) as M
    by (intros; apply two_two_year_ok; rng; lia).
  destruct style; cbn [date_layout].
  - destruct order; cbn [is_dmy];
      [destruct (M 46 46) as (t & E & P)|destruct (D 45 46) as (t & E & P)|destruct (M 46 46) as (t & E & P)];
      rewrite E; cbn [bind]; eauto.
  - rewrite Ei. cbn [bind]. eauto.
  - destruct order; cbn [is_dmy];
      [destruct (M 47 47) as (t & E & P)|destruct (D 47 47) as (t & E & P)|destruct (M 47 47) as (t & E & P)];
      rewrite E; cbn [bind]; eauto.
  - destruct (D 46 46) as (t & E & P). rewrite E; cbn [bind]; eauto.
  - rewrite Ei. cbn [bind]. eauto.
Qed.

Lemma valid_ymd_bounds y m d : valid_ymd (y, m, d) -> 1 <= m <= 12 /\ 1 <= d <= 31.
Proof. intros [Hm Hd]. pose proof (month_len_bounds y m Hm). lia. Qed.

Lemma date_format_ok md d style order : valid_date d ->
  exists c t, date_format md d style order = Ok (t ++ era_suffix (fst (fst c)))
    /\ valid_ymd c /\ day_number c d /\ date_layout style order c t /\ -4713 <= fst (fst c) <= 5874897.
Proof.
  intros V. destruct (date_calendar md d V) as ([[y m] dd] & E & Vc & N & R1 & R2).
  assert (0 <= J (y, m, dd) <= 2147483493) as JB by (apply in_range_J; auto).
  destruct (J_year_bounds y m dd Vc JB) as [YB _].
  destruct (valid_ymd_bounds _ _ _ Vc) as [Bm Bd].
  exists (y, m, dd). unfold date_format. rewrite valid_date_finite by easy. cbn [negb].
  unfold POSTGRES_EPOCH_JDATE in *. unfold valid_date in V. ar. rewrite E. cbn [bind].
  destruct (format_date_ok md (set_ymd y m dd tm_new) style order) as (t & Et & P);
    [exact Bm|exact Bd|cbn; lia|].
  rewrite Et. cbn [bind]. exists t. split; [|easy]. apply fits_ok. rewrite app_length.
  change (tm_year (set_ymd y m dd tm_new)) with y. pose proof (era_suffix_len y).
  pose proof (date_layout_len style order _ _ _ _ P ltac:(cbn; lia) ltac:(cbn; lia) ltac:(cbn; lia)). cbn [fst]. lia.
Qed.

(** ** Timestamps *)
Lemma month_name_ok md m : 1 <= m <= 12 -> get_month_name md m = Ok (month_abbr m) /\ length (month_abbr m) = 3%nat.
Proof. intros H. month12 H; split; reflexivity. Qed.

Lemma format_date_time_ok md tm us style order :
  valid_ymd (tm_year tm, tm_mon tm, tm_mday tm) -> -4713 <= tm_year tm <= 294276 ->
  0 <= J (tm_year tm, tm_mon tm, tm_mday tm) < 109203528 ->
  clock_ok (tm_hour tm) (tm_min tm) (tm_sec tm) us ->
  exists t, format_date_time md tm order us style = Ok (t ++ era_suffix (tm_year tm))
    /\ ts_layout style order (tm_year tm, tm_mon tm, tm_mday tm) (tm_hour tm) (tm_min tm) (tm_sec tm) us t.
Proof.
  intros V Hy HJ C. unfold clock_ok in C. destruct (valid_ymd_bounds _ _ _ V) as [Hm Hd].
  destruct (hms_ok md tm us ltac:(rng; lia) ltac:(rng; lia) ltac:(rng; lia) ltac:(lia)) as (tc & Ec & Pc).
  destruct (format_date_ok md tm style order Hm Hd ltac:(lia)) as (td & Ed & Pd).
  unfold format_date in Ed. unfold format_date_time.
  assert (mon_ok tm = true) as Mo by (unfold mon_ok, MONTHS_PER_YEAR; lia). rewrite Mo in *.
  assert (debug_assert md true = Ok tt) as Da by now destruct md. rewrite Da in *. cbn [bind] in *.
  rewrite bc_suffix_ok in *. unfold ts_layout.
  assert (forall a b : bytes, Ok (a ++ era_suffix (tm_year tm)) = Ok (b ++ era_suffix (tm_year tm)) -> a = b) as Inj.
  { intros a b H. injection H as H. now apply app_inv_tail in H. }
  destruct style.
  - clear Pd Ed Inj.
    rewrite date2julian_ok by lia. cbn [bind].
    set (j := J (tm_year tm, tm_mon tm, tm_mday tm)) in *.
    assert (day_number (tm_year tm, tm_mon tm, tm_mday tm) (j - 2451545)) as DN by (apply day_number_J; [easy|lia]).
    set (w := (j - 2451545 + 6) mod 7). assert (0 <= w <= 6) as Bw by (subst w; lia).
    assert (julian_to_week_day md j = Ok w) as ->.
    { unfold julian_to_week_day. ar. destruct (Z.ltb_spec (Z.rem (j + 1) 7) 0); [lia|]. f_equal. subst w. lia. }
    cbn [bind].
    assert (get_wday_name w = Ok (wday_abbr w)) as ->.
    { clearbody w. assert (w = 0 \/ w = 1 \/ w = 2 \/ w = 3 \/ w = 4 \/ w = 5 \/ w = 6) as K by lia.
      repeat (destruct K as [->|K]; [reflexivity|]); subst; reflexivity. }
    cbn [bind].
    destruct (zeropad_ok md 2 (tm_mday tm) ltac:(lia) ltac:(rng; lia)) as (tdd & -> & Pdd & _). cbn [bind].
    destruct (month_name_ok md (tm_mon tm) Hm) as [-> _]. cbn [bind]. rewrite Ec. cbn [bind].
    rewrite shown_year_ok by lia. cbn [bind].
    destruct (zeropad_ok md 4 (era_year (tm_year tm)) ltac:(lia)) as (ty & -> & Py & _).
    { unfold era_year. rng. destruct (Z.ltb_spec 0 (tm_year tm)); lia. }
    cbn [bind]. eexists. split; [reflexivity|]. exists tc. split; [easy|]. exists (j - 2451545), tdd, ty.
    split; [easy|]. split; [easy|]. split; [easy|]. destruct order; reflexivity.
  - apply bind_inv in Ed as (a & Ea & Eb). rewrite Ea. cbn [bind]. rewrite Ec. cbn [bind].
    apply Inj in Eb. subst a. eexists. split; [reflexivity|]. exists tc. split; [easy|]. eauto.
  - apply bind_inv in Ed as (a & Ea & Eb). rewrite Ea. cbn [bind]. rewrite Ec. cbn [bind].
    apply Inj in Eb. subst a. eexists. split; [reflexivity|]. exists tc. split; [easy|]. eauto.
  - apply bind_inv in Ed as (a & Ea & Eb). rewrite Ea. cbn [bind]. rewrite Ec. cbn [bind].
    apply Inj in Eb. subst a. eexists. split; [reflexivity|]. exists tc. split; [easy|]. eauto.
  - apply bind_inv in Ed as (a & Ea & Eb). rewrite Ea. cbn [bind]. rewrite Ec. cbn [bind].
    apply Inj in Eb. subst a. eexists. split; [reflexivity|]. exists tc. split; [easy|]. eauto.
Qed.

Lemma wday_abbr_len w : 0 <= w <= 6 -> length (wday_abbr w) = 3%nat.
Proof.
  intros H. assert (w = 0 \/ w = 1 \/ w = 2 \/ w = 3 \/ w = 4 \/ w = 5 \/ w = 6) as K by lia.
  repeat (destruct K as [->|K]; [reflexivity|]); subst; reflexivity.
Qed.

Lemma ts_layout_len style order y m d h mi s us t : ts_layout style order (y, m, d) h mi s us t ->
  -999999 <= y <= 999999 -> 1 <= m <= 12 -> d < 100 -> h < 100 -> mi < 100 -> s < 100 ->
  (length t <= 48)%nat.
Proof.
  intros (tc & C & H) Y M D Hh Hm Hs.
  pose proof (clock_len _ _ _ _ _ _ 2 C ltac:(change (10 ^ Z.of_nat 2) with 100; lia) ltac:(lia) Hm Hs) as Lc.
  assert (forall sep td, date_layout style order (y, m, d) td -> (length (td ++ sep :: tc) <= 48)%nat) as K.
  { intros sep td L. apply date_layout_len in L; try lia. rewrite app_length. cbn [length]. lia. }
  destruct style; try (destruct H as (td & L & ->); now apply K).
  destruct H as (n & td & ty & W & Pd & Py & ->).
  pose proof (wday_abbr_len ((n + 6) mod 7) ltac:(lia)). destruct (month_name_ok Debug m M) as [_ Lm].
  pose proof (padded_len2 _ _ Pd D).
  pose proof (padded_len _ _ _ 7 Py) as Ly. change (10 ^ Z.of_nat 7) with 10000000 in Ly.
  assert (era_year y < 10000000) by (unfold era_year; destruct (Z.ltb_spec 0 y); lia).
  specialize (Ly ltac:(easy) ltac:(lia)).
  destruct order; repeat (rewrite app_length; cbn [length]); lia.
Qed.

Lemma timestamp_format_ok md t style order : valid_ts t ->
  exists c h mi s us txt, timestamp_format md t style order = Ok (txt ++ era_suffix (fst (fst c)))
    /\ reading c h mi s us t /\ ts_layout style order c h mi s us txt /\ -4713 <= fst (fst c) <= 294276.
Proof.
  intros V. destruct (ts2t_reading md t V) as (c & h & mi & s & us & E & R).
  pose proof (reading_year_bounds _ _ _ _ _ _ R V) as B. destruct c as [[y m] d]. destruct B as (BJ & By & _ & Bm & Bd).
  exists (y, m, d), h, mi, s, us. unfold timestamp_format. rewrite valid_ts_finite by easy. cbn [negb].
  rewrite E. cbn [bind fst snd].
  destruct R as (Vc & C & R).
  destruct (format_date_time_ok md (mk (y, m, d) h mi s) us style order) as (txt & Et & L); try easy.
  rewrite Et. cbn [bind]. exists txt. split; [|split; [|split]]; [| |exact L|exact By].
  - apply fits_ok. rewrite app_length. pose proof (era_suffix_len y).
    change (tm_year (mk (y, m, d) h mi s)) with y. unfold clock_ok in C.
    apply ts_layout_len in L; cbn in L |- *; try lia.
  - split; auto.
Qed.
