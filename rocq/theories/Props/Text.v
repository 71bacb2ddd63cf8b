(** C31-C35: decimal numbers in text, and dates, times and timestamps that read back. *)
From Verif Require Import Model.Parse Spec.Calendar Spec.Ranges Spec.Clock Spec.Text
  Proofs.Arith Proofs.Cal Proofs.DateP Proofs.TsP Proofs.DigitsP Proofs.FormatP Proofs.ParseP Proofs.RoundTripP.
Open Scope Z_scope.

(** C31. *)
Theorem C31_shortest : forall v, in_i32 v -> exists t, pg_ltostr v = Ok t /\ int_text v t.
Proof. intros v H. destruct (pg_ltostr_ok v H) as (t & E & T & _). eauto. Qed.
Print Assumptions C31_shortest.
Theorem C31_padded : forall md w v, (0 < w)%nat -> 0 <= v <= i32_max ->
  exists t, pg_ltostr_zeropad md v w = Ok t /\ padded w v t.
Proof. intros md w v W H. destruct (zeropad_ok md w v W H) as (t & E & T & _). eauto. Qed.
Print Assumptions C31_padded.
(** These descriptions leave no choice. *)
Theorem C31_unique : forall v t u, int_text v t -> int_text v u -> t = u.
Proof.
  intros v t u. unfold int_text. destruct (v <? 0).
  - intros (a & -> & A) (b & -> & B). f_equal. apply (padded_fun 1 (- v)); now apply decimal_padded1.
  - intros A B. apply (padded_fun 1 v); now apply decimal_padded1.
Qed.
Print Assumptions C31_unique.
Theorem C31_padded_unique : forall w n t u, padded w n t -> padded w n u -> t = u.
Proof. exact padded_fun. Qed.
Print Assumptions C31_padded_unique.
(** The value can be read off the text, also by the library's own number reader. *)
Theorem C31_reads_back : forall v t, in_i32 v -> pg_ltostr v = Ok t -> str2i32 t = Ok (v, []).
Proof.
  intros v t H E. destruct (pg_ltostr_ok v H) as (t' & E' & T & L). rewrite E' in E. injection E as ->.
  unfold int_text in T. rng. destruct (Z.ltb_spec v 0).
  - destruct T as (ds & -> & [N _]). rewrite <- (app_nil_r ds). cbn [length] in L.
    replace v with (- - v) at 1 by lia. apply (str2i32_neg (- v) ds []); auto; [rng; lia|lia|exact I].
  - destruct T as [N _]. assert (length t <= 10)%nat.
    { destruct (pg_ltostr_nonneg v ltac:(lia)) as (ds & E2 & D2 & L2).
      rewrite E' in E2. injection E2 as ->. lia. }
    rewrite <- (app_nil_r t). apply str2i32_numeral; auto; [rng; lia|exact I].
Qed.
Print Assumptions C31_reads_back.

(** The complete texts. *)
Theorem C31_date_text : forall md d style order, valid_date d ->
  exists c t, date_format md d style order = Ok (t ++ era_suffix (fst (fst c)))
    /\ valid_ymd c /\ day_number c d /\ date_layout style order c t.
Proof. intros md d style order V. destruct (date_format_ok md d style order V) as (c & t & A & B & C & D & _). exists c, t. auto. Qed.
Print Assumptions C31_date_text.
Theorem C31_time_text : forall md t, 0 <= t <= usecs_day ->
  exists h mi s us txt, time_format md t = Ok txt /\ clock_text 2 h mi s us txt
    /\ clock h mi s us = t /\ 0 <= mi < 60 /\ 0 <= s < 60 /\ 0 <= us < 1000000.
Proof.
  intros md t H. destruct (time_format_ok md t H) as (h & mi & s & us & x & A & B & C & D & E & F & G & _).
  exists h, mi, s, us, x. auto 6.
Qed.
Print Assumptions C31_time_text.
Theorem C31_timestamp_text : forall md t style order, valid_ts t ->
  exists c h mi s us txt, timestamp_format md t style order = Ok (txt ++ era_suffix (fst (fst c)))
    /\ reading c h mi s us t /\ ts_layout style order c h mi s us txt.
Proof.
  intros md t style order V. destruct (timestamp_format_ok md t style order V) as (c & h & mi & s & us & x & A & B & C & _).
  exists c, h, mi, s, us, x. auto.
Qed.
Print Assumptions C31_timestamp_text.
Example C31_case : pg_ltostr i32_min = Ok (bs "-2147483648") /\ pg_ltostr 0 = Ok (bs "0")
  /\ pg_ltostr_zeropad Debug 7 4 = Ok (bs "0007") /\ pg_ltostr_zeropad Debug 5874897 4 = Ok (bs "5874897").
Proof. vm_compute. auto. Qed.

(** C32. *)
Theorem C32_roundtrip : forall md d style po ro, style = SISO \/ style = SXSD ->
  valid_date d \/ d = neg_inf_date \/ d = pos_inf_date ->
  exists txt, date_format md d style po = Ok txt /\ date_try_from_str md txt ro = Ok d.
Proof.
  intros md d style po ro Hs [V|I]; [|now apply date_reread_inf].
  destruct (date_format_ok md d style po V) as (c & t & E & _).
  exists (t ++ era_suffix (fst (fst c))). split; [exact E|].
  apply (date_reread md style po ro); auto. destruct Hs as [->| ->]; exact I.
Qed.
Print Assumptions C32_roundtrip.
Example C32_case : date_format Debug (-2451545) SISO DMY = Ok (bs "4714-11-24 BC")
  /\ date_try_from_str Debug (bs "4714-11-24 BC") MDY = Ok (-2451545) /\ valid_date (-2451545).
Proof. vm_compute. intuition congruence. Qed.

(** C33. *)
Theorem C33_roundtrip : forall md d style po ro, date_readable style po ro -> valid_date d ->
  exists txt, date_format md d style po = Ok txt /\ date_try_from_str md txt ro = Ok d.
Proof.
  intros md d style po ro R V. destruct (date_format_ok md d style po V) as (c & t & E & _).
  exists (t ++ era_suffix (fst (fst c))). split; [exact E|]. now apply (date_reread md style po ro).
Qed.
Print Assumptions C33_roundtrip.
Theorem C33_infinity : forall md d style po ro, d = neg_inf_date \/ d = pos_inf_date ->
  exists txt, date_format md d style po = Ok txt /\ date_try_from_str md txt ro = Ok d.
Proof. intros. now apply date_reread_inf. Qed.
Print Assumptions C33_infinity.
(** The Postgres style under DMY writes "dd-mm.yyyy", which no order reads. *)
Theorem C33_postgres_dmy_refuted : forall md d ro, valid_date d ->
  exists txt, date_format md d SPostgres DMY = Ok txt /\ date_try_from_str md txt ro = Err EInvalid.
Proof.
  intros md d ro V. destruct (date_format_ok md d SPostgres DMY V) as (c & t & E & _).
  exists (t ++ era_suffix (fst (fst c))). split; [exact E|]. now apply (date_postgres_dmy md d).
Qed.
Print Assumptions C33_postgres_dmy_refuted.
(** Under YMD the other styles are refused or read as a different day: 1 May of the year 15 comes
    back as 15 January 2005 (SQL), 1 May 2020 not at all. *)
Theorem C33_ymd_refuted : ~ (forall md d style txt, valid_date d ->
  date_format md d style YMD = Ok txt -> date_try_from_str md txt YMD = Ok d).
Proof.
  intros H. specialize (H Debug 7426 SSQL (bs "05/01/2020") ltac:(vm_compute; intuition congruence) ltac:(vm_compute; reflexivity)).
  vm_compute in H. discriminate.
Qed.
Print Assumptions C33_ymd_refuted.
Theorem C33_ymd_other_day_refuted : exists d d' txt, valid_date d /\ d <> d' /\
  date_format Debug d SSQL YMD = Ok txt /\ date_try_from_str Debug txt YMD = Ok d'.
Proof.
  exists (-724886), 1841, (bs "05/01/0015"). split; [vm_compute; intuition congruence|].
  split; [discriminate|]. vm_compute. auto.
Qed.
Print Assumptions C33_ymd_other_day_refuted.
Example C33_case : date_format Debug 7426 SSQL DMY = Ok (bs "01/05/2020")
  /\ date_try_from_str Debug (bs "01/05/2020") DMY = Ok 7426
  /\ date_format Debug 7426 SGerman MDY = Ok (bs "01.05.2020")
  /\ date_format Debug 7426 SPostgres MDY = Ok (bs "05.01.2020").
Proof. vm_compute. auto. Qed.

(** C34. *)
Theorem C34_roundtrip : forall md t order, 0 <= t <= usecs_day ->
  exists txt, time_format md t = Ok txt /\ time_try_from_str md txt (-1) order = Ok t.
Proof.
  intros md t order H. destruct (time_format_ok md t H) as (h & mi & s & us & x & A & _).
  exists x. split; [exact A|]. now rewrite (time_reread md t x (-1) order H A).
Qed.
Print Assumptions C34_roundtrip.
(** With a precision, reading rounds the value to that precision and nothing else. *)
Theorem C34_typmod : forall md t order txt typmod, 0 <= t <= usecs_day -> time_format md t = Ok txt ->
  time_try_from_str md txt typmod order = time_adjust_by_typmod md t typmod.
Proof. intros md t order txt typmod H E. exact (time_reread md t txt typmod order H E). Qed.
Print Assumptions C34_typmod.
Example C34_case : time_format Debug 86399999990 = Ok (bs "23:59:59.99999")
  /\ time_try_from_str Debug (bs "23:59:59.99999") (-1) YMD = Ok 86399999990
  /\ time_try_from_str Debug (bs "24:00:00") (-1) YMD = Ok usecs_day.
Proof. vm_compute. auto. Qed.

(** C35. *)
Theorem C35_roundtrip : forall md t style po ro, valid_ts t ->
  (forall c h mi s us, reading c h mi s us t -> ts_readable style po ro c) ->
  exists txt, timestamp_format md t style po = Ok txt /\ timestamp_try_from_str md txt (-1) ro = Ok t.
Proof.
  intros md t style po ro V R. destruct (timestamp_format_ok md t style po V) as (c & h & mi & s & us & x & A & _).
  exists (x ++ era_suffix (fst (fst c))). split; [exact A|].
  rewrite (ts_reread md style po ro t _ (-1) V R A). unfold timestamp_adjust_by_typmod.
  change (-1 =? -1) with true. cbn [negb]. now rewrite andb_false_r.
Qed.
Print Assumptions C35_roundtrip.
Theorem C35_iso : forall md t style po ro, style = SISO \/ style = SXSD ->
  valid_ts t \/ t = neg_inf_ts \/ t = pos_inf_ts ->
  exists txt, timestamp_format md t style po = Ok txt /\ timestamp_try_from_str md txt (-1) ro = Ok t.
Proof.
  intros md t style po ro Hs [V|I]; [|now apply ts_reread_inf].
  apply C35_roundtrip; auto. intros. destruct Hs as [->| ->]; exact I.
Qed.
Print Assumptions C35_iso.
Theorem C35_infinity : forall md t style po ro, t = neg_inf_ts \/ t = pos_inf_ts ->
  exists txt, timestamp_format md t style po = Ok txt /\ timestamp_try_from_str md txt (-1) ro = Ok t.
Proof. intros. now apply ts_reread_inf. Qed.
Print Assumptions C35_infinity.
Theorem C35_typmod : forall md t style po ro txt typmod, valid_ts t ->
  (forall c h mi s us, reading c h mi s us t -> ts_readable style po ro c) ->
  timestamp_format md t style po = Ok txt ->
  timestamp_try_from_str md txt typmod ro = timestamp_adjust_by_typmod md t typmod.
Proof. intros md t style po ro txt typmod V R E. now apply (ts_reread md style po ro). Qed.
Print Assumptions C35_typmod.
(** Every timestamp in February prints, in the Postgres style, a text that no order reads. *)
Theorem C35_february_refuted : forall md po ro t y d h mi s us, valid_ts t ->
  reading (y, 2, d) h mi s us t ->
  exists txt, timestamp_format md t SPostgres po = Ok txt
    /\ timestamp_try_from_str md txt (-1) ro = Err EInvalid.
Proof.
  intros md po ro t y d h mi s us V R. destruct (timestamp_format_ok md t SPostgres po V) as (c & ? & ? & ? & ? & x & A & _).
  exists (x ++ era_suffix (fst (fst c))). split; [exact A|].
  apply (ts_february md po ro t _ (-1) y d h mi s us V R A).
Qed.
Print Assumptions C35_february_refuted.
Example C35_case : timestamp_format Debug 646401600123456 SPostgres DMY = Ok (bs "Thu 25 Jun 12:00:00.123456 2020")
  /\ timestamp_try_from_str Debug (bs "Thu 25 Jun 12:00:00.123456 2020") (-1) MDY = Ok 646401600123456
  /\ timestamp_format Debug (-211813488000000000) SXSD YMD = Ok (bs "4714-11-24T00:00:00 BC")
  /\ timestamp_try_from_str Debug (bs "4714-11-24T00:00:00 BC") (-1) DMY = Ok (-211813488000000000)
  /\ valid_ts 646401600123456.
Proof. vm_compute. intuition congruence. Qed.
Example C35_february_case : exists t y d, valid_ts t /\ reading (y, 2, d) 10 0 0 0 t.
Proof.
  exists 634384800000000, 2020, 7. split; [vm_compute; intuition congruence|].
  split; [vm_compute; intuition congruence|]. split; [vm_compute; intuition congruence|].
  exists 7342. split; [apply day_number_J; [vm_compute; intuition congruence|vm_compute; reflexivity]|vm_compute; reflexivity].
Qed.
