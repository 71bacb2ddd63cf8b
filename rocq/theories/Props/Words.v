(** What times of day, dates and timestamps written by people mean: C55 to C57. *)
From Coq Require Import String.
From Verif Require Import Model.Parse Spec.Calendar Spec.Ranges Spec.Text Spec.DateText Spec.TimeText Spec.Keywords
  Spec.DateWords Proofs.Cal Proofs.DateP Proofs.ClockTextP Proofs.DateWordsP Proofs.DateTimeWordsP.
From Coq Require Import List ZArith Bool Lia.
Import ListNotations.
Open Scope Z_scope.

(** ** C55: times of day *)

(** "h:m", "h:m:s", "h:m:s.f" and "m:s.f" with or without AM or PM mean that time of day, and are
    refused if there is no such time. *)
Theorem C55_time : forall md t h mi s us x order, time_words t h mi s us ->
  match meant_clock x h mi s us with
  | Some c => time_try_from_str md (t ++ half_text x) (-1) order = Ok c
  | None => exists e, time_try_from_str md (t ++ half_text x) (-1) order = Err e
  end.
Proof.
  intros md t h mi s us x order W. pose proof (time_text md t h mi s us x (-1) order W) as E.
  destruct (meant_clock x h mi s us); [exact E|eauto].
Qed.
Print Assumptions C55_time.
(** A precision adjusts the time meant, and refuses no more. *)
Theorem C55_time_typmod : forall md t h mi s us x p order c, time_words t h mi s us ->
  meant_clock x h mi s us = Some c ->
  time_try_from_str md (t ++ half_text x) p order = time_adjust_by_typmod md c p.
Proof.
  intros md t h mi s us x p order c W M. pose proof (time_text md t h mi s us x p order W) as E.
  now rewrite M in E.
Qed.
Print Assumptions C55_time_typmod.
(** Midnight is 12 AM and noon is 12 PM. *)
Theorem C55_twelve : forall md blank order,
  time_try_from_str md (bs "12:00" ++ half_text (HalfAM blank)) (-1) order = Ok 0
  /\ time_try_from_str md (bs "12:00" ++ half_text (HalfPM blank)) (-1) order = Ok 43200000000.
Proof.
  intros md blank order.
  assert (time_words (bs "12:00") 12 0 0 0) as W.
  { apply (TW_hm [49; 50] [48; 48]); (split; [repeat constructor; unfold digit; lia|cbn; lia]). }
  split; [exact (C55_time md _ _ _ _ _ (HalfAM blank) order W)|exact (C55_time md _ _ _ _ _ (HalfPM blank) order W)].
Qed.
Print Assumptions C55_twelve.

Ltac digs := split; [repeat constructor; unfold digit; lia|cbn; lia].
Example C55_case :
  time_words (bs "4:05:06.789") 4 5 6 789000 /\ meant_clock (HalfPM true) 4 5 6 789000 = Some 57906789000
  /\ time_words (bs "05:06.5") 0 5 6 500000 /\ meant_clock (HalfPM true) 13 5 0 0 = None
  /\ time_try_from_str Debug (bs "4:05:06.789 PM") (-1) YMD = Ok 57906789000
  /\ time_try_from_str Debug (bs "4:05:06.789 PM") 1 YMD = Ok 57906800000
  /\ time_try_from_str Debug (bs "05:06.5") (-1) YMD = Ok 306500000
  /\ time_try_from_str Debug (bs "13:05PM") (-1) YMD = Err EOverflow.
Proof.
  split; [apply (TW_hmsf [52] [48; 53] [48; 54] [55; 56; 57]); digs|]. split; [reflexivity|].
  split; [apply (TW_msf [48; 53] [48; 54] [53]); digs|]. vm_compute. auto 8.
Qed.

(** ** C56: dates *)

(** A date in any of the layouts of [date_words], then possibly a time of day, then possibly an era:
    the result is the day meant; the time is checked and otherwise ignored. *)
Theorem C56_date : forall md order glue td Y m d tt c e n,
  date_words order glue td Y m d -> DateWords.time_part glue tt c ->
  date_try_from_str md (td ++ tt ++ era_text e) order = Ok n <-> meant_day e Y m d n /\ c <> None /\ valid_date n.
Proof.
  intros md order glue td Y m d tt c e n Dw Tp.
  destruct (date_words_value md order glue td Y m d tt c e Dw Tp) as [H1 H2]. split.
  - intros E.
    assert (forall k, meant_day e Y m d k -> c <> None -> valid_date k -> k = n) as U.
    { intros k K1 K2 K3. specialize (H1 k K1 K2 K3). congruence. }
    destruct (date_words_value md order glue td Y m d tt c e Dw Tp) as [_ H3].
    assert (~ (forall k, meant_day e Y m d k -> c <> None -> ~ valid_date k)) as N.
    { intros N. destruct (H3 N) as [er E']. congruence. }
    assert (exists k, meant_day e Y m d k /\ c <> None /\ valid_date k) as (k & K1 & K2 & K3); [|now rewrite <- (U k K1 K2 K3)].
    destruct c as [c|].
    2:{ exfalso. apply N. intros k _ C. now destruct C. }
    destruct (meant_year e Y) as [y|] eqn:My.
    2:{ exfalso. apply N. intros k (y & Q & _). congruence. }
    destruct (validb y m d) eqn:V.
    2:{ exfalso. apply N. intros k (y' & Q & V' & _). apply validb_spec in V'. congruence. }
    apply validb_spec in V. exists (J (y, m, d) - 2451545).
    assert (meant_day e Y m d (J (y, m, d) - 2451545)) as M.
    { exists y. split; [exact My|]. split; [exact V|]. apply day_number_J; [exact V|lia]. }
    split; [exact M|]. split; [discriminate|].
    destruct (Z.le_gt_cases (-2451545) (J (y, m, d) - 2451545)), (Z.le_gt_cases (J (y, m, d) - 2451545) 2145031948);
      [split; assumption| | |]; exfalso; apply N; intros k (y' & Q & V' & Dn) _; rewrite My in Q; injection Q as <-;
      apply day_number_J in Dn; try exact V; unfold valid_date; lia.
  - intros (M & C & V). now apply H1.
Qed.
Print Assumptions C56_date.
(** Otherwise the text is refused with an error, without a panic. *)
Theorem C56_refused : forall md order glue td Y m d tt c e,
  date_words order glue td Y m d -> DateWords.time_part glue tt c ->
  (forall n, ~ (meant_day e Y m d n /\ c <> None /\ valid_date n)) ->
  exists er, date_try_from_str md (td ++ tt ++ era_text e) order = Err er.
Proof.
  intros md order glue td Y m d tt c e Dw Tp N.
  destruct (date_words_value md order glue td Y m d tt c e Dw Tp) as [_ H2]. apply H2. intros n M C V. apply (N n). auto.
Qed.
Print Assumptions C56_refused.
(** The day meant is unique, so the order of the session decides between readings. *)
Theorem C56_unique : forall e Y m d n k, meant_day e Y m d n -> meant_day e Y m d k -> n = k.
Proof.
  intros e Y m d n k (y & My & V & D1) (y' & My' & _ & D2). rewrite My in My'. injection My' as <-.
  apply day_number_J in D1; [|exact V]. apply day_number_J in D2; [|exact V]. lia.
Qed.
Print Assumptions C56_unique.

Lemma jan : month_name (bs "JANuary") 1.
Proof. exists (bs "january"). split; [cbn; tauto|]. unfold any_case. cbn. repeat (apply Forall2_cons; [lia|]). apply Forall2_nil. Qed.
Example C56_case :
  date_words MDY true (bs "JANuary 8, 1999") (bs "1999") 1 8
  /\ meant_day Unmarked (bs "1999") 1 8 (-358)
  /\ meant_day MarkedBC (bs "1999") 1 8 (-1460232)
  /\ date_words MDY false (bs "8-JANuary-99") (bs "99") 1 8
  /\ date_try_from_str Debug (bs "JANuary 8, 1999") MDY = Ok (-358)
  /\ date_try_from_str Debug (bs "8-JANuary-99 04:05 PM") MDY = Ok (-358)
  /\ date_try_from_str Debug (bs "19990108 BC") DMY = Ok (-1460232)
  /\ date_try_from_str Debug (bs "JANuary 38, 1999") MDY = Err EOverflow.
Proof.
  assert (valid_ymd (1999, 1, 8)) as V1 by (split; cbn; lia).
  assert (valid_ymd (-1998, 1, 8)) as V2 by (split; cbn; lia).
  split; [|split; [|split; [|split]]].
  - apply (DW_month_day_year MDY (bs "JANuary") 1 [56] (bs "1999") true jan); split; cbn; try lia; repeat constructor; unfold digit; lia.
  - exists 1999. split; [reflexivity|]. split; [exact V1|]. apply day_number_J; [exact V1|vm_compute; reflexivity].
  - exists (-1998). split; [reflexivity|]. split; [exact V2|]. apply day_number_J; [exact V2|vm_compute; reflexivity].
  - apply (DW_inner MDY [56] (bs "JANuary") 1 [57; 57] 45); [digs|exact jan|digs|unfold separator; auto].
  - vm_compute. auto.
Qed.

(** ** C57: timestamps *)

(** A date, a time and an era mean the instant so many microseconds after the midnight starting that
    day. 24:00:00 and second 60 carry into the following minute or day. *)
Theorem C57_timestamp : forall md order glue td Y m d tt c e n k,
  date_words order glue td Y m d -> DateWords.time_part glue tt c ->
  meant_day e Y m d n -> c = Some k -> valid_ts (n * usecs_day + k) ->
  timestamp_try_from_str md (td ++ tt ++ era_text e) (-1) order = Ok (n * usecs_day + k).
Proof.
  intros md order glue td Y m d tt c e n k Dw Tp M C V.
  destruct (ts_words md order glue td Y m d tt c e (-1) Dw Tp) as [H _]. rewrite (H n k M C V).
  unfold timestamp_adjust_by_typmod. now rewrite andb_false_r.
Qed.
Print Assumptions C57_timestamp.
(** A precision adjusts the instant meant. *)
Theorem C57_typmod : forall md order glue td Y m d tt c e p n k,
  date_words order glue td Y m d -> DateWords.time_part glue tt c ->
  meant_day e Y m d n -> c = Some k -> valid_ts (n * usecs_day + k) ->
  timestamp_try_from_str md (td ++ tt ++ era_text e) p order = timestamp_adjust_by_typmod md (n * usecs_day + k) p.
Proof.
  intros md order glue td Y m d tt c e p n k Dw Tp M C V.
  destruct (ts_words md order glue td Y m d tt c e p Dw Tp) as [H _]. exact (H n k M C V).
Qed.
Print Assumptions C57_typmod.
Theorem C57_refused : forall md order glue td Y m d tt c e p,
  date_words order glue td Y m d -> DateWords.time_part glue tt c ->
  (forall n k, meant_day e Y m d n -> c = Some k -> ~ valid_ts (n * usecs_day + k)) ->
  exists er, timestamp_try_from_str md (td ++ tt ++ era_text e) p order = Err er.
Proof.
  intros md order glue td Y m d tt c e p Dw Tp N.
  destruct (ts_words md order glue td Y m d tt c e p Dw Tp) as [_ H]. exact (H N).
Qed.
Print Assumptions C57_refused.

Example C57_case :
  DateWords.time_part true (bs " 4:05:06.789 PM") (Some 57906789000)
  /\ DateWords.time_part true (bs "T4:05") (Some 14700000000)
  /\ timestamp_try_from_str Debug (bs "JANuary 8, 1999 4:05:06.789 PM BC") (-1) MDY = Ok (-1460232 * usecs_day + 57906789000)
  /\ timestamp_try_from_str Debug (bs "1999-01-08T4:05") (-1) MDY = Ok (-358 * usecs_day + 14700000000)
  /\ timestamp_try_from_str Debug (bs "1999-01-08 24:00:00") (-1) MDY = Ok (-357 * usecs_day)
  /\ timestamp_try_from_str Debug (bs "1999-01-08 24:00:01") (-1) MDY = Err EOverflow.
Proof.
  split; [|split].
  - apply (TP_time true 32 (bs "4:05:06.789") 4 5 6 789000 (HalfPM true)); [auto|].
    apply (TW_hmsf [52] [48; 53] [48; 54] [55; 56; 57]); digs.
  - apply (TP_time true 84 (bs "4:05") 4 5 0 0 NoHalf); [auto|]. apply (TW_hm [52] [48; 53]); digs.
  - vm_compute. auto.
Qed.
