(** Times of day written without colons: C76. *)
From Coq Require Import String.
From Verif Require Import Model.Parse Spec.Calendar Spec.Ranges Spec.Text Spec.DateText Spec.TimeText Spec.Keywords
  Spec.Clock Spec.DateWords Spec.CompactTime Proofs.Cal Proofs.DateP Proofs.DateWordsP Proofs.CompactP.
From Coq Require Import List ZArith Bool Lia.
Import ListNotations.
Open Scope Z_scope.

(** As a time of day, with or without a leading T, "hhmm", "hhmmss" and "hhmmss.f" mean what they say,
    with AM or PM too, and are refused if there is no such time. *)
Theorem C76_time : forall md (lead : bool) t h mi s us x order, compact_time t h mi s us ->
  match meant_clock x h mi s us with
  | Some c => time_try_from_str md ((if lead then [84] else []) ++ t ++ half_text x) (-1) order = Ok c
  | None => exists e, time_try_from_str md ((if lead then [84] else []) ++ t ++ half_text x) (-1) order = Err e
  end.
Proof.
  intros md lead t h mi s us x order W. pose proof (compact_time_text md lead t h mi s us x (-1) order W) as E.
  unfold t_text in E. destruct (meant_clock x h mi s us); [exact E|eauto].
Qed.
Print Assumptions C76_time.
(** A precision adjusts the time meant, and refuses no more. *)
Theorem C76_time_typmod : forall md (lead : bool) t h mi s us x p order c, compact_time t h mi s us ->
  meant_clock x h mi s us = Some c ->
  time_try_from_str md ((if lead then [84] else []) ++ t ++ half_text x) p order = time_adjust_by_typmod md c p.
Proof.
  intros md lead t h mi s us x p order c W M. pose proof (compact_time_text md lead t h mi s us x p order W) as E.
  now rewrite M in E.
Qed.
Print Assumptions C76_time_typmod.

(** After a date and a blank, or a T after a date of digits, the timestamp is that time of that day. *)
Theorem C76_timestamp : forall md order glue td Y m d sep t h mi s us x e n c, date_words order glue td Y m d ->
  sep = 32 \/ sep = 84 /\ glue = true -> compact_time t h mi s us ->
  meant_day e Y m d n -> meant_clock x h mi s us = Some c -> valid_ts (n * usecs_day + c) ->
  timestamp_try_from_str md (td ++ sep :: t ++ half_text x ++ era_text e) (-1) order = Ok (n * usecs_day + c).
Proof.
  intros md order glue td Y m d sep t h mi s us x e n c Dw Hs W Mn Mc V.
  destruct (compact_ts md order glue td Y m d sep t h mi s us x e (-1) Dw Hs W) as [H _].
  assert (carried_clock x h mi s us = Some c) as C.
  { unfold meant_clock in Mc. destruct x as [|b|b]; cbn [carried_clock meant_hour] in *.
    - destruct (h <=? 24), ((mi <=? 59) && (s <=? 60) && ((h <? 24) || (mi =? 0) && (s =? 0) && (us =? 0))); (discriminate || exact Mc).
    - destruct (h <=? 12); [|discriminate]. match type of Mc with (if ?q then _ else _) = _ => destruct q end; (discriminate || exact Mc).
    - destruct (h <=? 12); [|discriminate]. match type of Mc with (if ?q then _ else _) = _ => destruct q end; (discriminate || exact Mc). }
  rewrite (H n c Mn C V). unfold timestamp_adjust_by_typmod. now rewrite andb_false_r.
Qed.
Print Assumptions C76_timestamp.
(** In full: hours, minutes and seconds that no clock shows are carried over, and only the hour of an
    AM or PM is checked. *)
Theorem C76_carried : forall md order glue td Y m d sep t h mi s us x e p, date_words order glue td Y m d ->
  sep = 32 \/ sep = 84 /\ glue = true -> compact_time t h mi s us ->
  let r := timestamp_try_from_str md (td ++ sep :: t ++ half_text x ++ era_text e) p order in
  let c := carried_clock x h mi s us in
  (forall n k, meant_day e Y m d n -> c = Some k -> valid_ts (n * usecs_day + k) ->
     r = timestamp_adjust_by_typmod md (n * usecs_day + k) p)
  /\ ((forall n k, meant_day e Y m d n -> c = Some k -> ~ valid_ts (n * usecs_day + k)) -> exists er, r = Err er).
Proof. intros. now apply (compact_ts md order glue td Y m d). Qed.
Print Assumptions C76_carried.
(** As a date the text is the day, whatever the numbers of the time. *)
Theorem C76_date : forall md order glue td Y m d sep t h mi s us x e, date_words order glue td Y m d ->
  sep = 32 \/ sep = 84 /\ glue = true -> compact_time t h mi s us ->
  let r := date_try_from_str md (td ++ sep :: t ++ half_text x ++ era_text e) order in
  let c := carried_clock x h mi s us in
  (forall n, meant_day e Y m d n -> c <> None -> valid_date n -> r = Ok n)
  /\ ((forall n, meant_day e Y m d n -> c <> None -> ~ valid_date n) -> exists er, r = Err er).
Proof. intros. now apply (compact_date md order glue td Y m d). Qed.
Print Assumptions C76_date.

Ltac two := split; [repeat constructor; unfold digit; lia|reflexivity].
(** Finding: there is no 25:61:99, and yet "2020-01-01 256199" is 02:02:39 of the next day. With colons
    the same time is refused. *)
Theorem C76_no_such_time_refuted : exists t h mi s us, compact_time t h mi s us /\ meant_clock NoHalf h mi s us = None /\
  forall md, timestamp_try_from_str md (bs "2020-01-01 " ++ t) (-1) YMD = Ok 631245759000000
    /\ timestamp_try_from_str md (bs "2020-01-02 02:02:39") (-1) YMD = Ok 631245759000000
    /\ timestamp_try_from_str md (bs "2020-01-01 25:61:99") (-1) YMD = Err EInvalid
    /\ time_try_from_str md t (-1) YMD = Err EOverflow.
Proof.
  exists (bs "256199"), 25, 61, 99, 0. split; [apply (CT_hms [50; 53] [54; 49] [57; 57]); two|].
  split; [reflexivity|]. intros []; repeat split; vm_compute; reflexivity.
Qed.
Print Assumptions C76_no_such_time_refuted.

Example C76_ex :
  compact_time (bs "0405") 4 5 0 0 /\ compact_time (bs "040506.789") 4 5 6 789000 /\
  meant_clock (HalfPM true) 4 5 6 789000 = Some 57906789000 /\
  date_words YMD true (bs "20200101") (bs "2020") 1 1 /\ meant_day Unmarked (bs "2020") 1 1 7305 /\
  valid_ts (7305 * usecs_day + 57906789000) /\
  time_try_from_str Debug (bs "T0405") (-1) YMD = Ok 14700000000 /\
  time_try_from_str Debug (bs "040506.789 PM") 1 YMD = Ok 57906800000 /\
  timestamp_try_from_str Debug (bs "20200101T040506.789 PM") (-1) YMD = Ok (7305 * usecs_day + 57906789000).
Proof.
  split; [apply (CT_hm [48; 52] [48; 53]); two|].
  split; [apply (CT_hmsf [48; 52] [48; 53] [48; 54] [55; 56; 57]); try two; [|discriminate]|].
  { split; [repeat constructor; unfold digit; lia|cbn; lia]. }
  split; [reflexivity|].
  assert (valid_ymd (2020, 1, 1)) as V by (split; cbn; lia).
  split; [apply (DW_compact YMD [50; 48; 50; 48] [48; 49] [48; 49]); [split; [repeat constructor; unfold digit; lia|cbn; lia]|cbn; lia|two|two]|].
  split; [exists 2020; split; [reflexivity|]; split; [exact V|]; apply day_number_J; [exact V|vm_compute; reflexivity]|].
  split; [unfold valid_ts, usecs_day; lia|]. repeat split; vm_compute; reflexivity.
Qed.
