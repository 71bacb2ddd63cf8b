(** Numbers with letters in front, "y1999 m1 d8 h4 mm5 s6.5": C77. *)
From Coq Require Import String.
From Verif Require Import Model.Parse Spec.Calendar Spec.Ranges Spec.Text Spec.DateText Spec.TimeText Spec.Keywords
  Spec.Clock Spec.DateWords Spec.CompactTime Spec.Labels Proofs.Cal Proofs.DateP Proofs.DateWordsP Proofs.LabelsP.
From Coq Require Import List ZArith Bool Lia Permutation.
Import ListNotations.
Open Scope Z_scope.

(** With a year, a month and a day, in any order and with any numbers of the clock, the text means that
    time of that day; numbers that no clock shows are carried over, and AM and PM need an hour of at
    most 12. *)
Theorem C77_timestamp : forall md order ps x e g n k, Forall part_ok ps -> (length ps <= 7)%nat ->
  say_all ps nothing = Some g -> labelled_day e g n ->
  carried_clock x (or_zero (g_hour g)) (or_zero (g_minute g)) (seconds g) (fraction g) = Some k ->
  valid_ts (n * usecs_day + k) -> forall p,
  timestamp_try_from_str md (parts_text ps ++ half_text x ++ era_text e) p order = timestamp_adjust_by_typmod md (n * usecs_day + k) p.
Proof.
  intros md order ps x e g n k F L E D C V p.
  assert (all_said g) as A by (unfold all_said; destruct D as (y & y' & m & d & -> & -> & -> & _); repeat split; discriminate).
  destruct (labels_ts md order ps x e g p F L E A) as [H _]. now apply H.
Qed.
Print Assumptions C77_timestamp.
Theorem C77_refused : forall md order ps x e g p, Forall part_ok ps -> (length ps <= 7)%nat ->
  say_all ps nothing = Some g -> g_year g <> None -> g_month g <> None -> g_day g <> None ->
  (forall n k, labelled_day e g n ->
    carried_clock x (or_zero (g_hour g)) (or_zero (g_minute g)) (seconds g) (fraction g) = Some k -> ~ valid_ts (n * usecs_day + k)) ->
  exists er, timestamp_try_from_str md (parts_text ps ++ half_text x ++ era_text e) p order = Err er.
Proof.
  intros md order ps x e g p F L E A1 A2 A3 N. destruct (labels_ts md order ps x e g p F L E) as [_ H]; [repeat split; assumption|].
  exact (H N).
Qed.
Print Assumptions C77_refused.
(** As a date the text is that day. *)
Theorem C77_date : forall md order ps x e g, Forall part_ok ps -> (length ps <= 7)%nat ->
  say_all ps nothing = Some g -> g_year g <> None -> g_month g <> None -> g_day g <> None ->
  let r := date_try_from_str md (parts_text ps ++ half_text x ++ era_text e) order in
  let c := carried_clock x (or_zero (g_hour g)) (or_zero (g_minute g)) (seconds g) (fraction g) in
  (forall n, labelled_day e g n -> c <> None -> valid_date n -> r = Ok n)
  /\ ((forall n, labelled_day e g n -> c <> None -> ~ valid_date n) -> exists er, r = Err er).
Proof. intros md order ps x e g F L E A1 A2 A3. apply labels_date; auto. repeat split; assumption. Qed.
Print Assumptions C77_date.
(** Saying a thing twice is refused, and so is a date with a part missing, unless the clock is given in
    full with a fraction (see C43_calendar_refuted). *)
Theorem C77_twice : forall md order ps x e p, Forall part_ok ps -> (length ps <= 7)%nat -> say_all ps nothing = None ->
  timestamp_try_from_str md (parts_text ps ++ half_text x ++ era_text e) p order = Err EInvalid
  /\ date_try_from_str md (parts_text ps ++ half_text x ++ era_text e) order = Err EInvalid
  /\ time_try_from_str md (parts_text ps ++ half_text x) p order = Err EInvalid.
Proof.
  intros md order ps x e p F L E. destruct (labels_twice md order ps x e p F L E) as [A B].
  split; [exact A|]. split; [exact B|]. now apply labels_time_twice.
Qed.
Print Assumptions C77_twice.
Theorem C77_incomplete : forall md order ps x e g p, Forall part_ok ps -> (length ps <= 7)%nat -> ps <> [] ->
  say_all ps nothing = Some g ->
  g_year g = None \/ g_month g = None \/ g_day g = None ->
  g_hour g = None \/ g_minute g = None \/ (forall s us, g_second g <> Some (s, Some us)) ->
  (exists er, timestamp_try_from_str md (parts_text ps ++ half_text x ++ era_text e) p order = Err er)
  /\ (exists er, date_try_from_str md (parts_text ps ++ half_text x ++ era_text e) order = Err er).
Proof.
  intros md order ps x e g p F L N E A B. apply (labels_incomplete md order ps x e g p F L N E A).
  unfold clock_missing. destruct B as [B|[B|B]]; auto. right. right. destruct (g_second g) as [[s [us|]]|]; auto. now apply (B s us).
Qed.
Print Assumptions C77_incomplete.
(** Any of h, mm and s make a time of day. *)
Theorem C77_time : forall md order ps x g p, Forall part_ok ps -> (length ps <= 7)%nat -> ps <> [] ->
  Forall (fun q => p_label q = Lh \/ p_label q = Lmm \/ p_label q = Ls) ps -> say_all ps nothing = Some g ->
  match meant_clock x (or_zero (g_hour g)) (or_zero (g_minute g)) (seconds g) (fraction g) with
  | Some k => time_try_from_str md (parts_text ps ++ half_text x) p order = time_adjust_by_typmod md k p
  | None => time_try_from_str md (parts_text ps ++ half_text x) p order = Err EOverflow
  end.
Proof.
  intros md order ps x g p F L N C E. pose proof (labels_time md order ps x p g F C L N E) as R.
  destruct (meant_clock _ _ _ _ _); exact R.
Qed.
Print Assumptions C77_time.
(** With at most one m the order does not matter, not even for the error. *)
Theorem C77_order : forall md order ps qs x e p, Forall part_ok ps -> (length ps <= 7)%nat -> ps <> [] -> Permutation ps qs ->
  (length (filter (fun q => match p_label q with Lm => true | _ => false end) ps) <= 1)%nat ->
  timestamp_try_from_str md (parts_text ps ++ half_text x ++ era_text e) p order
    = timestamp_try_from_str md (parts_text qs ++ half_text x ++ era_text e) p order
  /\ date_try_from_str md (parts_text ps ++ half_text x ++ era_text e) order
    = date_try_from_str md (parts_text qs ++ half_text x ++ era_text e) order
  /\ time_try_from_str md (parts_text ps ++ half_text x) p order = time_try_from_str md (parts_text qs ++ half_text x) p order.
Proof.
  intros md order ps qs x e p F L N P M. destruct (parts_order_parse ps qs F L N P) as (F' & L' & N').
  unfold timestamp_try_from_str, date_try_from_str, time_try_from_str.
  rewrite !parts_parse, !parts_parse_time by assumption. cbn [bind].
  rewrite (labels_order md order ps qs x e F P M), (labels_time_order md order ps qs x F P M). auto.
Qed.
Print Assumptions C77_order.
Ltac part_is_ok :=
  split; [repeat (apply Forall2_cons; [cbn; lia|]); apply Forall2_nil|]; split; [repeat constructor; unfold digit; lia|];
  split; [cbn; lia|]; split; [split; [repeat constructor; unfold digit; lia|cbn; lia]|];
  intros H; first [reflexivity|now destruct H].
(** A short year is a year of its own, not one of this century. *)
Theorem C77_short_year : forall md order, exists ps qs,
  parts_text ps = bs "y99 m1 d8" /\ parts_text qs = bs "y0099 m1 d8" /\ Forall part_ok ps /\
  timestamp_try_from_str md (bs "y99 m1 d8") (-1) order = timestamp_try_from_str md (bs "y0099 m1 d8") (-1) order /\
  timestamp_try_from_str md (bs "99-1-8") (-1) YMD = timestamp_try_from_str md (bs "y1999 m1 d8") (-1) YMD.
Proof.
  intros md order. exists [Part Ly [121] false [57; 57] [] true; Part Lm [109] false [49] [] true; Part Ld [100] false [56] [] false],
    [Part Ly [121] false [48; 48; 57; 57] [] true; Part Lm [109] false [49] [] true; Part Ld [100] false [56] [] false].
  split; [reflexivity|]. split; [reflexivity|]. split.
  { repeat (apply Forall_cons; [part_is_ok|]). apply Forall_nil. }
  split; destruct md, order; vm_compute; reflexivity.
Qed.
Print Assumptions C77_short_year.

(** Findings: hours are not checked after a date, and a time of day silently drops the number of an m. *)
Theorem C77_no_such_time_refuted : forall md,
  timestamp_try_from_str md (bs "2020-01-01 h99") (-1) YMD = timestamp_try_from_str md (bs "2020-01-05 03:00") (-1) YMD
  /\ timestamp_try_from_str md (bs "y2020 m1 d1 h99") (-1) YMD = Ok (7309 * usecs_day + 10800000000)
  /\ time_try_from_str md (bs "h99") (-1) YMD = Err EOverflow.
Proof. intros []; repeat split; vm_compute; reflexivity. Qed.
Print Assumptions C77_no_such_time_refuted.
Theorem C77_minutes_refuted : forall md,
  time_try_from_str md (bs "h4 m5 s6") (-1) YMD = Ok 14406000000
  /\ time_try_from_str md (bs "h4 mm5 s6") (-1) YMD = Ok 14706000000
  /\ timestamp_try_from_str md (bs "y2020 m1 d1 h4 m5 s6") (-1) YMD = Ok (7305 * usecs_day + 14706000000).
Proof. intros []; repeat split; vm_compute; reflexivity. Qed.
Print Assumptions C77_minutes_refuted.

Example C77_ex :
  let ps := [Part Ly [89] false [49; 57; 57; 57] [] false; Part Lm [109] true [49] [] true; Part Ld [100] false [56] [] true;
             Part Lh [104] false [52] [] false; Part Lm [77] false [48; 53] [] true; Part Ls [115] false [54] [53] false] in
  let g := Said (Some 1999) (Some 1) (Some 8) (Some 4) (Some 5) (Some (6, Some 500000)) in
  parts_text ps = bs "Y1999m 1 d8 h4M05 s6.5" /\ Forall part_ok ps /\ say_all ps nothing = Some g /\
  labelled_day Unmarked g (-358) /\ carried_clock (HalfPM true) 4 5 6 500000 = Some 57906500000 /\
  valid_ts (-358 * usecs_day + 57906500000) /\
  timestamp_try_from_str Debug (bs "Y1999m 1 d8 h4M05 s6.5 PM") (-1) DMY = Ok (-358 * usecs_day + 57906500000).
Proof.
  cbv zeta. split; [vm_compute; reflexivity|]. split.
  { repeat (apply Forall_cons; [part_is_ok|]). apply Forall_nil. }
  split; [vm_compute; reflexivity|].
  assert (valid_ymd (1999, 1, 8)) as V by (split; cbn; lia).
  split; [exists 1999, 1999, 1, 8; repeat split; try (cbn; lia); apply day_number_J; [exact V|vm_compute; reflexivity]|].
  split; [vm_compute; reflexivity|]. split; [unfold valid_ts, usecs_day; lia|]. vm_compute. reflexivity.
Qed.
