(** Names of weekdays and filler words: C64. *)
From Verif Require Import Model.Parse Spec.Calendar Spec.Text Spec.DateText Spec.TimeText Spec.Clock Spec.Keywords Spec.Lexing Spec.DateWords Spec.Weekday Proofs.WeekdayP.
Import List ListNotations.
Open Scope Z_scope.

(** A weekday, "at" or "on" at the end of any text never changes what is read: if the longer text is
    accepted so is the shorter one, with the same value. *)
Theorem C64_value : forall md order p s w u n,
  s <> [] -> last s 0 <> 46 -> ~ ends_with_sign s -> white w -> weekday_name u \/ filler u ->
  (date_try_from_str md (s ++ w :: u) order = Ok n -> date_try_from_str md s order = Ok n)
  /\ (timestamp_try_from_str md (s ++ w :: u) p order = Ok n -> timestamp_try_from_str md s p order = Ok n).
Proof. exact added_value. Qed.
Print Assumptions C64_value.

(** After the dates, times and eras of C56 and C57 it is accepted. *)
Theorem C64_accepted : forall md order p glue td Y m d tt c e w u n,
  date_words order glue td Y m d -> DateWords.time_part glue tt c -> white w -> weekday_name u \/ filler u ->
  last (td ++ tt ++ era_text e) 0 <> 46 ->
  (date_try_from_str md (td ++ tt ++ era_text e) order = Ok n
   -> date_try_from_str md ((td ++ tt ++ era_text e) ++ w :: u) order = Ok n)
  /\ (timestamp_try_from_str md (td ++ tt ++ era_text e) p order = Ok n
   -> timestamp_try_from_str md ((td ++ tt ++ era_text e) ++ w :: u) p order = Ok n).
Proof. exact accepted_value. Qed.
Print Assumptions C64_accepted.

(** Hence the weekday is not compared with the date: 8 January 1999 was a Friday. *)
Theorem C64_checked_refuted : forall md, exists w,
  weekday_name w /\ any_case w (bs "monday") /\ date_try_from_str md (bs "1999-01-08 " ++ w) YMD = Ok (-358) /\ (-358 + 6) mod 7 = 5.
Proof.
  intros md. exists (bs "monday"). assert (any_case (bs "monday") (bs "monday")) as C
    by (change (any_case [109; 111; 110; 100; 97; 121] [109; 111; 110; 100; 97; 121]); repeat (apply Forall2_cons; [lia|]); apply Forall2_nil).
  split; [exists (bs "monday"), 1; split; [cbn; auto 10|exact C]|]. split; [exact C|]. split; [destruct md; vm_compute; reflexivity|reflexivity].
Qed.
Print Assumptions C64_checked_refuted.

(** A weekday in front of a date in one piece is refused, although it is accepted in front of a month
    name. *)
Theorem C64_leading_refuted : forall md,
  date_try_from_str md (bs "Friday 1999-01-08") YMD = Err EInvalid
  /\ date_try_from_str md (bs "Fri Jan 08 1999") MDY = Ok (-358).
Proof. intros md. destruct md; vm_compute; auto. Qed.
Print Assumptions C64_leading_refuted.

Ltac digs := match goal with |- Forall digit ?l => let l' := eval vm_compute in l in change (Forall digit l') end;
  repeat (apply Forall_cons; [unfold digit; lia|]); apply Forall_nil.
Example C64_case :
  weekday_name (bs "FRI") /\ filler (bs "at") /\ white 32 /\ ~ ends_with_sign (bs "1999-01-08")
  /\ date_words YMD true (bs "1999-01-08") (bs "1999") 1 8
  /\ DateWords.time_part true (bs " 10:20 PM") (Some 80400000000)
  /\ timestamp_try_from_str Debug (bs "1999-01-08 10:20 PM BC fri") (-1) YMD = timestamp_try_from_str Debug (bs "1999-01-08 10:20 PM BC") (-1) YMD
  /\ timestamp_try_from_str Debug (bs "1999-01-08 10:20 PM BC") (-1) YMD = Ok (-126163964400000000).
Proof.
  split. { exists (bs "fri"), 5. split; [cbn; auto 20|]. change (any_case [70; 82; 73] [102; 114; 105]). repeat (apply Forall2_cons; [lia|]); apply Forall2_nil. }
  split. { left. change (any_case [97; 116] [97; 116]). repeat (apply Forall2_cons; [lia|]); apply Forall2_nil. }
  split; [unfold white; lia|].
  split. { intros (a & c & w & E & C & F). change (bs "1999-01-08") with (bs "1999-01-0" ++ [56]) in E. destruct w as [|z w] using rev_ind.
           - apply app_inj_tail in E as [_ E]. lia.
           - rewrite app_comm_cons, app_assoc in E. apply app_inj_tail in E as [_ E]. apply Forall_app in F as [_ F]. inversion F; subst. unfold white in *. lia. }
  split. { apply (DW_numeric YMD (bs "1999") (bs "01") (bs "08") 45); try (split; [digs|cbn; lia]); [cbn; lia|unfold separator; lia]. }
  split. { apply (TP_time true 32 (bs "10:20") 10 20 0 0 (HalfPM true)); [lia|].
           apply (TW_hm (bs "10") (bs "20")); (split; [digs|cbn; lia]). }
  vm_compute. auto.
Qed.
