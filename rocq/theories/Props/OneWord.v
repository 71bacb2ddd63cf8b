(** Texts of a single word: C60. *)
From Verif Require Import Model.Parse Spec.Calendar Spec.Ranges Spec.Text Spec.Lexing Spec.DateWords Spec.OneWord Proofs.OneWordP.
Import List ListNotations.
Open Scope Z_scope.

Lemma no_minus w x : any_case w (45 :: x) -> False.
Proof. intros C. inversion C. lia. Qed.
(** "infinity" in any letter case is the date after all others, with a minus the one before. *)
Theorem C60_date_infinity : forall md o w s, any_case w (bs "infinity") ->
  (one_word [] w s -> date_try_from_str md s o = Ok pos_inf_date)
  /\ (one_word [45] w s -> date_try_from_str md s o = Ok neg_inf_date).
Proof. intros md o w s C. split; intros H; rewrite (date_one md o _ w s H), (case_lowers _ _ C); reflexivity. Qed.
Print Assumptions C60_date_infinity.

(** No other word is a date, except "allballs". *)
Theorem C60_date_refused : forall md o sg w s, one_word sg w s ->
  (sg = [43] \/ ~ any_case w (bs "infinity")) -> (sg <> [] \/ ~ any_case w (bs "allballs")) ->
  date_try_from_str md s o = Err EInvalid.
Proof.
  intros md o sg w s H N1 N2. rewrite (date_one md o _ w s H). pose proof H as (L & _ & G & _).
  apply listed_refused; [exact L|].
  intros x v I y E C. cbn in I. destruct I as [I|[I|[I|[]]]]; injection I as <- <-;
    destruct G as [-> |[-> | ->]]; cbn [app] in E;
    first [discriminate E|subst y|injection E as E; subst y]; destruct N1 as [N1|N1], N2 as [N2|N2];
    first [discriminate N1|exact (N1 C)|exact (N2 C)|now apply N2|exact (no_minus _ _ C)].
Qed.
Print Assumptions C60_date_refused.

(** The same for timestamps; no precision changes the infinite ones. *)
Theorem C60_timestamp_infinity : forall md o w s p, any_case w (bs "infinity") ->
  (one_word [] w s -> timestamp_try_from_str md s p o = Ok pos_inf_ts)
  /\ (one_word [45] w s -> timestamp_try_from_str md s p o = Ok neg_inf_ts).
Proof. intros md o w s p C. split; intros H; rewrite (timestamp_one md o _ w s p H), (case_lowers _ _ C); reflexivity. Qed.
Print Assumptions C60_timestamp_infinity.
Theorem C60_timestamp_refused : forall md o sg w s p, one_word sg w s ->
  (sg = [43] \/ ~ any_case w (bs "infinity")) -> (sg <> [] \/ ~ any_case w (bs "allballs")) ->
  timestamp_try_from_str md s p o = Err EInvalid.
Proof.
  intros md o sg w s p H N1 N2. rewrite (timestamp_one md o _ w s p H). pose proof H as (L & _ & G & _).
  rewrite listed_refused; [reflexivity|exact L|].
  intros x v I y E C. cbn in I. destruct I as [I|[I|[I|[]]]]; injection I as <- <-;
    destruct G as [-> |[-> | ->]]; cbn [app] in E;
    first [discriminate E|subst y|injection E as E; subst y]; destruct N1 as [N1|N1], N2 as [N2|N2];
    first [discriminate N1|exact (N1 C)|exact (N2 C)|now apply N2|exact (no_minus _ _ C)].
Qed.
Print Assumptions C60_timestamp_refused.

(** A word is a time of day only if it is "allballs", "am", "pm" or one of the marks listed, whatever
    the precision; no signed word is. *)
Definition clock_marks : list bytes :=
  List.map bs ["ad"; "am"; "at"; "bc"; "d"; "dow"; "doy"; "h"; "isodow"; "j"; "jd"; "julian"; "m"; "mm"; "on"; "pm"; "s"; "y"]%string.
Theorem C60_time_allballs : forall md o w s, any_case w (bs "allballs") -> one_word [] w s ->
  time_try_from_str md s (-1) o = Ok 0.
Proof. intros md o w s C H. rewrite (time_one md o _ w s _ H), (case_lowers _ _ C). reflexivity. Qed.
Print Assumptions C60_time_allballs.
Theorem C60_time_refused : forall md o sg w s p, one_word sg w s ->
  (sg <> [] \/ ~ any_case w (bs "allballs") /\ forall m, In m clock_marks -> ~ any_case w m) ->
  time_try_from_str md s p o = Err EInvalid.
Proof.
  intros md o sg w s p H N. rewrite (time_one md o _ w s p H). pose proof H as (L & _ & G & _).
  rewrite listed_refused; [reflexivity|exact L|].
  intros x v I y E C. assert (sg = []) as ->.
  { destruct G as [-> |[-> | ->]]; [reflexivity|exfalso..]; clear - I E;
    cbn in I; repeat (destruct I as [I|I]; [injection I as <- _; discriminate E|]); destruct I. }
  cbn [app] in E. subst y. destruct N as [N|[N1 N2]]; [easy|].
  destruct (beq x (bs "allballs")) eqn:A; [apply TokenP.beq_eq in A; subst; contradiction|].
  apply (N2 x); [|exact C]. clear - I A. cbn in I.
  repeat (destruct I as [I|I]; [injection I as <- _; first [discriminate A|clear; cbn; tauto]|]). destruct I.
Qed.
Print Assumptions C60_time_refused.

(** No word is an interval, whatever the style and the type modifier; a text that starts with a
    capital P is the subject of C59. *)
Theorem C60_interval_refused : forall md st p sg w s, one_word sg w s -> hd 0 s <> 80 ->
  interval_try_from_str md s p st = Err EInvalid.
Proof. exact interval_one. Qed.
Print Assumptions C60_interval_refused.

(** Findings: "allballs" without a date is 30 November of 2 BC for a date or a timestamp, and the marks
    listed above are times of day. PostgreSQL refuses all of them. *)
Theorem C60_words_refuted : forall md o, exists n, day_number (-1, 11, 30) n
  /\ date_try_from_str md (bs "allballs") o = Ok n
  /\ timestamp_try_from_str md (bs "allballs") (-1) o = Ok (n * 86400000000)
  /\ (forall m, In m clock_marks -> time_try_from_str md m (-1) o = Ok (if beq m (bs "pm") then 43200000000 else 0)).
Proof.
  intros md o. exists (-730517). split; [|split; [|split]].
  - apply Cal.day_number_J; [vm_compute; intuition congruence|reflexivity].
  - destruct md, o; vm_compute; reflexivity.
  - destruct md, o; vm_compute; reflexivity.
  - intros m H. destruct md, o; cbn in H; repeat (destruct H as [<- |H]; [vm_compute; reflexivity|]); destruct H.
Qed.
Print Assumptions C60_words_refuted.

Example C60_case : one_word [45] (bs "InFinity") (bs " - InFinity  ") /\ any_case (bs "InFinity") (bs "infinity")
  /\ one_word [] (bs "tomorrow") (bs "tomorrow") /\ ~ any_case (bs "tomorrow") (bs "infinity")
  /\ date_try_from_str Debug (bs " - InFinity  ") YMD = Ok neg_inf_date
  /\ date_try_from_str Debug (bs "tomorrow") YMD = Err EInvalid
  /\ interval_try_from_str Debug (bs "invalid") (-1) IPostgres = Err EInvalid
  /\ time_try_from_str Debug (bs "+pm") (-1) MDY = Err EInvalid.
Proof.
  assert (forall (l : list Z) n, forallb (fun c => (97 <=? c) && (c <=? 122) || (65 <=? c) && (c <=? 90)) l = true -> n = length l -> (1 <= n <= 127)%nat ->
    Forall letter l /\ (1 <= length l <= 127)%nat) as L.
  { intros l n F -> B. split; [|exact B]. apply Forall_forall. intros c I. rewrite forallb_forall in F. specialize (F c I). unfold letter. lia. }
  repeat split; try (vm_compute; reflexivity).
  - apply (L (bs "InFinity") 8%nat); [reflexivity|reflexivity|lia].
  - cbn. lia.
  - cbn. lia.
  - auto.
  - exists (bs " "), (bs " "), (bs "  "). repeat split; vm_compute; repeat constructor.
  - change (any_case [73; 110; 70; 105; 110; 105; 116; 121] [105; 110; 102; 105; 110; 105; 116; 121]).
    repeat (apply Forall2_cons; [lia|]). apply Forall2_nil.
  - apply (L (bs "tomorrow") 8%nat); [reflexivity|reflexivity|lia].
  - cbn. lia.
  - cbn. lia.
  - auto.
  - exists [], [], []. repeat split; constructor.
  - intros H. inversion H as [|? ? ? ? [_ A]]. lia.
Qed.
