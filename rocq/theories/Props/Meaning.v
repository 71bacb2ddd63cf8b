(** No text means two things, and all ways of writing a moment agree: C78. *)
From Coq Require Import String.
From Verif Require Import Model.Parse Spec.Calendar Spec.Ranges Spec.Text Spec.DateText Spec.TimeText Spec.Keywords Spec.Lexing
  Spec.Clock Spec.DateWords Spec.CompactTime Spec.DayCount Spec.Labels Spec.Meaning Proofs.Cal Proofs.DateP Proofs.TsP Proofs.DateWordsP
  Props.Spacing Props.Words Props.DayCount Props.CompactTime Props.Labels.
From Coq Require Import List ZArith Bool Lia.
Import ListNotations.
Open Scope Z_scope.

Lemma app_nonempty (a b : list Z) : a <> [] -> a ++ b <> [].
Proof. destruct a; [easy|discriminate]. Qed.

Lemma means_ts order t n k : means order t n k -> valid_ts (n * usecs_day + k) ->
  forall md p v, timestamp_try_from_str md t p order = Ok v <-> timestamp_adjust_by_typmod md (n * usecs_day + k) p = Ok v.
Proof.
  induction 1 as [glue td Y m d tt k e n Dw Tp M|glue td Y m d sep t h mi s us x k e n Dw Hs W C M|ps x e g n k F L E C D
    |w b ds td tt k T Tp|Y D td tt k e y n T B Tp M Hy Hn|t t' n k _ IH E|t t' n k _ IH N R]; intros V md p v.
  - now rewrite (C57_typmod md order glue td Y m d tt (Some k) e p n k Dw Tp M eq_refl V).
  - destruct (C76_carried md order glue td Y m d sep t h mi s us x e p Dw Hs W) as [H _]. now rewrite (H n k M C V).
  - now rewrite (C77_timestamp md order ps x e g n k F L E D C V p).
  - pose proof (C62_julian_timestamp md order w b ds td tt k Unmarked p T Tp V) as R. cbn [era_text] in R. rewrite app_nil_r in R. now rewrite R.
  - now rewrite (C62_year_day_timestamp md order Y D td tt k e y n p T B Tp M Hn V).
  - destruct (C44_case t t' E) as (_ & H & _). rewrite <- (H md p order v). now apply IH.
  - assert (t <> []) as N0.
    { intros ->. specialize (IH V md). destruct (timestamp_adjust_by_typmod md (n * usecs_day + k) (-1)) as [v0| |] eqn:A.
      - pose proof (proj2 (IH (-1) v0) A) as Q. discriminate Q.
      - unfold timestamp_adjust_by_typmod in A. rewrite andb_false_r in A. discriminate.
      - unfold timestamp_adjust_by_typmod in A. rewrite andb_false_r in A. discriminate. }
    destruct (C44_white t t' N0 N R) as (_ & H & _). rewrite <- (H md p order). now apply IH.
Qed.
Lemma means_date order t n k : means order t n k -> valid_date n -> forall md, date_try_from_str md t order = Ok n.
Proof.
  induction 1 as [glue td Y m d tt k e n Dw Tp M|glue td Y m d sep t h mi s us x k e n Dw Hs W C M|ps x e g n k F L E C D
    |w b ds td tt k T Tp|Y D td tt k e y n T B Tp M Hy Hn|t t' n k _ IH E|t t' n k _ IH N R]; intros V md.
  - apply (C56_date md order glue td Y m d tt (Some k) e n Dw Tp). split; [exact M|]. split; [discriminate|exact V].
  - destruct (C76_date md order glue td Y m d sep t h mi s us x e Dw Hs W) as [H _]. apply H; [exact M|rewrite C; discriminate|exact V].
  - pose proof D as (y & y' & m & d & A1 & A2 & A3 & _).
    destruct (C77_date md order ps x e g F L E) as [H _]; [rewrite A1; discriminate|rewrite A2; discriminate|rewrite A3; discriminate|].
    apply H; [exact D|rewrite C; discriminate|exact V].
  - pose proof (C62_julian_date md order w b ds td tt (Some k) Unmarked (digits_value ds - 2451545) T Tp) as R. cbn [era_text] in R.
    rewrite app_nil_r in R. apply R. split; [reflexivity|]. split; [discriminate|exact V].
  - apply (C62_year_day_date md order Y D td tt (Some k) e y n n T B Tp M Hy Hn). split; [reflexivity|]. split; [discriminate|exact V].
  - destruct (C44_case t t' E) as (H & _). apply (H md order n). now apply IH.
  - assert (t <> []) as N0 by (intros ->; specialize (IH V md); discriminate IH).
    destruct (C44_white t t' N0 N R) as (H & _). rewrite <- (H md order). now apply IH.
Qed.

(** Every text with a meaning is read with that meaning, at any precision. *)
Theorem C78_timestamp : forall order t n k, means order t n k -> valid_ts (n * usecs_day + k) -> forall md,
  timestamp_try_from_str md t (-1) order = Ok (n * usecs_day + k)
  /\ forall p v, timestamp_try_from_str md t p order = Ok v <-> timestamp_adjust_by_typmod md (n * usecs_day + k) p = Ok v.
Proof.
  intros order t n k M V md. pose proof (means_ts order t n k M V md) as H. split; [|exact H].
  apply H. unfold timestamp_adjust_by_typmod. now rewrite andb_false_r.
Qed.
Print Assumptions C78_timestamp.
Theorem C78_date : forall order t n k, means order t n k -> valid_date n -> forall md, date_try_from_str md t order = Ok n.
Proof. exact means_date. Qed.
Print Assumptions C78_date.
(** No text has two meanings. *)
Theorem C78_unambiguous : forall order t n k n' k', means order t n k -> means order t n' k' ->
  (valid_date n -> valid_date n' -> n = n')
  /\ (valid_ts (n * usecs_day + k) -> valid_ts (n' * usecs_day + k') -> n * usecs_day + k = n' * usecs_day + k').
Proof.
  intros order t n k n' k' M M'. split.
  - intros V V'. pose proof (means_date _ _ _ _ M V Debug). pose proof (means_date _ _ _ _ M' V' Debug). congruence.
  - intros V V'. destruct (C78_timestamp _ _ _ _ M V Debug) as [A _]. destruct (C78_timestamp _ _ _ _ M' V' Debug) as [A' _]. congruence.
Qed.
Print Assumptions C78_unambiguous.
(** Two ways of writing one moment give the same timestamp, under any two orders and in any two builds. *)
Theorem C78_agree : forall o t n k o' t' n' k' md md', means o t n k -> means o' t' n' k' ->
  n * usecs_day + k = n' * usecs_day + k' -> valid_ts (n * usecs_day + k) ->
  timestamp_try_from_str md t (-1) o = timestamp_try_from_str md' t' (-1) o'.
Proof.
  intros o t n k o' t' n' k' md md' M M' E V. destruct (C78_timestamp _ _ _ _ M V md) as [-> _].
  rewrite E in *. now destruct (C78_timestamp _ _ _ _ M' V md') as [-> _].
Qed.
Print Assumptions C78_agree.
(** Swapping day and month is the same as swapping the orders DMY and MDY. *)
Theorem C78_swap : forall md A B C sep tt c e v, short_digits A -> short_digits B -> short_digits C ->
  (length A <= 2)%nat -> (length B <= 2)%nat -> separator sep -> DateWords.time_part true tt c ->
  (date_try_from_str md ((A ++ sep :: B ++ sep :: C) ++ tt ++ era_text e) DMY = Ok v
   <-> date_try_from_str md ((B ++ sep :: A ++ sep :: C) ++ tt ++ era_text e) MDY = Ok v).
Proof.
  intros md A B C sep tt c e v PA PB PC LA LB Sp Tp.
  pose proof (DW_numeric DMY A B C sep PA PB PC LB Sp) as W1. pose proof (DW_numeric MDY B A C sep PB PA PC LA Sp) as W2.
  unfold DateText.reading in W1, W2.
  replace (3 <=? length A)%nat with false in W1 by (symmetry; apply Nat.leb_gt; lia).
  replace (3 <=? length B)%nat with false in W2 by (symmetry; apply Nat.leb_gt; lia). cbn [fst snd] in W1, W2.
  rewrite (C56_date md _ _ _ _ _ _ _ _ e v W1 Tp), (C56_date md _ _ _ _ _ _ _ _ e v W2 Tp). reflexivity.
Qed.
Print Assumptions C78_swap.

Ltac sd := split; [repeat constructor; unfold digit; lia|cbn; lia].
(** Five ways of writing five past four in the afternoon of 8 January 1999. *)
Example C78_ex : let n := -358 in let k := 57900000000 in valid_ts (n * usecs_day + k) /\ valid_date n /\
  means DMY (bs "8/1/99 4:05 PM") n k /\ means MDY (bs "1/8/99 16:05") n k /\ means YMD (bs "19990108t1605") n k /\
  means YMD (bs "j2451187  16:05") n k /\ means DMY (bs "1999-008 16:05") n k /\
  map (fun t => timestamp_try_from_str Debug (bs t) (-1) DMY)
    ["8/1/99 4:05 PM"; "19990108t1605"; "j2451187  16:05"; "1999-008 16:05"]%string = repeat (Ok (n * usecs_day + k)) 4.
Proof.
  cbv zeta. assert (valid_ymd (1999, 1, 8)) as V by (split; cbn; lia). assert (valid_ymd (1999, 1, 1)) as V1 by (split; cbn; lia).
  assert (day_number (1999, 1, 8) (-358)) as Dn by (apply day_number_J; [exact V|vm_compute; reflexivity]).
  assert (day_number (1999, 1, 1) (-365)) as Dn1 by (apply day_number_J; [exact V1|vm_compute; reflexivity]).
  assert (DateWords.time_part true (bs " 16:05") (Some 57900000000)) as T1.
  { apply (TP_time true 32 (bs "16:05") 16 5 0 0 NoHalf); [auto|]. apply (TW_hm [49; 54] [48; 53]); sd. }
  assert (meant_day Unmarked [57; 57] 1 8 (-358)) as Md by (exists 1999; auto).
  split; [unfold valid_ts, usecs_day; lia|]. split; [unfold valid_date; lia|].
  split; [|split; [|split; [|split; [|split]]]].
  - apply (M_words DMY true (bs "8/1/99") [57; 57] 1 8 (bs " 4:05 PM") 57900000000 Unmarked); [| |exact Md].
    + apply (DW_numeric DMY [56] [49] [57; 57] 47); try sd; [cbn; lia|unfold separator; auto].
    + apply (TP_time true 32 (bs "4:05") 4 5 0 0 (HalfPM true)); [auto|]. apply (TW_hm [52] [48; 53]); sd.
  - apply (M_words MDY true (bs "1/8/99") [57; 57] 1 8 (bs " 16:05") 57900000000 Unmarked); [|exact T1|exact Md].
    apply (DW_numeric MDY [49] [56] [57; 57] 47); try sd; [cbn; lia|unfold separator; auto].
  - apply (M_case YMD (bs "19990108T1605")); [|reflexivity].
    apply (M_compact YMD true (bs "19990108") [49; 57; 57; 57] 1 8 84 (bs "1605") 16 5 0 0 NoHalf 57900000000 Unmarked); auto.
    + apply (DW_compact YMD [49; 57; 57; 57] [48; 49] [48; 56]); try sd. cbn. lia.
    + apply (CT_hm [49; 54] [48; 53]); sd.
  - apply (M_white YMD (bs "j2451187 16:05")); [|discriminate|].
    + apply (M_julian YMD (bs "j") [] [50; 52; 53; 49; 49; 56; 55] (bs "j2451187") (bs " 16:05")); [|exact T1].
      split; [exists (bs "j"); split; [cbn; auto|change (any_case [106] [106]); repeat (apply Forall2_cons; [lia|]); apply Forall2_nil]|].
      split; [constructor|]. split; [repeat constructor; unfold digit; lia|]. split; [cbn; lia|reflexivity].
    + unfold bs; cbn. do 8 (apply rs_byte; [|discriminate]).
      apply (rs_run [32] [32; 32] [49; 54; 58; 48; 53] [49; 54; 58; 48; 53]);
        [repeat constructor; fail..|discriminate|discriminate|].
      do 5 (apply rs_byte; [|discriminate]). apply rs_end; constructor.
  - apply (M_year_day DMY [49; 57; 57; 57] [48; 48; 56] (bs "1999-008") (bs " 16:05") 57900000000 Unmarked 1999 (-358));
      [|cbn; lia|exact T1| |lia|lia].
    + split; [left; cbn; lia|]. split; [repeat constructor; unfold digit; lia|]. split; [reflexivity|]. left.
      split; [sd|]. exists 45. split; [unfold separator; lia|reflexivity].
    + split; [reflexivity|]. exists (-365). split; [exact Dn1|reflexivity].
  - vm_compute. reflexivity.
Qed.
