(** Seconds finer than a microsecond: C82. *)
From Coq Require Import String.
From Verif Require Import Model.Parse Spec.Calendar Spec.Ranges Spec.Clock Spec.Text Spec.DateText Spec.TimeText Spec.DateWords Spec.LongFraction
  Proofs.Arith Proofs.DigitsP Proofs.NumDateP Proofs.ClockTextP Proofs.DateWordsP Proofs.LongFracP.
From Coq Require Import List ZArith Bool Lia.
Import ListNotations.
Open Scope Z_scope.

Lemma six_digits u : 0 <= u < 1000000 -> exists g, length g = 6%nat /\ Forall digit g /\ digits_value g = u.
Proof.
  intros H. exists [48 + u / 100000; 48 + u / 10000 mod 10; 48 + u / 1000 mod 10; 48 + u / 100 mod 10; 48 + u / 10 mod 10; 48 + u mod 10].
  split; [reflexivity|]. split; [repeat constructor; unfold digit; lia|]. cbn [digits_value length]. change (10 ^ Z.of_nat 5) with 100000. change (10 ^ Z.of_nat 4) with 10000. change (10 ^ Z.of_nat 3) with 1000.
  change (10 ^ Z.of_nat 2) with 100. change (10 ^ Z.of_nat 1) with 10. change (10 ^ Z.of_nat 0) with 1. lia.
Qed.

(** Seven digits are rounded to the nearest microsecond: the text means what a text with six digits means. *)
Theorem C82_rounded : forall f, length f = 7%nat -> Forall digit f -> digits_value f < 9999995 ->
  exists g, nearest_micros f g /\ forall md order,
    (forall pre x p, clock_prefix pre ->
       time_try_from_str md (pre ++ 46 :: f ++ half_text x) p order = time_try_from_str md (pre ++ 46 :: g ++ half_text x) p order)
    /\ (forall glue td Y m d sep pre x e p, date_words order glue td Y m d -> sep = 32 \/ sep = 84 /\ glue = true -> clock_prefix pre ->
       timestamp_try_from_str md (td ++ sep :: pre ++ 46 :: f ++ half_text x ++ era_text e) p order
       = timestamp_try_from_str md (td ++ sep :: pre ++ 46 :: g ++ half_text x ++ era_text e) p order
       /\ date_try_from_str md (td ++ sep :: pre ++ 46 :: f ++ half_text x ++ era_text e) order
       = date_try_from_str md (td ++ sep :: pre ++ 46 :: g ++ half_text x ++ era_text e) order).
Proof.
  intros f L F B. destruct (parse_seven f L F) as (u & N & P). pose proof (digits_value_bound _ F) as B0.
  destruct (six_digits u ltac:(lia)) as (g & Lg & Fg & <-). exists g. split; [repeat split; assumption|]. intros md order.
  assert (parse_fractional_second md (46 :: f) = parse_fractional_second md (46 :: g)) as E.
  { rewrite P, parse_micros by (split; [exact Fg|lia]). unfold micros. rewrite Lg. f_equal. cbn. lia. }
  assert (forall pre (r : list Z) h, pre ++ 46 :: h ++ r = (pre ++ 46 :: h) ++ r) as A by (intros; now rewrite <- app_assoc).
  assert (forall pre h, clock_prefix pre -> Forall digit h -> (length h <= 60)%nat -> clock_shape (pre ++ 46 :: h)) as S by (intros; now apply prefix_shape).
  split.
  - intros pre x p W. rewrite !A. apply time_same; [apply S; auto; lia|apply S; auto; lia|]. intros c. now apply prefix_same.
  - intros glue td Y m d sep pre x e p Dw Hs W. rewrite !A.
    destruct (shape_parse md order glue td Y m d Dw) as (ts & Fo & T).
    unfold timestamp_try_from_str, date_try_from_str. rewrite !T by (auto; apply S; auto; lia). cbn [bind].
    rewrite (decode_same md order ts Y m d sep (pre ++ 46 :: f) (pre ++ 46 :: g) _ Fo (fun c => prefix_same md pre f g c W E)). split; reflexivity.
Qed.
Print Assumptions C82_rounded.

(** Eight and more digits are refused. *)
Theorem C82_refused : forall f, (8 <= length f <= 60)%nat -> Forall digit f -> forall md order,
    (forall pre x p, clock_prefix pre -> exists er, time_try_from_str md (pre ++ 46 :: f ++ half_text x) p order = Err er)
    /\ (forall glue td Y m d sep pre x e p, date_words order glue td Y m d -> sep = 32 \/ sep = 84 /\ glue = true -> clock_prefix pre -> exists er,
       timestamp_try_from_str md (td ++ sep :: pre ++ 46 :: f ++ half_text x ++ era_text e) p order = Err er
       /\ date_try_from_str md (td ++ sep :: pre ++ 46 :: f ++ half_text x ++ era_text e) order = Err er).
Proof.
  intros f L F md order. pose proof (parse_many md f (proj1 L) F) as E.
  assert (forall pre (r : list Z) h, pre ++ 46 :: h ++ r = (pre ++ 46 :: h) ++ r) as A by (intros; now rewrite <- app_assoc).
  split.
  - intros pre x p W. exists EOverflow. rewrite A. apply time_err; [apply prefix_shape; auto; lia|]. intros c. now apply prefix_err.
  - intros glue td Y m d sep pre x e p Dw Hs W. rewrite !A.
    destruct (shape_parse md order glue td Y m d Dw) as (ts & Fo & T).
    unfold timestamp_try_from_str, date_try_from_str. rewrite !T by (auto; apply prefix_shape; auto; lia). cbn [bind].
    match goal with |- context [decode_date_time md order ?q] => assert (exists er, decode_date_time md order q = Err er) as (er & D) end.
    { exact (decode_err md order ts Y m d sep (pre ++ 46 :: f) _ EOverflow Fo (fun c => prefix_err md pre f c _ W E)). }
    exists er. rewrite D. split; reflexivity.
Qed.
Print Assumptions C82_refused.

(** Finding: a seventh digit 5 is rounded up in ".0010015" and down in ".0010025". *)
Theorem C82_ties_refuted : forall md order,
  time_try_from_str md (bs "00:00:00.0010015") (-1) order = Ok 1002
  /\ time_try_from_str md (bs "00:00:00.0010025") (-1) order = Ok 1002.
Proof. intros [] []; split; vm_compute; reflexivity. Qed.
Print Assumptions C82_ties_refuted.

Ltac digs := split; [repeat constructor; unfold digit; lia|cbn; lia].
(** "12:34:56.7891234" is "12:34:56.789123", "23:59:59.9999999" is the end of the day; nanoseconds are refused. *)
Example C82_case :
  clock_prefix (bs "12:34:56") /\ clock_prefix (bs "34:56") /\ nearest_micros (bs "7891234") (bs "789123")
  /\ (forall md order, time_try_from_str md (bs "12:34:56.7891234") (-1) order = Ok 45296789123
    /\ time_try_from_str md (bs "23:59:59.9999999") (-1) order = Ok 86400000000
    /\ time_try_from_str md (bs "12:34:56.789123456") (-1) order = Err EOverflow
    /\ timestamp_try_from_str md (bs "1999-01-08 12:34:56.7891234") (-1) order = Ok (-30885903210877)
    /\ timestamp_try_from_str md (bs "1999-01-08 12:34:56.789123456") (-1) order = Err EOverflow).
Proof.
  split; [apply (CP_hms [49; 50] [51; 52] [53; 54]); digs|]. split; [apply (CP_ms [51; 52] [53; 54]); digs|].
  split; [do 2 (split; [reflexivity|]); do 2 (split; [change (bs "7891234") with [55; 56; 57; 49; 50; 51; 52] || change (bs "789123") with [55; 56; 57; 49; 50; 51];
    repeat constructor; unfold digit; lia|]); vm_compute; discriminate|].
  intros [] []; repeat split; vm_compute; reflexivity.
Qed.
