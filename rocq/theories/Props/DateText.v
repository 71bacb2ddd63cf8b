(** What numeric date texts mean: C46, C43 (calendar part). *)
From Coq Require Import String.
From Verif Require Import Model.Parse Spec.Calendar Spec.Ranges Spec.Text Spec.DateText
  Proofs.Cal Proofs.DateP Proofs.NumDateP.
From Coq Require Import List ZArith Bool Lia.
Import ListNotations.
Open Scope Z_scope.

Definition numeric_date_text (A B C : list Z) (sep : Z) (e : era) : list Z :=
  (A ++ [sep] ++ B ++ [sep] ++ C) ++ era_text e.

(** ** C46: short years, BC years and year zero *)

(** Three numbers of 1 to 9 digits, the middle one of at most 2, separated by "-", "/" or ".",
    then nothing, " AD" or " BC": the text is accepted exactly if the year meant exists (short
    years are windowed to 1970..2069, BC year y is the astronomical year 1 - y, there is no year 0)
    and the month and day exist in it, and the result is the number of that day. *)
Theorem C46_numeric : forall md order A B C sep e n,
  short_digits A -> short_digits B -> short_digits C -> (length B <= 2)%nat -> separator sep ->
  let '(Y, M, D) := reading order A B C in
  date_try_from_str md (numeric_date_text A B C sep e) order = Ok n <->
  exists y, meant_year e Y = Some y /\ valid_ymd (y, digits_value M, digits_value D)
    /\ day_number (y, digits_value M, digits_value D) n /\ valid_date n.
Proof.
  intros md order A B C sep e n PA PB PC LB Sp.
  pose proof (numeric_date A B C sep order PA PB PC LB Sp md e) as E.
  unfold numeric_date_text. cbn [app] in *. rewrite E. clear E.
  destruct (reading order A B C) as [[Y M] D]. cbn [fst snd].
  destruct (meant_year e Y) as [y|]; [|split; [discriminate|intros (y & Q & _); discriminate]].
  destruct (validb y _ _) eqn:V.
  - apply validb_spec in V. cbv zeta. unfold valid_date. split.
    + intros Q. exists y. split; [reflexivity|]. split; [exact V|].
      destruct (_ && _) eqn:R; [|discriminate]. injection Q as <-.
      split; [apply (day_number_J _ _ V); lia|lia].
    + intros (y' & Q & _ & N & R). injection Q as <-. apply (day_number_J _ _ V) in N. rewrite N.
      replace (_ && _) with true by lia. f_equal. lia.
  - split; [discriminate|]. intros (y' & Q & V' & _). injection Q as <-. apply validb_spec in V'. congruence.
Qed.
Print Assumptions C46_numeric.

(** Everything else is refused with an error. *)
Theorem C46_refused : forall md order A B C sep e,
  short_digits A -> short_digits B -> short_digits C -> (length B <= 2)%nat -> separator sep ->
  let '(Y, M, D) := reading order A B C in
  (meant_year e Y = None -> date_try_from_str md (numeric_date_text A B C sep e) order = Err EOverflow)
  /\ (forall y, meant_year e Y = Some y -> ~ valid_ymd (y, digits_value M, digits_value D) ->
      date_try_from_str md (numeric_date_text A B C sep e) order = Err EOverflow)
  /\ (forall y n, meant_year e Y = Some y -> valid_ymd (y, digits_value M, digits_value D) ->
      day_number (y, digits_value M, digits_value D) n -> ~ valid_date n ->
      date_try_from_str md (numeric_date_text A B C sep e) order = Err EInvalid).
Proof.
  intros md order A B C sep e PA PB PC LB Sp.
  pose proof (numeric_date A B C sep order PA PB PC LB Sp md e) as E.
  unfold numeric_date_text. cbn [app] in *. rewrite E. clear E.
  destruct (reading order A B C) as [[Y M] D]. cbn [fst snd]. split; [now intros ->|]. split.
  - intros y -> V. destruct (validb y _ _) eqn:Q; [|reflexivity]. now apply validb_spec in Q.
  - intros y n -> V N R. pose proof V as V'. apply validb_spec in V'. rewrite V'. cbv zeta.
    apply (day_number_J _ _ V) in N. unfold valid_date in R. now replace (_ && _) with false by lia.
Qed.
Print Assumptions C46_refused.

(** A one or two digit year yy means the same as the long year 2000+yy or 1900+yy. *)
Theorem C46_window : forall md order A B C L sep,
  short_digits A -> short_digits B -> short_digits C -> short_digits L ->
  (length A <= 2)%nat -> (length B <= 2)%nat -> (length C <= 2)%nat -> (3 <= length L)%nat -> separator sep ->
  let yy := digits_value (match order with YMD => A | _ => C end) in
  digits_value L = (if yy <? 70 then 2000 + yy else 1900 + yy) ->
  date_try_from_str md (numeric_date_text A B C sep Unmarked) order =
  date_try_from_str md
    (match order with YMD => numeric_date_text L B C sep Unmarked | _ => numeric_date_text A B L sep Unmarked end) order.
Proof.
  intros md order A B C L sep PA PB PC PL LA LB LC LL Sp yy E.
  pose proof (numeric_date A B C sep order PA PB PC LB Sp md Unmarked) as E1.
  unfold numeric_date_text. cbn [app] in *. rewrite E1. clear E1. unfold reading.
  assert ((3 <=? length A)%nat = false) as La by (apply Nat.leb_gt; lia). rewrite La.
  assert (meant_year Unmarked L = Some (if yy <? 70 then 2000 + yy else 1900 + yy)) as Ml.
  { unfold meant_year. replace (length L <=? 2)%nat with false by (symmetry; apply Nat.leb_gt; lia). rewrite E.
    assert (0 <= yy) by (unfold yy; destruct order; apply DigitsP.digits_value_bound; first [apply PA|apply PC]).
    destruct (yy <? 70); rewrite (proj2 (Z.eqb_neq _ _)) by lia; reflexivity. }
  assert (forall Q, (length Q <= 2)%nat -> meant_year Unmarked Q =
    Some (if digits_value Q <? 70 then 2000 + digits_value Q else 1900 + digits_value Q)) as Ms.
  { intros Q Lq. unfold meant_year. now replace (length Q <=? 2)%nat with true by (symmetry; apply Nat.leb_le; lia). }
  destruct order.
  - pose proof (numeric_date L B C sep YMD PL PB PC LB Sp md Unmarked) as E2. cbn [app] in *. rewrite E2. clear E2.
    unfold reading. replace (3 <=? length L)%nat with true by (symmetry; apply Nat.leb_le; lia). cbn [fst snd].
    now rewrite Ml, Ms.
  - pose proof (numeric_date A B L sep DMY PA PB PL LB Sp md Unmarked) as E2. cbn [app] in *. rewrite E2. clear E2.
    unfold reading. rewrite La. cbn [fst snd]. now rewrite Ml, Ms.
  - pose proof (numeric_date A B L sep MDY PA PB PL LB Sp md Unmarked) as E2. cbn [app] in *. rewrite E2. clear E2.
    unfold reading. rewrite La. cbn [fst snd]. now rewrite Ml, Ms.
Qed.
Print Assumptions C46_window.

(** Year 0 is refused, unless it is written with one or two digits and no BC. *)
Theorem C46_year_zero : forall md order A B C sep e,
  short_digits A -> short_digits B -> short_digits C -> (length B <= 2)%nat -> separator sep ->
  let '(Y, _, _) := reading order A B C in
  digits_value Y = 0 -> (3 <= length Y)%nat \/ e = MarkedBC ->
  date_try_from_str md (numeric_date_text A B C sep e) order = Err EOverflow.
Proof.
  intros md order A B C sep e PA PB PC LB Sp.
  pose proof (C46_refused md order A B C sep e PA PB PC LB Sp) as H.
  destruct (reading order A B C) as [[Y M] D]. intros Z0 L. apply H. unfold meant_year. rewrite Z0.
  destruct L as [L| ->]; [|reflexivity].
  replace (length Y <=? 2)%nat with false by (symmetry; apply Nat.leb_gt; lia). destruct e; reflexivity.
Qed.
Print Assumptions C46_year_zero.

Example C46_example :
  short_digits (bs "7") /\ reading DMY (bs "29") (bs "2") (bs "04") = (bs "04", bs "2", bs "29")
  /\ meant_year Unmarked (bs "04") = Some 2004 /\ meant_year Unmarked (bs "70") = Some 1970
  /\ meant_year MarkedBC (bs "44") = Some (-43) /\ meant_year MarkedAD (bs "000") = None
  /\ valid_ymd (2004, 2, 29)
  /\ date_try_from_str Debug (bs "29/2/04") DMY = Ok 1520
  /\ date_try_from_str Debug (bs "29/2/05") DMY = Err EOverflow
  /\ date_try_from_str Debug (bs "15.03.0044 BC") DMY = date_try_from_str Debug (bs "3-15-44 BC") MDY.
Proof. vm_compute. repeat split; try discriminate; repeat constructor; discriminate. Qed.
