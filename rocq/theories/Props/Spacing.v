(** Letter case and white space: C44. *)
From Coq Require Import String.
From Verif Require Import Model.Parse Spec.Text Spec.Lexing Proofs.Arith Proofs.LexP Proofs.FieldsP Proofs.FoldP Proofs.SpaceP Proofs.CaseP.
From Coq Require Import List ZArith Bool Lia.
Import ListNotations.
Open Scope Z_scope.

(** Both texts give the same result (value, error or panic) to every parser. An interval text that
    begins with "P" may also be read as ISO 8601, where case and spaces matter. *)
Definition same_reading (s s' : list Z) : Prop :=
  (forall md order, date_try_from_str md s order = date_try_from_str md s' order)
  /\ (forall md p order, timestamp_try_from_str md s p order = timestamp_try_from_str md s' p order)
  /\ (forall md p order, time_try_from_str md s p order = time_try_from_str md s' p order)
  /\ (hd 0 s <> 80 -> hd 0 s' <> 80 ->
      forall md p style, interval_try_from_str md s p style = interval_try_from_str md s' p style).

Lemma same_fields s s' : parse_date_time s = parse_date_time s' -> same_reading s s'.
Proof.
  intros E. unfold same_reading, date_try_from_str, timestamp_try_from_str, time_try_from_str, interval_try_from_str.
  rewrite E. repeat (split; [reflexivity|]). intros H H' md p style.
  destruct (parse_date_time s') as [ts|e|f]; cbn [bind]; [|reflexivity..].
  destruct (decode_interval md ts _ style (tm_new, 0)) as [x [k|[]|f]]; try reflexivity. now rewrite !not_iso.
Qed.

(** Changing the case of letters never changes which value is read. An interval text that begins with
    "P" is left out: ISO 8601 designators must be capitals. *)
Theorem C44_case : forall s s', List.map to_lower s = List.map to_lower s' ->
  (forall md order v, date_try_from_str md s order = Ok v <-> date_try_from_str md s' order = Ok v)
  /\ (forall md p order v, timestamp_try_from_str md s p order = Ok v <-> timestamp_try_from_str md s' p order = Ok v)
  /\ (forall md p order v, time_try_from_str md s p order = Ok v <-> time_try_from_str md s' p order = Ok v)
  /\ (hd 0 s <> 80 -> hd 0 s' <> 80 ->
      forall md p style, interval_try_from_str md s p style = interval_try_from_str md s' p style).
Proof. exact case_values. Qed.
Print Assumptions C44_case.

(** Nor the error or panic, unless a capital stands late in a compound word. *)
Theorem C44_case_errors : forall s s', ~ late_capital s -> ~ late_capital s' ->
  List.map to_lower s = List.map to_lower s' -> same_reading s s'.
Proof. intros s s' H H' E. apply same_fields. apply parse_same_case; auto. Qed.
Print Assumptions C44_case_errors.

(** In such words the kind of the error can differ: the tail of a word is not changed to lower case
    before it is looked up. *)
Theorem C44_case_errors_refuted : exists s s', List.map to_lower s = List.map to_lower s' /\ forall md,
  date_try_from_str md s DMY <> date_try_from_str md s' DMY.
Proof.
  exists (bs "mar-99999999999-at"), (bs "mar-99999999999-AT"). split; [reflexivity|]. intros md. destruct md; vm_compute; discriminate.
Qed.
Print Assumptions C44_case_errors_refuted.

(** A text in ISO 8601 form is refused in small letters. *)
Theorem C44_case_iso_refuted : exists s s', List.map to_lower s = List.map to_lower s' /\ forall md style,
  interval_try_from_str md s (-1) style = Ok (mkInterval 0 1 0) /\ interval_try_from_str md s' (-1) style = Err EInvalid.
Proof.
  exists (bs "P1D"), (bs "p1d"). split; [reflexivity|]. intros md style. split; destruct md, style; vm_compute; reflexivity.
Qed.
Print Assumptions C44_case_iso_refuted.

(** Runs of white space can be replaced by other runs, and white space can be added at the end, except
    directly after a ".". *)
Theorem C44_white : forall s s', s <> [] -> s' <> [] -> respaced s s' -> same_reading s s'.
Proof. intros s s' N N' R. apply same_fields. apply parse_respaced; auto. now apply respaced_sim. Qed.
Print Assumptions C44_white.

Theorem C44_leading : forall w s, Forall white w -> s <> [] -> same_reading (w ++ s) s.
Proof. intros w s W N. apply same_fields. now apply parse_leading. Qed.
Print Assumptions C44_leading.

Theorem C44_trailing : forall s w, Forall white w -> s <> [] -> last s 0 <> 46 -> same_reading (s ++ w) s.
Proof.
  intros s w W N L. apply C44_white; [now destruct s|exact N|].
  destruct w as [|z w]; [rewrite app_nil_r; clear|].
  { induction s as [|c s IH]; [now apply rs_end|now apply rs_byte]. }
  induction s as [|c s IH]; [easy|]. destruct s as [|d s].
  - cbn [app]. apply rs_byte; [now apply rs_end|]. cbn [last] in L. easy.
  - cbn [app] in *. apply rs_byte; [|easy]. apply IH; [easy|exact L].
Qed.
Print Assumptions C44_trailing.

(** After a "." a space changes the field from a number into a date. *)
Theorem C44_dot_refuted : exists s, forall md,
  time_try_from_str md s (-1) YMD = Ok 36600000000 /\ time_try_from_str md (s ++ [32]) (-1) YMD = Err EInvalid.
Proof. exists (bs "1010."). intros md; split; destruct md; vm_compute; reflexivity. Qed.
Print Assumptions C44_dot_refuted.

(** The empty text is refused, but white space alone is the time 00:00:00. *)
Theorem C44_empty_refuted : forall md p order, time_try_from_str md [] p order = Err EEmpty
  /\ time_try_from_str md [32] (-1) order = Ok 0.
Proof. intros md p order. split; [reflexivity|]. destruct md, order; vm_compute; reflexivity. Qed.
Print Assumptions C44_empty_refuted.

Example C44_example :
  ~ late_capital (bs "8 MAR 2000 10:00 PM") /\ ~ late_capital (bs "8 mar 2000 10:00 pm")
  /\ respaced (bs "Mar 8  2000 ") (bs "Mar 8 2000")
  /\ date_try_from_str Debug (bs "08-MAR-2000") DMY = Ok 67.
Proof.
  assert (forall s, late_capital s -> exists a l x b, s = a ++ l :: x :: b
    /\ letter l /\ (digit x \/ x = 43 \/ x = 45 \/ x = 47 \/ x = 46)) as N.
  { intros s (a & l & x & p & u & b & E & L & X & _). exists a, l, x, (p ++ u :: b). auto. }
  split; [|split; [|split]].
  1, 2: intros H; apply N in H as (a & l & x & b & E & L & X); unfold bs in E; cbn in E;
    repeat first [discriminate
      | destruct a as [|? a]; cbn in E; [try discriminate; injection E as ? ? ?; subst; unfold letter, digit in *; lia|injection E as _ E]];
    destruct a; discriminate.
  - assert (respaced ([32; 32] ++ bs "2000" ++ [32]) ([32] ++ bs "2000")) as R.
    { apply rs_run; [repeat constructor; fail..|discriminate|discriminate|].
      unfold bs; cbn. do 4 (apply rs_byte; [|discriminate]). apply rs_end; repeat constructor. }
    unfold bs in *; cbn in *. do 5 (apply rs_byte; [|discriminate]). exact R.
  - vm_compute. reflexivity.
Qed.
