(** Safety of the text parsers: C42, C45. *)
From Coq Require Import String.
From Verif Require Import Model.Parse Spec.Lexing Proofs.LexP Proofs.FieldsP Proofs.CacheP Proofs.SafeP.
From Coq Require Import List ZArith Bool Lia.
Import ListNotations.
Open Scope Z_scope.

(** ** C45: the number of fields is bounded *)

(** Whatever tokenizing accepts fits the field arrays (25 entries) and the work buffer (128
    bytes). *)
Theorem C45_bounds : forall s ts, parse_date_time s = Ok ts ->
  (length ts <= 25)%nat /\ (list_sum (List.map (fun t => length (snd t)) ts) <= 128)%nat.
Proof. intros s ts E. split; [exact (parse_len s ts E)|exact (parse_room s ts E)]. Qed.
Print Assumptions C45_bounds.
Example C45_bounds_example : exists ts, parse_date_time (bs "2020-02-29 10:00:00.5 BC") = Ok ts /\ length ts = 3%nat.
Proof. eexists. split; vm_compute; reflexivity. Qed.

(** With at most 128 bytes that are not white space tokenizing stays within bounds, whatever the
    bytes are: it gives at most 25 fields or reports an error. *)
Theorem C45_total : forall s n, significant s n -> (n <= 128)%nat ->
  (exists ts, parse_date_time s = Ok ts /\ (length ts <= 25)%nat)
  \/ (s = [] /\ parse_date_time s = Err EEmpty) \/ parse_date_time s = Err EInvalid.
Proof.
  intros s n S L. apply significant_iff in S. subst n. destruct s as [|c s]; [right; left; now split|].
  destruct (parse_ok (c :: s) ltac:(discriminate) L) as [(ts & E & _)|E]; [left|right; now right].
  exists ts. split; [exact E|exact (parse_len _ _ E)].
Qed.
Print Assumptions C45_total.
Example C45_total_example : significant (bs "a b") 2 /\ parse_date_time (bs "~ 1") <> Err EEmpty.
Proof. split; [apply significant_iff; reflexivity|vm_compute; discriminate]. Qed.

(** Texts of words, each only letters or only digits, with white space between them: up to 25
    words are all kept, in order and in lower case ... *)
Theorem C45_fields : forall ws s, spaced ws s -> s <> [] -> (length ws <= 25)%nat -> (total_length ws <= 128)%nat ->
  exists ts, parse_date_time s = Ok ts /\ List.map snd ts = List.map (List.map to_lower) ws.
Proof.
  intros ws s S N L T. exists (List.map word_field ws). split; [now apply parse_spaced|].
  rewrite map_map. clear N L T. induction S as [b B|b w ws s B [Nw P] S IH G]; [easy|]. cbn [List.map]. rewrite IH. f_equal.
  clear - Nw P. destruct w as [|c w]; [easy|]. unfold word_field. destruct (is_digit c) eqn:D; cbn [snd]; [|reflexivity].
  destruct P as [P|P]; [apply Forall_inv, letter_iff in P; rewrite (ParseP.alpha_not_digit c P) in D; discriminate|].
  revert P. generalize (c :: w). clear. intros l P. induction P as [|d l D P IH]; [easy|]. cbn [List.map]. rewrite <- IH. f_equal.
  apply DigitsP.is_digit_iff in D. unfold is_digit in D. unfold to_lower. destruct (65 <=? d) eqn:Q; [lia|reflexivity].
Qed.
Print Assumptions C45_fields.

(** ... more than 25 are refused with an Invalid error by all four parsers ... *)
Theorem C45_too_many : forall ws s md order type_mod style, spaced ws s -> (25 < length ws)%nat ->
  (total_length (firstn 25 ws) <= 128)%nat ->
  date_try_from_str md s order = Err EInvalid
  /\ timestamp_try_from_str md s type_mod order = Err EInvalid
  /\ time_try_from_str md s type_mod order = Err EInvalid
  /\ interval_try_from_str md s type_mod style = Err EInvalid.
Proof.
  intros ws s md o m st S L T. pose proof (parse_too_many ws s S L T) as E.
  unfold date_try_from_str, timestamp_try_from_str, time_try_from_str, interval_try_from_str. now rewrite E.
Qed.
Print Assumptions C45_too_many.

(** ... and all four panic if the first 25 do not fit into 128 bytes: the claim "refused rather
    than overrunning" is false without the bound on the bytes. *)
Theorem C45_long_refuted : forall ws s md order type_mod style, spaced ws s ->
  (128 < total_length (firstn 25 ws))%nat ->
  date_try_from_str md s order = Fault FIndex
  /\ timestamp_try_from_str md s type_mod order = Fault FIndex
  /\ time_try_from_str md s type_mod order = Fault FIndex
  /\ interval_try_from_str md s type_mod style = Fault FIndex.
Proof.
  intros ws s md o m st S T. pose proof (parse_overrun ws s S T) as E.
  unfold date_try_from_str, timestamp_try_from_str, time_try_from_str, interval_try_from_str. now rewrite E.
Qed.
Print Assumptions C45_long_refuted.

Lemma spaced_ones : forall n, spaced (repeat [49] n) (concat (repeat [49; 32] n)).
Proof.
  assert (forall n, spaced (repeat [49] n) (32 :: concat (repeat [49; 32] n))) as H.
  { induction n as [|n IH]; [apply (sp_nil [32]); repeat constructor|].
    apply (sp_cons [32] [49] (repeat [49] n)); [repeat constructor| |exact IH|right; exists 32; eexists; split; [reflexivity|now left]].
    split; [easy|right]. repeat constructor; lia. }
  destruct n as [|n]; [apply (sp_nil []); constructor|]. apply (sp_cons [] [49] (repeat [49] n)); [constructor| |apply H|].
  - split; [easy|right]. repeat constructor; lia.
  - right. exists 32. eexists. split; [reflexivity|now left].
Qed.
Example C45_fields_example : spaced (repeat [49] 25) (concat (repeat [49; 32] 25)) /\ total_length (repeat [49] 25) = 25%nat.
Proof. split; [apply spaced_ones|reflexivity]. Qed.
Example C45_too_many_example : spaced (repeat [49] 26) (concat (repeat [49; 32] 26)) /\ (25 < length (repeat [49] 26))%nat.
Proof. split; [apply spaced_ones|cbn; lia]. Qed.
Example C45_long_example : spaced [repeat 97 129] (repeat 97 129) /\ (128 < total_length (firstn 25 [repeat 97%Z 129]))%nat.
Proof.
  split; [|cbn; lia]. rewrite <- (app_nil_r (repeat 97 129)). apply (sp_cons [] (repeat 97 129) [] []).
  - constructor.
  - split; [discriminate|left]. apply Forall_forall. intros c I. apply repeat_spec in I. subst c. right. lia.
  - constructor. constructor.
  - now left.
Qed.

(** ** C42: parsing arbitrary text is safe *)

Definition settled {A} (r : res A) : Prop := (exists v, r = Ok v) \/ (exists e, r = Err e).

Lemma sf_settled {A} (f : mode -> res A) : (forall md, sf md (f md)) ->
  settled (f Release) /\ (settled (f Debug) \/ f Debug = Fault FArith).
Proof.
  intros H. pose proof (H Release) as R. pose proof (H Debug) as D. unfold settled.
  split.
  - destruct (f Release) as [a|e|x]; eauto. destruct x; easy.
  - destruct (f Debug) as [b|e|x]; eauto. destruct x; try easy. now right.
Qed.

(** Up to 128 bytes that are not white space and an end that is neither a sign nor (for dates and
    timestamps) a lone "t": with overflow checks off every text gives Ok or Err; with overflow
    checks on the only other outcome is an arithmetic overflow. *)
Theorem C42_date : forall s n order, significant s n -> (n <= 128)%nat -> ~ ends_with_sign s -> ~ ends_with_t s ->
  settled (date_try_from_str Release s order)
  /\ (settled (date_try_from_str Debug s order) \/ date_try_from_str Debug s order = Fault FArith).
Proof.
  intros s n o S L E T. apply significant_iff in S. subst n. apply (sf_settled (fun md => date_try_from_str md s o)).
  intros md. apply sf_date_from_str; [exact L|exact (typed_text s (sign_end s E))|exact (end_text s (t_end s T))].
Qed.
Print Assumptions C42_date.

Theorem C42_timestamp : forall s n type_mod order, significant s n -> (n <= 128)%nat ->
  ~ ends_with_sign s -> ~ ends_with_t s ->
  settled (timestamp_try_from_str Release s type_mod order)
  /\ (settled (timestamp_try_from_str Debug s type_mod order)
      \/ timestamp_try_from_str Debug s type_mod order = Fault FArith).
Proof.
  intros s n m o S L E T. apply significant_iff in S. subst n. apply (sf_settled (fun md => timestamp_try_from_str md s m o)).
  intros md. apply sf_timestamp_from_str; [exact L|exact (typed_text s (sign_end s E))|exact (end_text s (t_end s T))].
Qed.
Print Assumptions C42_timestamp.

Theorem C42_time : forall s n type_mod order, significant s n -> (n <= 128)%nat -> ~ ends_with_sign s ->
  settled (time_try_from_str Release s type_mod order)
  /\ (settled (time_try_from_str Debug s type_mod order) \/ time_try_from_str Debug s type_mod order = Fault FArith).
Proof.
  intros s n m o S L E. apply significant_iff in S. subst n. apply (sf_settled (fun md => time_try_from_str md s m o)).
  intros md. apply sf_time_from_str; [exact L|exact (typed_text s (sign_end s E))].
Qed.
Print Assumptions C42_time.

Theorem C42_interval : forall s n type_mod style, significant s n -> (n <= 128)%nat -> ~ ends_with_sign s ->
  settled (interval_try_from_str Release s type_mod style)
  /\ (settled (interval_try_from_str Debug s type_mod style)
      \/ interval_try_from_str Debug s type_mod style = Fault FArith).
Proof.
  intros s n m st S L E. apply significant_iff in S. subst n. apply (sf_settled (fun md => interval_try_from_str md s m st)).
  intros md. apply sf_interval_from_str; [exact L|exact (typed_text s (sign_end s E))].
Qed.
Print Assumptions C42_interval.

Example C42_example : let s := bs "~2020-13-99 7'?" in
  significant s 14 /\ ~ ends_with_sign s /\ ~ ends_with_t s.
Proof.
  cbv zeta. split; [apply significant_iff; reflexivity|]. split.
  - intros (a & c & w & E & C & W). destruct w as [|x w].
    + apply (f_equal (fun l => last l 0)) in E. rewrite last_last in E. cbn in E. lia.
    + destruct (exists_last (l := x :: w) ltac:(easy)) as (w' & z & Ez). rewrite Ez in *.
      apply (f_equal (fun l => last l 0)) in E. rewrite app_comm_cons, app_assoc, last_last in E. cbn in E. subst z.
      apply Forall_app in W as [_ W]. apply Forall_inv in W. unfold white in W. lia.
  - intros (a & c & w & E & C & _). assert (In c (bs "~2020-13-99 7'?")) as I by (rewrite E; apply in_or_app; right; now left).
    vm_compute in I. lia.
Qed.

(** Without these conditions the claim is false in both build modes. Too long: *)
Theorem C42_long_refuted : forall md order type_mod style s, Forall letter s -> (128 < length s)%nat ->
  date_try_from_str md s order = Fault FIndex
  /\ timestamp_try_from_str md s type_mod order = Fault FIndex
  /\ time_try_from_str md s type_mod order = Fault FIndex
  /\ interval_try_from_str md s type_mod style = Fault FIndex.
Proof.
  intros md o m st s F L. apply (C45_long_refuted [s]).
  - rewrite <- (app_nil_r s) at 2. apply (sp_cons [] s [] []); [constructor| |repeat constructor|now left].
    split; [intros ->; cbn in L; lia|now left].
  - cbn. lia.
Qed.
Print Assumptions C42_long_refuted.

(** A sign at the end: the type of the last field is read although it was never written. *)
Theorem C42_sign_refuted : forall md order type_mod style,
  date_try_from_str md (bs "2020-01-01 +") order = Fault FUninit
  /\ timestamp_try_from_str md (bs "2020-01-01 +") type_mod order = Fault FUninit
  /\ time_try_from_str md (bs "10:00:00 -") type_mod order = Fault FUninit
  /\ interval_try_from_str md (bs "1 day -") (-1) style = Fault FUninit.
Proof. intros md o m st. destruct md, o, st; vm_compute; repeat split; reflexivity. Qed.
Print Assumptions C42_sign_refuted.

(** A lone "t" after a date: the type of the field after the last one is read. *)
Theorem C42_t_refuted : forall md type_mod,
  date_try_from_str md (bs "2020-01-01 t") YMD = Fault FIndex
  /\ timestamp_try_from_str md (bs "2020-01-01 T,") type_mod YMD = Fault FIndex.
Proof. intros md m. destruct md; vm_compute; split; reflexivity. Qed.
Print Assumptions C42_t_refuted.

(** Arithmetic overflow is reachable with overflow checks on, for each parser. *)
Theorem C42_overflow_refuted : forall order type_mod style,
  date_try_from_str Debug (bs "2147483647-123") order = Fault FArith
  /\ time_try_from_str Debug (bs "2147483647-123 10:00") type_mod order = Fault FArith
  /\ timestamp_try_from_str Debug (bs "2020-01-01 h2147483647") type_mod YMD = Fault FArith
  /\ interval_try_from_str Debug (bs "2147483647 weeks") (-1) style = Fault FArith.
Proof. intros o m st. destruct o, st; vm_compute; repeat split; reflexivity. Qed.
Print Assumptions C42_overflow_refuted.
