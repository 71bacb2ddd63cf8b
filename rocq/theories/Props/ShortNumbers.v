(** Texts without long numbers: C72. *)
From Verif Require Import Model.Parse Spec.Text Spec.Lexing Spec.ShortNumbers Proofs.LexP Proofs.FieldsP Proofs.SafeP Proofs.ModesP.
From Verif Require Import Proofs.DigitsP Proofs.OverflowP Proofs.IvOverflowP.
From Coq Require Import List ZArith Bool Lia.
Import ListNotations.
Open Scope Z_scope.

(** The call returns a value or an error, the same in a debug and a release build: no panic, no
    undefined behaviour. *)
Definition never_panics {A} (f : mode -> res A) : Prop :=
  ((exists v, forall md, f md = Ok v) \/ (exists e, forall md, f md = Err e)).

Lemma never {A} (f : mode -> res A) : (forall md, sf md (f md)) -> (forall md, f md <> Fault FArith) ->
  agr (f Debug) (f Release) -> never_panics f.
Proof.
  intros S N [[x E]|E].
  - exfalso. specialize (S Debug). specialize (N Debug). rewrite E in *. destruct x; easy.
  - specialize (S Release). unfold never_panics. destruct (f Release) as [v|e|x] eqn:Q.
    + left. exists v. intros []; congruence.
    + right. exists e. intros []; congruence.
    + destruct x; easy.
Qed.

(** A text of at most 128 bytes that are not white space, with no more than six digits in a row, that
    does not end in a sign or a lone "t" and does not hold the word "bc". *)
Theorem C72_date : forall s n order, significant s n -> (n <= 128)%nat -> ~ ends_with_sign s -> ~ ends_with_t s ->
  short_numbers s -> ~ has_word (bs "bc") s ->
  never_panics (fun md => date_try_from_str md s order).
Proof.
  intros s n o S L E T Sh B. apply significant_iff in S. subst n. apply never.
  - intros md. apply sf_date_from_str; [exact L|exact (typed_text s (sign_end s E))|exact (end_text s (t_end s T))].
  - intros md. apply nf_true, (nf_date s false); auto. discriminate.
  - apply date_try_from_str_agr.
Qed.
Print Assumptions C72_date.

(** For timestamps the word "h", which starts a time, is excluded as well. *)
Theorem C72_timestamp : forall s n type_mod order, significant s n -> (n <= 128)%nat -> ~ ends_with_sign s -> ~ ends_with_t s ->
  short_numbers s -> ~ has_word (bs "bc") s -> ~ has_word (bs "h") s ->
  never_panics (fun md => timestamp_try_from_str md s type_mod order).
Proof.
  intros s n m o S L E T Sh B H. apply significant_iff in S. subst n. apply never.
  - intros md. apply sf_timestamp_from_str; [exact L|exact (typed_text s (sign_end s E))|exact (end_text s (t_end s T))].
  - intros md. apply nf_true, (nf_timestamp s true); auto.
  - apply timestamp_try_from_str_agr.
Qed.
Print Assumptions C72_timestamp.

(** For times a lone "t" at the end does no harm. *)
Theorem C72_time : forall s n type_mod order, significant s n -> (n <= 128)%nat -> ~ ends_with_sign s ->
  short_numbers s -> ~ has_word (bs "bc") s ->
  never_panics (fun md => time_try_from_str md s type_mod order).
Proof.
  intros s n m o S L E Sh B. apply significant_iff in S. subst n. apply never.
  - intros md. apply sf_time_from_str; [exact L|exact (typed_text s (sign_end s E))].
  - intros md. apply nf_true, (nf_time s false); auto. discriminate.
  - apply time_try_from_str_agr.
Qed.
Print Assumptions C72_time.

(** For intervals neither "t" nor "bc" nor "h" matters. *)
Theorem C72_interval : forall s n type_mod style, significant s n -> (n <= 128)%nat -> ~ ends_with_sign s ->
  short_numbers s ->
  never_panics (fun md => interval_try_from_str md s type_mod style).
Proof.
  intros s n m st S L E Sh. apply significant_iff in S. subst n. apply never.
  - intros md. apply sf_interval_from_str; [exact L|exact (typed_text s (sign_end s E))].
  - intros md. apply nf_true, nf_interval; assumption.
  - apply interval_try_from_str_agr.
Qed.
Print Assumptions C72_interval.

(** A text that meets all of these conditions, and is no date. *)
Fixpoint runs_small (k : nat) (s : bytes) : bool :=
  (Nat.leb k 6 && match s with [] => true | c :: r => runs_small (if is_digit c then S k else 0%nat) r end)%bool.
Lemma runs_small_sound s : forall k, runs_small k s = true -> (forall d b, s = d ++ b -> Forall digit d -> (k + length d <= 6)%nat)
  /\ short_numbers s.
Proof.
  induction s as [|c s IH]; intros k H; cbn [runs_small] in H; apply andb_prop in H as [K H]; apply Nat.leb_le in K.
  - split.
    + intros [|] b E _; [cbn; lia|discriminate].
    + intros [|] [|] b E _; cbn; try lia; discriminate.
  - destruct (IH _ H) as [R Sh]. split.
    + intros [|x d] b E D; [cbn; lia|]. injection E as -> ->. inversion D as [|? ? C D']; subst.
      apply is_digit_iff in C. rewrite C in R. specialize (R d b eq_refl D'). cbn. lia.
    + intros [|x a] d b E D; cbn [app] in E.
      * destruct d as [|x d]; [cbn; lia|]. injection E as -> ->. inversion D as [|? ? C D']; subst.
        apply is_digit_iff in C. rewrite C in R. specialize (R d b eq_refl D'). cbn. lia.
      * injection E as _ ->. exact (Sh a d b eq_refl D).
Qed.
Lemma word_head w x s : has_word (x :: w) s -> exists c, In c s /\ to_lower c = x.
Proof.
  intros (a & v & b & -> & E & _). destruct v as [|c v]; [discriminate|]. injection E as E _. exists c. split; [|exact E].
  apply in_or_app. right. now left.
Qed.

Example C72_example : let s := bs "~2020-13-99 99:99 7'?" in
  significant s 19 /\ ~ ends_with_sign s /\ ~ ends_with_t s /\ short_numbers s /\ ~ has_word (bs "bc") s /\ ~ has_word (bs "h") s.
Proof.
  cbv zeta. split; [apply significant_iff; reflexivity|]. split; [|split; [|split; [|split]]].
  - intros (a & c & w & E & C & W). destruct w as [|x w].
    + apply (f_equal (fun l => last l 0)) in E. rewrite last_last in E. cbn in E. lia.
    + destruct (exists_last (l := x :: w) ltac:(easy)) as (w' & z & Ez). rewrite Ez in *.
      apply (f_equal (fun l => last l 0)) in E. rewrite app_comm_cons, app_assoc, last_last in E. cbn in E. subst z.
      apply Forall_app in W as [_ W]. apply Forall_inv in W. unfold white in W. lia.
  - intros (a & c & w & E & C & _). assert (In c (bs "~2020-13-99 99:99 7'?")) as I by (rewrite E; apply in_or_app; right; now left).
    vm_compute in I. lia.
  - apply (runs_small_sound _ 0). reflexivity.
  - intros H. apply word_head in H as (c & I & E). vm_compute in I. unfold to_lower in E.
    repeat (destruct I as [<-|I]; [discriminate E|]). exact I.
  - intros H. apply word_head in H as (c & I & E). vm_compute in I. unfold to_lower in E.
    repeat (destruct I as [<-|I]; [discriminate E|]). exact I.
Qed.

(** Each condition is needed. Seven digits in a row: *)
Theorem C72_long_refuted : forall order type_mod,
  date_try_from_str Debug (bs "9999999-123") order = Fault FArith
  /\ time_try_from_str Debug (bs "9999999-123 10:00") type_mod order = Fault FArith
  /\ timestamp_try_from_str Debug (bs "9999999-123 10:00") type_mod order = Fault FArith.
Proof. intros o m. destruct o; vm_compute; repeat split; reflexivity. Qed.
Print Assumptions C72_long_refuted.
Theorem C72_interval_long_refuted : forall style,
  interval_try_from_str Debug (bs "9999999 mil") (-1) style = Fault FArith.
Proof. intros st. destruct st; vm_compute; reflexivity. Qed.
Print Assumptions C72_interval_long_refuted.
(** The word "bc" behind a year and a day of the year: *)
Theorem C72_bc_refuted : forall order type_mod,
  date_try_from_str Debug (bs "4714-123 bc") order = Fault FArith
  /\ time_try_from_str Debug (bs "4714-123 10:00 bc") type_mod order = Fault FArith
  /\ timestamp_try_from_str Debug (bs "4714-123 10:00 bc") type_mod order = Fault FArith.
Proof. intros o m. destruct o; vm_compute; repeat split; reflexivity. Qed.
Print Assumptions C72_bc_refuted.
(** The word "h" in a timestamp: *)
Theorem C72_h_refuted : forall type_mod,
  timestamp_try_from_str Debug (bs "2020-01-01 h999999") type_mod YMD = Fault FArith.
Proof. intros m. vm_compute. reflexivity. Qed.
Print Assumptions C72_h_refuted.
