(** Properties of keyword lookup and its caches: C40, C41. *)
From Coq Require Import String.
From Verif Require Import Model.ParseCached Spec.Keywords Proofs.TokenP Proofs.CacheP.
From Coq Require Import List ZArith Bool.
Import ListNotations.
Open Scope Z_scope.

(** ** C40: keyword lookup finds exactly the listed keywords *)

(** The word [w] means (kind, value) according to the listed keywords [table]; a word that is not
    listed has kind [UnknownField]. Only the first ten letters count. *)
Definition means (table : list date_token) (w : bytes) (kind : token_type) (v : Z) : Prop :=
  (exists t, In t table /\ dt_token t = firstn 10 w /\ kind = dt_ty t /\ v = dt_value t)
  \/ ((forall t, In t table -> dt_token t <> firstn 10 w) /\ kind = UnknownField /\ v = 0).

Lemma lookup_means table w kind v : sorted table ->
  decode_nocache table w = Ok (kind, v) <-> means table w kind v.
Proof.
  intros S. unfold decode_nocache, means.
  destruct (token_search_ok table (token_key w) S) as (o & -> & H). cbn [bind].
  rewrite token_key_idem in H. change (token_key w) with (firstn 10 w) in H.
  destruct o as [t|].
  - destruct H as [I K]. split.
    + intros E. injection E as <- <-. left. now exists t.
    + intros [(u & Iu & Ku & -> & ->)|(N & _)]; [|now destruct (N t I)].
      now rewrite (sorted_unique table u t S Iu I ltac:(congruence)).
  - split.
    + intros E. injection E as <- <-. right. auto.
    + intros [(u & Iu & Ku & _)|(N & -> & ->)]; [now destruct (H u Iu)|easy].
Qed.

Lemma sorted_nodup table : sorted table -> NoDup (List.map dt_token table).
Proof.
  intros S. apply NoDup_nth_error. intros i j L E. rewrite map_length in L. rewrite !nth_error_map in E.
  destruct (nth_error table i) as [a|] eqn:A; [|apply nth_error_None in A; now apply Nat.lt_nge in L].
  destruct (nth_error table j) as [b|] eqn:B; cbn in E; [|discriminate]. injection E as E.
  destruct (Nat.lt_trichotomy i j) as [H|[H|H]]; [|exact H|].
  - pose proof (S i j a b H A B) as C. rewrite E, bcmp_refl in C. discriminate.
  - pose proof (S j i b a H B A) as C. rewrite E, bcmp_refl in C. discriminate.
Qed.

(** No keyword is listed twice, so a word has one meaning. *)
Theorem C40_unambiguous :
  NoDup (List.map dt_token DATE_TOKEN_TABLE) /\ NoDup (List.map dt_token DELTA_TOKEN_TABLE).
Proof. split; apply sorted_nodup; [exact date_table_sorted|exact delta_table_sorted]. Qed.
Print Assumptions C40_unambiguous.

Theorem C40_date_words : forall w kind v,
  decode_special w = Ok (kind, v) <-> means DATE_TOKEN_TABLE w kind v.
Proof. intros. apply lookup_means. exact date_table_sorted. Qed.
Print Assumptions C40_date_words.

Theorem C40_interval_words : forall w kind v,
  decode_units w = Ok (kind, v) <-> means DELTA_TOKEN_TABLE w kind v.
Proof. intros. apply lookup_means. exact delta_table_sorted. Qed.
Print Assumptions C40_interval_words.

(** The lookup always gives an answer: no fault, no error. *)
Theorem C40_total : forall w,
  (exists a, decode_special w = Ok a) /\ (exists a, decode_units w = Ok a).
Proof.
  intros w. unfold decode_special, decode_units, decode_nocache.
  destruct (token_search_ok _ (token_key w) date_table_sorted) as ([t|] & -> & _),
    (token_search_ok _ (token_key w) delta_table_sorted) as ([u|] & -> & _); cbn [bind]; eauto.
Qed.
Print Assumptions C40_total.

(** *** Meanings *)

(** The entries of one kind, as (word, value) pairs *)
Definition listed (table : list date_token) (kind : token_type) : list (bytes * Z) :=
  List.map (fun t => (dt_token t, dt_value t)) (filter (fun t => tteq (dt_ty t) kind) table).

Lemma listed_in table kind w v : kind <> UnknownField ->
  means table w kind v <-> In (firstn 10 w, v) (listed table kind).
Proof.
  intros U. unfold means, listed. rewrite in_map_iff. split.
  - intros [(t & I & K & -> & ->)|(_ & E & _)]; [|easy]. exists t. split; [now rewrite K|].
    apply filter_In. split; [easy|]. unfold tteq. now destruct (tt_eq_dec (dt_ty t) (dt_ty t)).
  - intros (t & E & I). apply filter_In in I as [I Q]. injection E as K V. left. exists t.
    unfold tteq in Q. destruct (tt_eq_dec (dt_ty t) kind); [auto|discriminate].
Qed.

(** Two lists with the same elements, decided *)
Definition pair_dec (a b : bytes * Z) : {a = b} + {a <> b}.
Proof. decide equality; [apply Z.eq_dec|apply list_eq_dec, Z.eq_dec]. Defined.
Definition inclb (a b : list (bytes * Z)) : bool :=
  forallb (fun x => if in_dec pair_dec x b then true else false) a.
Lemma inclb_ok a b : inclb a b = true -> incl a b.
Proof.
  unfold inclb. rewrite forallb_forall. intros H x I. specialize (H x I). now destruct (in_dec pair_dec x b).
Qed.
Lemma same_elements a b : inclb a b && inclb b a = true -> forall x, In x a <-> In x b.
Proof. rewrite andb_true_iff. intros [A B] x. split; apply inclb_ok; assumption. Qed.

Ltac words := intros w v; rewrite C40_date_words, listed_in by discriminate;
  apply same_elements; vm_compute; reflexivity.

(** A word names a month exactly if it is one of the English month names. *)
Theorem C40_months : forall w m,
  decode_special w = Ok (MONTH, m) <-> In (firstn 10 w, m) month_words.
Proof. words. Qed.
Print Assumptions C40_months.

Theorem C40_weekdays : forall w d,
  decode_special w = Ok (DOW, d) <-> In (firstn 10 w, d) weekday_words.
Proof. words. Qed.
Print Assumptions C40_weekdays.

Theorem C40_halves : forall w h,
  decode_special w = Ok (AMPM, h) <-> In (firstn 10 w, h) half_words.
Proof. words. Qed.
Print Assumptions C40_halves.

Theorem C40_eras : forall w e,
  decode_special w = Ok (ADBC, e) <-> In (firstn 10 w, e) era_words.
Proof. words. Qed.
Print Assumptions C40_eras.

(** The field code of each interval unit, src/token.rs:184-226 *)
Definition unit_code (u : iunit) : Z :=
  match u with
  | UMicro => 30 | UMilli => 29 | USecond => 18 | UMinute => 19 | UHour => 20 | UDay => 21
  | UWeek => 22 | UMonth => 23 | UQuarter => 24 | UYear => 25 | UDecade => 26 | UCentury => 27
  | UMillennium => 28 | UZone => 4 | UZoneHour => 34 | UZoneMinute => 35
  end.

(** A word is an interval unit exactly if it is a spelling of that unit. *)
Theorem C40_units : forall w v,
  decode_units w = Ok (UNITS, v) <-> exists u, v = unit_code u /\ In (firstn 10 w, u) unit_words.
Proof.
  intros w v. rewrite C40_interval_words, listed_in by discriminate.
  rewrite (same_elements _ (List.map (fun p => (fst p, unit_code (snd p))) unit_words))
    by (vm_compute; reflexivity).
  rewrite in_map_iff. split.
  - intros ([a u] & E & I). cbn in E. injection E as -> <-. eauto.
  - intros (u & -> & I). exists (firstn 10 w, u). auto.
Qed.
Print Assumptions C40_units.

(** Only the first ten letters matter. *)
Theorem C40_prefix : forall w w', firstn 10 w = firstn 10 w' ->
  decode_special w = decode_special w' /\ decode_units w = decode_units w'.
Proof.
  intros w w' E. unfold decode_special, decode_units, decode_nocache.
  now change (token_key w) with (firstn 10 w); change (token_key w') with (firstn 10 w'); rewrite E.
Qed.
Print Assumptions C40_prefix.

(** Finding: the usual abbreviation of February is not a keyword, the table has "fe" instead. *)
Theorem C40_feb_missing_refuted :
  ~ (forall w m, In (w, m) [(bs "jan", 1); (bs "feb", 2); (bs "mar", 3)] -> decode_special w = Ok (MONTH, m)).
Proof.
  intros H. specialize (H (bs "feb") 2 (or_intror (or_introl eq_refl))). vm_compute in H. discriminate.
Qed.
Print Assumptions C40_feb_missing_refuted.

Example C40_case :
  decode_special (bs "september") = Ok (MONTH, 9) /\ decode_units (bs "microseconds") = Ok (UNITS, 30)
  /\ decode_units (bs "fortnight") = Ok (UnknownField, 0).
Proof. vm_compute. auto. Qed.

(** ** C41: earlier parses never influence later ones *)

(** After any history of parses on a thread (successful, refused or panicking), a call replies as
    it does on a new thread. *)
Theorem C41_no_influence : forall md earlier c,
  snd (perform md c (fst (history md earlier caches_new))) = snd (perform md c caches_new).
Proof.
  intros md h c. destruct (history_ok md h caches_new caches_new_ok) as (k & -> & H). cbn [fst].
  destruct (perform_ok md c k H) as (k1 & -> & _).
  now destruct (perform_ok md c caches_new caches_new_ok) as (k2 & -> & _).
Qed.
Print Assumptions C41_no_influence.

(** The replies of a whole history are the replies of its calls made each on a thread of its own. *)
Theorem C41_history : forall md calls,
  snd (history md calls caches_new) = List.map (fun c => snd (perform md c caches_new)) calls.
Proof.
  intros md cs. destruct (history_ok md cs caches_new caches_new_ok) as (k & -> & _). cbn [snd].
  apply map_ext. intros c. now destruct (perform_ok md c caches_new caches_new_ok) as (k2 & -> & _).
Qed.
Print Assumptions C41_history.

(** In particular the parsers without cache, about which all other properties are stated, reply
    as the real ones do. *)
Theorem C41_cache_invisible : forall md earlier s tmod order style,
  let k := fst (history md earlier caches_new) in
  snd (date_try_from_str_c md s order k) = date_try_from_str md s order
  /\ snd (time_try_from_str_c md s tmod order k) = time_try_from_str md s tmod order
  /\ snd (timestamp_try_from_str_c md s tmod order k) = timestamp_try_from_str md s tmod order
  /\ snd (interval_try_from_str_c md s tmod style k) = interval_try_from_str md s tmod style.
Proof.
  intros md h s m o st k. subst k.
  destruct (history_ok md h caches_new caches_new_ok) as (k & -> & H). cbn [fst].
  destruct (date_try_sound md s o k H) as (? & -> & _), (time_try_sound md s m o k H) as (? & -> & _),
    (timestamp_try_sound md s m o k H) as (? & -> & _), (interval_try_sound md s m st k H) as (? & -> & _).
  auto.
Qed.
Print Assumptions C41_cache_invisible.

(** The caches do fill: "at" and "june" are remembered, and the same slots later serve other words. *)
Example C41_case :
  let h := [CallDate (bs "at 5 june 2020") DMY; CallInterval (bs "1 day 2 hours") (-1) IPostgres] in
  fst (history Debug h caches_new) <> caches_new
  /\ snd (perform Debug (CallDate (bs "6 july 2021") DMY) (fst (history Debug h caches_new))) = RNum (Ok 7857).
Proof. split; [vm_compute; discriminate|vm_compute; reflexivity]. Qed.
