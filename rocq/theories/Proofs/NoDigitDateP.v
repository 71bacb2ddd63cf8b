(** Texts without any digit, read as dates, timestamps and times of day. *)
From Verif Require Import Model.F64 Model.Parse Model.DateTime Spec.Clock Proofs.Arith Proofs.DigitsP Proofs.SafeP Proofs.NoDigitP.
From Coq Require Import List ZArith Bool Lia.
Import List ListNotations.
Open Scope Z_scope.

(** ** A date field made of words has no year. *)
Definition wordy (f : bytes) : Prop := nodig f /\ exists c r, f = c :: r /\ is_alpha c = true.
Definition owordy (o : option bytes) : Prop := match o with Some f => wordy f | None => True end.

Lemma date_parts_words : forall fuel nf s ps, nodig s -> date_parts fuel nf s = Ok ps -> Forall wordy ps.
Proof.
  induction fuel as [|fuel IH]; intros nf s ps N; [discriminate|]. cbn [date_parts].
  destruct s as [|c0 s0]; [intros H; injection H as <-; constructor|].
  destruct (MAX_DATE_FIELDS <=? nf); [intros H; injection H as <-; constructor|].
  destruct (nodig_eat (fun i => negb (is_alnum i)) _ N) as (_ & N2).
  pose proof (eat_split (fun i => negb (is_alnum i)) (c0 :: s0)) as S.
  destruct (eat (fun i => negb (is_alnum i)) (c0 :: s0)) as (a, b). cbn [snd] in *. destruct S as (_ & _ & S).
  destruct b as [|c r]; [discriminate|]. inversion N2 as [|? ? D Nr]; subst. rewrite D.
  assert (is_alpha c = true) as A.
  { unfold stops in S. unfold is_alnum in S. rewrite D, orb_false_r in S. now destruct (is_alpha c). }
  destruct (nodig_eat is_alpha (c :: r) N2) as (N3 & N4). unfold eat_alphabetics.
  destruct (eat_first_eq is_alpha c r A) as (f & p & E). rewrite E in *. cbn [fst snd] in N3, N4.
  destruct (date_parts fuel (nf + 1) p) as [fs| |] eqn:E2; [|discriminate..]. cbn [bind].
  intros H. injection H as <-. constructor; [|eapply IH; eauto]. split; [exact N3|]. now exists c, f.
Qed.

Definition yb := tt_code YEAR.
Lemma text_month_year : forall ps fm t tm h qs fm' t' tm' h', Forall wordy ps ->
  text_month ps fm t tm h = Ok (qs, fm', t', tm', h') -> Forall owordy qs /\ Z.testbit fm' yb = Z.testbit fm yb.
Proof.
  induction ps as [|f ps IH]; intros fm t tm h qs fm' t' tm' h' F H.
  - cbn [text_month] in H. injection H as <- <- <- <- <-. split; [constructor|reflexivity].
  - inversion F as [|? ? W F']; subst. destruct W as (N & c & r & -> & A). cbn [text_month] in H. rewrite A in H.
    destruct (decode_special (c :: r)) as [[ty v]| |]; [|discriminate H..]. cbn [bind] in H.
    destruct (tteq ty IgnoreDtf).
    + destruct (text_month ps fm t tm h) as [[[[[a1 a2] a3] a4] a5]| |] eqn:E; [|discriminate H..]. cbn [bind] in H.
      injection H as <- <- <- <- <-. destruct (IH _ _ _ _ _ _ _ _ _ F' E) as (P & Q). split; [|exact Q].
      constructor; [|exact P]. split; [exact N|]. now exists c, r.
    + destruct (tteq ty MONTH); [|discriminate H]. destruct (has fm (mask MONTH)); [discriminate H|].
      match type of H with (let* q := ?m in _) = _ => destruct m as [[[[[a1 a2] a3] a4] a5]| |] eqn:E; [|discriminate H..] end. cbn [bind] in H.
      injection H as <- <- <- <- <-. destruct (IH _ _ _ _ _ _ _ _ _ F' E) as (P & Q). split; [constructor; [exact I|exact P]|].
      rewrite Q, Z.lor_spec. change (Z.testbit (mask MONTH) yb) with false. apply orb_false_r.
Qed.

Lemma beq_refl s : beq s s = true.
Proof. induction s as [|c s IH]; [reflexivity|]. cbn [beq]. now rewrite Z.eqb_refl. Qed.

Lemma decode_number_word md f have fm st order : wordy f -> decode_number md f have fm st order = Err EInvalid.
Proof.
  intros (N & c & r & -> & A). inversion N as [|? ? D _]; subst. unfold decode_number.
  rewrite (str2i32_alpha c r A D). cbn [bind]. rewrite beq_refl. reflexivity.
Qed.

Lemma number_parts_words md : forall ps have order fm t tm d2 fs fm' t' tm' d2', Forall owordy ps ->
  number_parts md ps have order fm t tm d2 fs = Ok (fm', t', tm', d2') -> fm' = fm.
Proof.
  induction ps as [|[f|] ps IH]; intros have order fm t tm d2 fs fm' t' tm' d2' F H; cbn [number_parts] in H.
  - now injection H as <- <- <- <-.
  - inversion F as [|? ? W F']; subst. cbn [owordy] in W.
    destruct f; [discriminate H|]. rewrite (decode_number_word md _ _ _ _ _ W) in H. discriminate H.
  - inversion F as [|? ? W F']; subst. eapply IH; eauto.
Qed.

Lemma decode_date_words md s fm d2 tm order x : nodig s -> Z.testbit fm yb = false -> decode_date md s fm d2 tm order <> Ok x.
Proof.
  intros N B H. unfold decode_date in H.
  destruct (date_parts (S (length s)) 0 s) as [ps| |] eqn:E1; [|discriminate H..]. cbn [bind] in H.
  pose proof (date_parts_words _ _ _ _ N E1) as W.
  destruct (text_month ps fm 0 tm false) as [[[[[a1 a2] a3] a4] a5]| |] eqn:E2; [|discriminate H..]. cbn [bind] in H.
  destruct (text_month_year _ _ _ _ _ _ _ _ _ _ W E2) as (W2 & B2).
  destruct (number_parts md a1 a5 order a2 a3 a4 d2 0) as [[[[b1 b2] b3] b4]| |] eqn:E3; [|discriminate H..]. cbn [bind] in H.
  pose proof (number_parts_words _ _ _ _ _ _ _ _ _ _ _ _ _ W2 E3) as ->.
  destruct (Z.land a2 (Z.lnot (Z.lor (mask DOY) (mask TZ))) =? DTK_DATE_M) eqn:E; [|discriminate H].
  apply Z.eqb_eq in E. apply (f_equal (fun z => Z.testbit z yb)) in E. rewrite Z.land_spec, B2, B in E. discriminate E.
Qed.
Lemma ctx_decode_date_words md s order c c' : nodig s -> Z.testbit (c_fmask c) yb = false -> ctx_decode_date md s order c <> Ok c'.
Proof.
  intros N B H. unfold ctx_decode_date in H.
  destruct (decode_date md s (c_fmask c) (c_2d c) (c_tm c) order) as [x| |] eqn:E; [|discriminate H..].
  eapply decode_date_words; eauto.
Qed.
Lemma ctx_decode_date_dot md order c : exists e, ctx_decode_date md [46] order c = Err e.
Proof. eexists. reflexivity. Qed.

(** A lone dot after a prefix: only after the prefixes for seconds and Julian days, where it is 0. *)
Lemma prefixed_dot md c c' : prefixed_number md [46] c = Ok c' ->
  (c_ptype c = KSecond /\ c' = c_set_dtype KDate (c_set_ptype KNumber (c_set_tmask DTK_ALL_SECS_M (c_set_fsec 0
      (c_set_tmask (mask SECOND) (c_set_tm (set_sec 0 (c_tm c)) c))))))
  \/ (c_ptype c = KJulian /\ c' = c_set_dtype KDate (c_set_ptype KNumber (c_set_tmask (Z.lor DTK_DATE_M DTK_TIME_M)
      (c_set_fsec 0 (c_set_tm (set_sec 0 (set_min 0 (set_hour 0 (set_ymd (-4713) 11 24 (c_tm c)))))
         (c_set_julian true (c_set_tmask DTK_DATE_M (c_set_tm (set_ymd (-4713) 11 24 (c_tm c)) c)))))))).
Proof.
  unfold prefixed_number. change (str2i32 [46]) with (Ok (0, [46])). cbn [bind]. change (46 =? 46) with true. cbn [andb].
  destruct (dot_prefix (c_ptype c)) eqn:P; [|discriminate]. cbn [bind].
  destruct (c_ptype c) eqn:K; try discriminate P; intros H.
  - exfalso. assert (forall m, ctx_number_field [46] m c = Err EInvalid) as E.
    { intros m. unfold ctx_number_field, number_field, decode_number_field.
      change (length (before 46 [46])) with 0%nat. change (length [46]) with 1%nat. cbn [Nat.eqb negb].
      change (str2d (skipn 0 [46])) with (Ok (f0, @nil Z)). destruct (negb (Z.land m DTK_TIME_M =? DTK_TIME_M)); reflexivity. }
    rewrite E in H. discriminate H.
  - left. split; [reflexivity|]. destruct md; cbn in H; injection H as <-; reflexivity.
  - right. split; [reflexivity|].
    assert (julian2date md 0 = Ok (-4713, 11, 24)) as J by (destruct md; reflexivity). change (0 <? 0) with false in H. cbv iota in H.
    rewrite J in H. cbn [bind] in H. change (str2d [46]) with (Ok (f0, @nil Z)) in H. cbn [bind fst] in H.
    assert (date2time md (f64_to_i64 (fmul f0 (f64_of_Z USECS_PER_DAY))) = Ok (0, 0, 0, 0)) as T by (destruct md; vm_compute; reflexivity).
    rewrite T in H. cbn [bind] in H. injection H as <-. reflexivity.
Qed.

(** ** Times of day *)
Definition still (c : ctx) : Prop :=
  tm_hour (c_tm c) = 0 /\ tm_min (c_tm c) = 0 /\ tm_sec (c_tm c) = 0 /\ c_fsec c = 0.
Lemma merge_still c c' : merge_mask c = Ok c' -> still c -> still c'.
Proof. unfold merge_mask. destruct (has _ _); [discriminate|]. intros H. injection H as <-. exact (fun s => s). Qed.
Lemma prefixed_still md c c' : prefixed_number md [46] c = Ok c' -> still c -> still c'.
Proof.
  intros H (S1 & S2 & S3 & S4). destruct (prefixed_dot _ _ _ H) as [(_ & ->)|(_ & ->)]; repeat split; assumption.
Qed.
Lemma string_okp f next c : still c -> match time_string_token f next c with Ok (Some c') => still c' | _ => True end.
Proof.
  intros S. unfold time_string_token. destruct (decode_special f) as [[ty v]|e|e]; [|exact I..]. cbn [bind].
  destruct (tteq ty IgnoreDtf); [exact I|].
  destruct ty; cbn [bind]; try exact I; try exact S.
  - destruct (tfield_of v) as [k|e|e]; [|exact I..]. cbn [bind]. destruct k; try exact I. destruct S as (_ & _ & _ & S). repeat split; assumption.
  - destruct (tfield_of v) as [k|e|e]; [|exact I..]. exact S.
  - destruct next as [[t0 x]|]; [|exact I]. destruct (read_type t0) as [k|e|e]; [|exact I..]. cbn [bind].
    destruct (negb (time_like k)); [exact I|]. destruct (tfield_of v) as [k'|e|e]; [|exact I..]. exact S.
Qed.
Lemma string_still f next c c' :
  (let* o := time_string_token f next c in match o with None => Ok c | Some c0 => merge_mask c0 end) = Ok c' -> still c -> still c'.
Proof.
  intros H S. pose proof (string_okp f next c S) as P. destruct (time_string_token f next c) as [[c1|]|e|e]; cbn [bind] in H; [| |discriminate H..].
  - eapply merge_still; eauto.
  - now injection H as <-.
Qed.
Lemma time_dot md id types order c c' : time_number_token md id types [46] order c = Ok c' -> prefixed_number md [46] c = Ok c'.
Proof.
  unfold time_number_token. destruct (negb (is_num (c_ptype c))); [exact (fun H => H)|]. intros H. exfalso.
  change (negb (blen (before 46 [46]) =? blen [46])) with true in H. cbv iota zeta in H.
  change (2 <? blen (before 46 [46])) with false in H. cbv iota in H.
  match type of H with (let* _ := ?m in _) = _ => destruct m as [[]| |] end; cbn [bind] in H; [|discriminate H..].
  destruct (ctx_decode_date_dot md order c) as (e & E). rewrite E in H. discriminate H.
Qed.
Lemma time_words md id types f order c c' : nodig f -> (id = 0%nat -> c = ctx_new) -> time_date_token md id types f order c <> Ok c'.
Proof.
  intros P I0 E.
  unfold time_date_token in E. destruct (Nat.eqb id 0) eqn:Id; [|discriminate E]. apply Nat.eqb_eq in Id.
  destruct (Nat.leb 2 (length types)); [|discriminate E]. cbn [andb] in E.
  destruct (read_type _) as [last| |]; [|discriminate E..]. cbn [bind] in E.
  match type of E with (let* _ := ?m in _) = _ => destruct m as [[]| |]; [|discriminate E..] end. cbn [bind] in E.
  eapply ctx_decode_date_words; [exact P| |exact E]. rewrite (I0 Id). reflexivity.
Qed.
Lemma time_field_still md order id types t next c c' : plain t -> (id = 0%nat -> c = ctx_new) ->
  time_only_field md order id types t next c = Ok c' -> still c -> still c'.
Proof.
  intros P I0 H S. destruct t as [[k|] f]; [|discriminate H]. unfold time_only_field in H. cbn [fst snd read_type bind] in H.
  unfold plain in P. cbn [fst snd] in P.
  destruct k; try contradiction; try discriminate H; try (eapply string_still; [exact H|exact S]).
  - subst f. destruct (time_number_token md id types [46] order c) as [c1| |] eqn:E; [|discriminate H..]. cbn [bind] in H.
    eapply merge_still; [exact H|]. apply time_dot in E. eapply prefixed_still; eauto.
  - destruct (time_date_token md id types f order c) as [c1| |] eqn:E; [|discriminate H..]. exfalso.
    eapply time_words; [| |exact E]; [apply P|exact I0].
Qed.
Lemma time_fields_still md order types : forall ts id c c', Forall plain ts -> (id = 0%nat -> c = ctx_new) ->
  time_only_fields md order id types ts c = Ok c' -> still c -> still c'.
Proof.
  induction ts as [|t ts IH]; intros id c c' F I0 H S; cbn [time_only_fields] in H; [now injection H as <-|].
  inversion F as [|? ? P F']; subst.
  destruct (time_only_field md order id types t (hd_error ts) c) as [c1| |] eqn:E; [|discriminate H..]. cbn [bind] in H.
  eapply IH; [exact F'| |exact H|]; [discriminate|]. eapply time_field_still; eauto.
Qed.

Lemma validate_clock md fm j d2 bc tm tm' : validate_date md fm j d2 bc tm = Ok tm' ->
  tm_hour tm' = tm_hour tm /\ tm_min tm' = tm_min tm /\ tm_sec tm' = tm_sec tm.
Proof.
  unfold validate_date. intros H.
  match type of H with (let* t := ?m in _) = _ => assert (forall t1, m = Ok t1 -> tm_hour t1 = tm_hour tm /\ tm_min t1 = tm_min tm /\ tm_sec t1 = tm_sec tm) as M;
    [|destruct m as [t1| |]; [|discriminate H..]; specialize (M t1 eq_refl)] end.
  { intros t1 E. repeat match type of E with
      | (if ?b then _ else _) = _ => destruct b
      | (let* _ := ?m in _) = _ => destruct m; cbn [bind] in E
      | Ok _ = Ok _ => injection E as <- | _ = Ok _ => discriminate E end; repeat split; reflexivity. }
  cbn [bind] in H.
  match type of H with (let* t := ?m in _) = _ => assert (forall t2, m = Ok t2 -> tm_hour t2 = tm_hour tm /\ tm_min t2 = tm_min tm /\ tm_sec t2 = tm_sec tm) as M2;
    [|destruct m as [t2| |]; [|discriminate H..]; specialize (M2 t2 eq_refl)] end.
  { intros t2 E. repeat match type of E with
      | (if ?b then _ else _) = _ => destruct b
      | (let* _ := ?m in _) = _ => destruct m as [?| |]; cbn [bind] in E
      | (let '(_, _) := ?p in _) = _ => destruct p
      | Ok _ = Ok _ => injection E as <- | _ = Ok _ => discriminate E end; exact M. }
  cbn [bind] in H.
  repeat match type of H with
      | (if ?b then _ else _) = _ => destruct b
      | (let* _ := ?m in _) = _ => destruct m as [?| |]; cbn [bind] in H
      | Ok _ = Ok _ => injection H as <- | _ = Ok _ => discriminate H end; exact M2.
Qed.
Lemma mer_clock md mer tm tm' : apply_mer md mer tm = Ok tm' -> tm_hour tm = 0 ->
  exists h, (h = 0 \/ h = 12) /\ tm' = set_hour h tm.
Proof.
  intros H Z0. unfold apply_mer in H. rewrite Z0 in H. change (Z.quot HOURS_PER_DAY 2) with 12 in H.
  change (12 <? 0) with false in H. change (0 =? 12) with false in H. rewrite !andb_false_r in H. cbn [negb andb] in H.
  rewrite andb_true_r in H. destruct (mer =? PM).
  - exists 12. split; [now right|]. destruct md; cbn in H; now injection H as <-.
  - exists 0. split; [now left|]. injection H as <-. destruct tm; cbn in *. now subst.
Qed.

Lemma time_nodig md s p o t : nodig s -> time_try_from_str md s p o = Ok t -> t = 0 \/ t = 43200000000.
Proof.
  intros N H. unfold time_try_from_str in H.
  destruct (parse_date_time s) as [ts| |] eqn:E; [|discriminate H..]. cbn [bind] in H.
  unfold decode_time_only in H.
  destruct (time_only_fields md o 0 (List.map fst ts) ts ctx_new) as [c| |] eqn:E1; [|discriminate H..]. cbn [bind] in H.
  assert (still c) as (S1 & S2 & S3 & S4).
  { eapply time_fields_still; [exact (parse_plain s ts N E)| |exact E1|]; [reflexivity|repeat split]. }
  destruct (validate_date _ _ _ _ _ _) as [tm| |] eqn:E2; [|discriminate H..]. cbn [bind] in H.
  destruct (validate_clock _ _ _ _ _ _ _ E2) as (V1 & V2 & V3).
  destruct (apply_mer md (c_mer c) tm) as [tm'| |] eqn:E3; [|discriminate H..]. cbn [bind] in H.
  destruct (mer_clock _ _ _ _ E3) as (h & Hh & ->); [congruence|].
  match type of H with (let* _ := (if ?b then _ else _) in _) = _ => destruct b; [discriminate H|] end. cbn [bind fst snd] in H.
  unfold time_from_pgtime in H. unfold set_hour in H. cbn [tm_hour tm_min tm_sec] in H. rewrite V2, V3, S2, S3, S4 in H.
  unfold time_adjust_by_typmod in H. destruct ((0 <=? p) && (p <=? 6)) eqn:B.
  - assert (In p [0; 1; 2; 3; 4; 5; 6]) as I by (cbn [In]; lia). clear B.
    cbn [In] in I. destruct Hh as [-> | ->]; repeat destruct I as [<-|I]; try contradiction; destruct md; vm_compute in H; injection H as <-; auto.
  - destruct Hh as [-> | ->], md; vm_compute in H; injection H as <-; auto.
Qed.

(** ** Dates and timestamps *)
Definition db := tt_code DAY.
Definition ob := tt_code DOY.
Definition mb := tt_code MONTH.
(** The states reached: no number was read, or a lone dot was read as Julian day 0. *)
Definition empty_date (c : ctx) : Prop :=
  still c /\ tm_year (c_tm c) = 0 /\ tm_mday (c_tm c) = 0 /\ 0 <= tm_mon (c_tm c) <= 12 /\
  Z.testbit (c_fmask c) yb = false /\ Z.testbit (c_fmask c) db = false /\ Z.testbit (c_fmask c) ob = false /\
  (Z.testbit (c_fmask c) mb = true -> c_tmon c = true /\ 1 <= tm_mon (c_tm c)) /\ c_julian c = false.
Definition julian_zero (c : ctx) : Prop :=
  still c /\ tm_year (c_tm c) = -4713 /\ tm_mon (c_tm c) = 11 /\ tm_mday (c_tm c) = 24 /\
  Z.testbit (c_fmask c) yb = true /\ Z.testbit (c_fmask c) db = true /\ Z.testbit (c_fmask c) ob = false /\
  Z.testbit (c_fmask c) mb = true /\ c_julian c = true.
Definition reached (c : ctx) : Prop := empty_date c \/ julian_zero c.

Lemma month_table : forallb (fun t => negb (tteq (dt_ty t) MONTH) || (1 <=? dt_value t) && (dt_value t <=? 12)) DATE_TOKEN_TABLE = true.
Proof. vm_compute. reflexivity. Qed.
Lemma month_value w v : decode_special w = Ok (MONTH, v) -> 1 <= v <= 12.
Proof.
  intros E. destruct (decode_special_in w _ _ E) as [Q|(t & I & T & V)]; [discriminate Q|].
  pose proof month_table as F. rewrite forallb_forall in F. specialize (F t I). rewrite T, V in F. cbn in F. lia.
Qed.

Lemma has_bit f m n : has f m = false -> Z.testbit m n = true -> 0 <= n -> Z.testbit f n = false.
Proof.
  unfold has. intros H B N. destruct (Z.land f m =? 0) eqn:E; [|discriminate H]. apply Z.eqb_eq in E.
  apply (f_equal (fun z => Z.testbit z n)) in E. rewrite Z.land_spec, B, andb_true_r, Z.bits_0 in E. exact E.
Qed.
Lemma has_single2 f n : 0 <= n -> has f (2 ^ n) = Z.testbit f n.
Proof.
  intros N. unfold has. destruct (Z.testbit f n) eqn:B; destruct (Z.land f (2 ^ n) =? 0) eqn:E; try reflexivity; exfalso.
  - apply Z.eqb_eq in E. apply (f_equal (fun z => Z.testbit z n)) in E.
    rewrite Z.land_spec, B, Z.pow2_bits_true, Z.bits_0 in E by exact N. discriminate E.
  - apply Z.eqb_neq in E. apply E. apply Z.bits_inj'. intros m Hm. rewrite Z.land_spec, Z.pow2_bits_eqb, Z.bits_0 by exact N.
    destruct (Z.eqb_spec n m) as [<-|]; [now rewrite B|apply andb_false_r].
Qed.
(** Before merging the mask [c_tmask] into the fields seen *)
Definition tm_bits (m : Z) : Prop := Z.testbit m yb = false /\ Z.testbit m db = false /\ Z.testbit m ob = false.
Lemma merge_plain c c' : merge_mask c = Ok c' -> reached c -> tm_bits (c_tmask c) -> Z.testbit (c_tmask c) mb = false -> reached c'.
Proof.
  unfold merge_mask. destruct (has (c_fmask c) (c_tmask c)) eqn:Q; [discriminate|]. intros H R (B1 & B2 & B3) B4. injection H as <-.
  destruct R as [(S & Y & D & M & K1 & K2 & K3 & K4 & J)|(S & Y & M & D & K1 & K2 & K3 & K4 & J)]; [left|right].
  - split; [exact S|]. cbn [c_set_fmask c_fmask c_tm c_tmon c_julian]. rewrite !Z.lor_spec, K1, K2, K3, B1, B2, B3, B4. cbn [orb]. rewrite orb_false_r.
    repeat (split; [assumption || reflexivity|]). assumption.
  - split; [exact S|]. cbn [c_set_fmask c_fmask c_tm c_tmon c_julian]. rewrite !Z.lor_spec, K1, K2, K3, K4, B3. cbn [orb].
    repeat (split; [assumption || reflexivity|]). assumption.
Qed.

Lemma string_reached f next c : reached c ->
  match decode_string_token f next c with Ok (Some c1) => forall c', merge_mask c1 = Ok c' -> reached c' | _ => True end.
Proof.
  intros R. unfold decode_string_token. destruct (decode_special f) as [[ty v]|e|e] eqn:E; [|exact I..]. cbn [bind].
  assert (forall c1, c_tm c1 = c_tm c \/ (exists w, c_tm c1 = set_wday w (c_tm c)) \/ c_tm c1 = set_sec 0 (set_min 0 (set_hour 0 (c_tm c))) ->
    c_fsec c1 = c_fsec c -> c_fmask c1 = c_fmask c -> c_tmon c1 = c_tmon c -> c_julian c1 = c_julian c ->
    tm_bits (c_tmask c1) -> Z.testbit (c_tmask c1) mb = false -> forall c', merge_mask c1 = Ok c' -> reached c') as G.
  { intros c1 T F1 F2 F3 F4 B1 B2 c' Hm. eapply merge_plain; [exact Hm| |exact B1|exact B2].
    destruct R as [(S & Y & D & M & K1 & K2 & K3 & K4 & J)|(S & Y & M & D & K1 & K2 & K3 & K4 & J)]; [left|right];
      unfold empty_date, julian_zero, still in *; rewrite F1, F2, ?F3, F4;
      destruct T as [-> |[(w & ->)| ->]]; cbn [set_wday set_sec set_min set_hour tm_hour tm_min tm_sec tm_year tm_mon tm_mday];
      intuition assumption. }
  destruct (tteq ty IgnoreDtf); [exact I|].
  destruct ty; cbn [bind]; try exact I.
  all: try (apply G; [left; reflexivity|reflexivity|reflexivity|reflexivity|reflexivity|repeat split; reflexivity|reflexivity]).
  - destruct (tfield_of v) as [k|e|e]; [|exact I..]. cbn [bind].
    destruct k; cbn [bind]; try exact I;
      (apply G; [first [left; reflexivity|right; right; reflexivity]|reflexivity|reflexivity|reflexivity|reflexivity|repeat split; reflexivity|reflexivity]).
  - pose proof (month_value f v E) as V.
    change (c_fmask (c_set_tmask (mask MONTH) c)) with (c_fmask c). change (c_tmon (c_set_tmask (mask MONTH) c)) with (c_tmon c).
    assert ((has (c_fmask c) (mask MONTH) && negb (c_tmon c) && negb (has (c_fmask c) (mask DAY))) = false) as Q.
    { change (mask MONTH) with (2 ^ mb). change (mask DAY) with (2 ^ db). rewrite !has_single2 by (cbv; discriminate).
      destruct R as [(S & Y & D & M & K1 & K2 & K3 & K4 & J)|(S & Y & M & D & K1 & K2 & K3 & K4 & J)].
      - destruct (Z.testbit (c_fmask c) mb); [|reflexivity]. rewrite (proj1 (K4 eq_refl)). reflexivity.
      - rewrite K2, andb_false_r. reflexivity. }
    rewrite Q. cbn [andb]. intros c' H. unfold merge_mask in H. cbn [c_set_tm c_set_tmon c_set_tmask c_tmask c_fmask] in H.
    change (mask MONTH) with (2 ^ mb) in H. rewrite has_single2 in H by (cbv; discriminate).
    destruct (Z.testbit (c_fmask c) mb) eqn:B; [discriminate H|]. injection H as <-.
    destruct R as [(S & Y & D & M & K1 & K2 & K3 & K4 & J)|(S & Y & M & D & K1 & K2 & K3 & K4 & J)]; [|congruence].
    left. split; [exact S|]. cbn [c_set_fmask c_set_tm c_set_tmon c_set_tmask c_fmask c_tm c_tmon c_julian]. rewrite !Z.lor_spec, K1, K2, K3.
    unfold set_mon. cbn [tm_year tm_mday tm_mon]. split; [exact Y|]. split; [exact D|]. split; [lia|].
    do 3 (split; [reflexivity|]). split; [split; [reflexivity|lia]|exact J].
  - apply G; [right; left; eexists; reflexivity|reflexivity|reflexivity|reflexivity|reflexivity|repeat split; reflexivity|reflexivity].
  - destruct (tfield_of v) as [k|e|e]; [|exact I..]. cbn [bind].
    apply G; [left; reflexivity|reflexivity|reflexivity|reflexivity|reflexivity|repeat split; reflexivity|reflexivity].
  - destruct (negb _); [exact I|]. destruct next as [[t0 x]|]; [|exact I]. destruct (read_type t0) as [k|e|e]; [|exact I..]. cbn [bind].
    destruct (negb (time_like k)); [exact I|]. destruct (tfield_of v) as [k'|e|e]; [|exact I..]. cbn [bind].
    apply G; [left; reflexivity|reflexivity|reflexivity|reflexivity|reflexivity|repeat split; reflexivity|reflexivity].
Qed.

Lemma date_dot md order c c' : decode_number_token md [46] order c = Ok c' -> prefixed_number md [46] c = Ok c'.
Proof.
  unfold decode_number_token. destruct (negb (is_num (c_ptype c))); [exact (fun H => H)|]. intros H. exfalso.
  change (negb (blen (before 46 [46]) =? blen [46])) with true in H. change (blen [46] <=? 14) with true in H.
  change (2 <? blen (before 46 [46])) with false in H. change (6 <=? blen [46]) with false in H. cbn [andb] in H. rewrite andb_true_r in H.
  destruct (Z.land (c_fmask c) DTK_DATE_M =? 0).
  - destruct (ctx_decode_date_dot md order c) as (e & E). rewrite E in H. discriminate H.
  - unfold ctx_decode_number in H. match type of H with (let* _ := ?m in _) = _ => assert (m = Err EInvalid) as Q by reflexivity; rewrite Q in H end. discriminate H.
Qed.

Lemma date_words md f order c c' : nodig f -> (exists ch r, f = ch :: r /\ is_alpha ch = true) -> reached c -> decode_date_token md f order c <> Ok c'.
Proof.
  intros N (ch & r & -> & A) R H. inversion N as [|? ? D _]; subst. unfold decode_date_token in H.
  destruct (tfeq (c_ptype c) KJulian).
  - rewrite (str2i32_alpha ch r A D) in H. cbn [bind] in H. destruct (julian2date md _); discriminate H.
  - destruct (negb (is_num (c_ptype c))) eqn:P.
    + cbn [orb] in H. rewrite orb_true_r in H. destruct (tfeq (c_ptype c) KTime); [|discriminate H]. cbn [negb] in H.
      repeat match type of H with (if ?b then _ else _) = _ => destruct b end; discriminate H.
    + cbn [orb] in H. rewrite D in H. cbn [orb] in H.
      destruct (Z.land (c_fmask c) DTK_MONTH_DAY_M =? DTK_MONTH_DAY_M) eqn:Q; [discriminate H|].
      destruct R as [(S & Y & Dd & M & K1 & K2 & K3 & K4 & J)|(S & Y & M & Dd & K1 & K2 & K3 & K4 & J)].
      * eapply ctx_decode_date_words; [exact N|exact K1|exact H].
      * apply Z.eqb_neq in Q. apply Q. apply Z.bits_inj'. intros n Hn. rewrite Z.land_spec.
        change DTK_MONTH_DAY_M with (Z.lor (2 ^ mb) (2 ^ db)). rewrite Z.lor_spec, !Z.pow2_bits_eqb by (cbv; discriminate).
        destruct (Z.eqb_spec mb n) as [<-|]; [rewrite K4; reflexivity|]. destruct (Z.eqb_spec db n) as [<-|]; [rewrite K2; reflexivity|].
        apply andb_false_r.
Qed.

Lemma prefixed_dot_fields md c c1 : prefixed_number md [46] c = Ok c1 ->
  c_fmask c1 = c_fmask c /\ c_tmon c1 = c_tmon c /\ c_fsec c1 = 0 /\ tm_sec (c_tm c1) = 0 /\
  ((c_tmask c1 = DTK_ALL_SECS_M /\ c_julian c1 = c_julian c /\ c_tm c1 = set_sec 0 (c_tm c)) \/
   (c_tmask c1 = Z.lor DTK_DATE_M DTK_TIME_M /\ c_julian c1 = true /\
    c_tm c1 = set_sec 0 (set_min 0 (set_hour 0 (set_ymd (-4713) 11 24 (c_tm c)))))).
Proof.
  intros H. destruct (prefixed_dot _ _ _ H) as [(_ & E)|(_ & E)]; clear H; rewrite E; (do 4 (split; [reflexivity|])); [left|right]; repeat split.
Qed.
Lemma dot_reached md c c1 c' : prefixed_number md [46] c = Ok c1 -> merge_mask c1 = Ok c' -> reached c -> reached c'.
Proof.
  intros H H2 R. destruct (prefixed_dot_fields _ _ _ H) as (F & T & Fs & Sc & [(M & J & E)|(M & J & E)]); clear H.
  - eapply merge_plain; [exact H2| |rewrite M; repeat split; reflexivity|rewrite M; reflexivity].
    unfold reached, empty_date, julian_zero, still in *. rewrite F, T, J, E, Fs. exact R || (
    destruct R as [R|R]; [left|right]; unfold set_sec; cbn [tm_hour tm_min tm_sec tm_year tm_mon tm_mday]; tauto).
  - unfold merge_mask in H2. rewrite F in H2. destruct (has (c_fmask c) (c_tmask c1)) eqn:Q; [discriminate H2|]. injection H2 as <-.
    assert (Z.testbit (c_fmask c) yb = false) as Q1.
    { eapply has_bit; [exact Q|rewrite M; reflexivity|cbv; discriminate]. }
    destruct R as [(S & Y & D & Mo & K1 & K2 & K3 & K4 & J')|(S & Y & Mo & D & K1 & K2 & K3 & K4 & J')]; [|congruence].
    right. unfold julian_zero, still. unfold c_set_fmask. cbn [c_fmask c_tm c_tmon c_julian c_fsec]. rewrite E, J, Fs, M, !Z.lor_spec, K3.
    unfold set_sec, set_min, set_hour, set_ymd, set_year, set_mon, set_mday. cbn [tm_hour tm_min tm_sec tm_year tm_mon tm_mday].
    change (Z.testbit DTK_DATE_M yb) with true. change (Z.testbit DTK_DATE_M db) with true.
    change (Z.testbit DTK_DATE_M mb) with true. cbn [orb]. rewrite !orb_true_r.
    split; [repeat split|]. repeat (split; [reflexivity|]). reflexivity.
Qed.

Lemma field_reached md order t next c c' : plain t -> date_time_field md order t next c = Ok c' -> reached c -> reached c'.
Proof.
  intros P H R. destruct t as [[k|] f]; [|discriminate H]. unfold date_time_field in H. cbn [fst snd read_type bind] in H.
  unfold plain in P. cbn [fst snd] in P.
  assert (forall c1, (let* o := decode_string_token f next c in match o with None => Ok c | Some c0 => merge_mask c0 end) = Ok c1 -> reached c1) as W.
  { clear H c'. intros c1 H. pose proof (string_reached f next c R) as S.
    destruct (decode_string_token f next c) as [[c2|]|e|e]; cbn [bind] in H; [now apply S|now injection H as <-|discriminate H..]. }
  destruct k; try contradiction; try (now apply W); try discriminate H.
  - subst f. destruct (decode_number_token md [46] order c) as [c1| |] eqn:E; [|discriminate H..]. cbn [bind] in H.
    apply date_dot in E. eapply dot_reached; eauto.
  - destruct (decode_date_token md f order c) as [c1| |] eqn:E; [|discriminate H..]. exfalso.
    destruct P as (P1 & P2). eapply date_words; eauto.
Qed.
Lemma fields_reached md order : forall ts c c', Forall plain ts -> date_time_fields md order ts c = Ok c' -> reached c -> reached c'.
Proof.
  induction ts as [|t ts IH]; intros c c' F H R; cbn [date_time_fields] in H; [now injection H as <-|].
  inversion F as [|? ? P F']; subst.
  destruct (date_time_field md order t (hd_error ts) c) as [c1| |] eqn:E; [|discriminate H..]. cbn [bind] in H.
  eapply IH; [exact F'|exact H|]. eapply field_reached; eauto.
Qed.

(** What comes out: the day 0 of a month of the year 1 BC, or Julian day 0; midnight or noon. *)
Lemma decode_nodig md order s ts tm k fs : nodig s -> parse_date_time s = Ok ts -> decode_date_time md order ts = Ok (tm, k, fs) ->
  fs = 0 /\ tm_min tm = 0 /\ tm_sec tm = 0 /\ (tm_hour tm = 0 \/ tm_hour tm = 12) /\
  ((tm_year tm = 0 /\ tm_mday tm = 0 /\ 0 <= tm_mon tm <= 12) \/ (tm_year tm = -4713 /\ tm_mon tm = 11 /\ tm_mday tm = 24)).
Proof.
  intros N E H. unfold decode_date_time in H.
  destruct (date_time_fields md order ts ctx_new) as [c| |] eqn:E1; [|discriminate H..]. cbn [bind] in H.
  assert (reached c) as R.
  { eapply fields_reached; [exact (parse_plain s ts N E)|exact E1|]. left. unfold empty_date, still, ctx_new. cbn [c_tm c_fmask c_tmon c_julian c_fsec].
    unfold tm_new. cbn [tm_hour tm_min tm_sec tm_year tm_mon tm_mday]. split; [repeat split|]. do 2 (split; [reflexivity|]). split; [lia|]. do 3 (split; [reflexivity|]).
    split; [intros Q; vm_compute in Q; discriminate Q|reflexivity]. }
  assert (forall t1, validate_date md (c_fmask c) (c_julian c) (c_2d c) (c_bc c) (c_tm c) = Ok t1 -> t1 = c_tm c) as V.
  { intros t1 V. unfold validate_date in V. change (mask YEAR) with (2 ^ yb) in V. change (mask DOY) with (2 ^ ob) in V.
    rewrite !has_single2 in V by (cbv; discriminate).
    destruct R as [(S & Y & D & M & K1 & K2 & K3 & K4 & J)|(S & Y & M & D & K1 & K2 & K3 & K4 & J)]; rewrite K1, K3, ?J in V; cbn [bind] in V;
      repeat match type of V with
      | (if ?b then _ else _) = _ => destruct b
      | (let* _ := ?m in _) = _ => destruct m as [?| |]; cbn [bind] in V
      | Ok _ = Ok _ => injection V as <- | _ = Ok _ => discriminate V end; reflexivity. }
  destruct (validate_date _ _ _ _ _ _) as [t1| |]; [|discriminate H..]. cbn [bind] in H. rewrite (V t1 eq_refl) in H. clear V.
  destruct (apply_mer md (c_mer c) (c_tm c)) as [t2| |] eqn:E3; [|discriminate H..]. cbn [bind] in H.
  assert (still c) as (S1 & S2 & S3 & S4) by (destruct R as [R|R]; apply R).
  destruct (mer_clock _ _ _ _ E3 S1) as (h & Hh & ->).
  assert (tm = set_hour h (c_tm c) /\ fs = 0) as (-> & ->).
  { repeat match type of H with (if ?b then _ else _) = _ => destruct b end; try discriminate H; injection H as <- _ <-; auto. }
  unfold set_hour. cbn [tm_hour tm_min tm_sec tm_year tm_mon tm_mday]. do 3 (split; [assumption || reflexivity|]). split; [exact Hh|].
  destruct R as [R|R]; [left|right]; unfold empty_date, julian_zero in R; tauto.
Qed.
