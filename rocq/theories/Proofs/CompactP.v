(** Times of day written without colons. *)
From Verif Require Import Model.Parse Spec.Calendar Spec.Ranges Spec.Clock Spec.Text Spec.DateText Spec.TimeText Spec.Keywords Spec.DateWords
  Spec.CompactTime Proofs.Arith Proofs.Cal Proofs.DateP Proofs.TsP Proofs.DigitsP Proofs.LexP Proofs.ParseP Proofs.RoundTripP Proofs.NumDateP
  Proofs.ClockTextP Proofs.DateWordsP Proofs.DateTimeWordsP.
From Coq Require Import List ZArith Bool Lia.
Import ListNotations.
Open Scope Z_scope.

Lemma two_bound t : two_digits t -> 0 <= digits_value t <= 99.
Proof. intros [F L]. pose proof (digits_value_bound _ F) as B. rewrite L in B. change (10 ^ Z.of_nat 2) with 100 in B. lia. Qed.
Lemma compact_bounds t h mi s us : compact_time t h mi s us ->
  0 <= h <= 99 /\ 0 <= mi <= 99 /\ 0 <= s <= 99 /\ 0 <= us < 1000000.
Proof.
  intros W. destruct W;
    repeat match goal with H : two_digits ?x |- _ => pose proof (two_bound x H); clear H end;
    repeat match goal with H : fraction_digits ?x |- _ => pose proof (micros_bound x H); clear H end; lia.
Qed.
Lemma two_is_digits t : two_digits t -> forallb is_digit t = true.
Proof. intros P. now apply sd_digits, two_sd. Qed.

(** The fraction of the second. *)
Lemma micros_str f : fraction_digits f -> exists v, str2d (46 :: f) = Ok (v, []) /\ usecs_of v = micros f.
Proof.
  intros P. pose proof (parse_micros Release f P) as E. unfold parse_fractional_second in E.
  change (46 =? 46) with true in E. cbn [debug_assert bind] in E.
  destruct (str2d (46 :: f)) as [[v rest]| |]; [|discriminate|discriminate]. cbn [bind] in E.
  destruct rest; [|discriminate]. exists v. split; [reflexivity|]. now injection E.
Qed.
Lemma before_dot a f : forallb is_digit a = true -> before 46 (a ++ 46 :: f) = a.
Proof.
  intros D. unfold before. rewrite eat_app; [reflexivity| |reflexivity].
  revert D. apply forallb_weaken. unfold is_digit. lia.
Qed.

Lemma compact_field t h mi s us fm st : compact_time t h mi s us ->
  Z.land fm DTK_DATE_M = DTK_DATE_M -> Z.land fm DTK_TIME_M = 0 -> n_fsec st = 0 ->
  decode_number_field t fm st = (mkN DTK_TIME_M (set_hour h (set_min mi (set_sec s (n_tm st)))) us (n_2d st), Ok KTime).
Proof.
  intros W Hd Ht Hf. unfold decode_number_field. rewrite Hd, Ht.
  change (DTK_DATE_M =? DTK_DATE_M) with true. change (0 =? DTK_TIME_M) with false. cbn [negb andb].
  destruct W as [H M PH PM|H M S PH PM PS|H M S f PH PM PS Pf Nf].
  - rewrite digits_no_dot by (rewrite forallb_app', !two_is_digits by assumption; reflexivity). rewrite Nat.eqb_refl. cbn [negb].
    rewrite app_length, (proj2 PH), (proj2 PM). cbn [Nat.add Nat.eqb]. unfold sub_bytes.
    rewrite <- (proj2 PH) at 1. rewrite skipn_app, skipn_all, Nat.sub_diag. cbn [app skipn].
    rewrite (sd_str0 M (two_sd _ PM)). rewrite <- (proj2 PH) at 1. rewrite firstn_app, firstn_all, Nat.sub_diag. cbn [firstn].
    rewrite app_nil_r, (sd_str0 H (two_sd _ PH)). cbn [n_tm n_fsec n_2d]. now rewrite Hf.
  - rewrite digits_no_dot by (rewrite !forallb_app', !two_is_digits by assumption; reflexivity). rewrite Nat.eqb_refl. cbn [negb].
    rewrite !app_length, (proj2 PH), (proj2 PM), (proj2 PS). cbn [Nat.add Nat.eqb]. unfold sub_bytes.
    destruct H as [|a [|b [|]]]; try (destruct PH as [_ E]; discriminate E).
    destruct M as [|c [|d [|]]]; try (destruct PM as [_ E]; discriminate E). cbn [app skipn firstn].
    rewrite (sd_str0 S (two_sd _ PS)), (sd_str0 _ (two_sd _ PM)), (sd_str0 _ (two_sd _ PH)). cbn [n_tm n_fsec n_2d]. now rewrite Hf.
  - replace (H ++ M ++ S ++ 46 :: f) with ((H ++ M ++ S) ++ 46 :: f) by now rewrite <- !app_assoc.
    assert (length (H ++ M ++ S) = 6)%nat as L by (rewrite !app_length, (proj2 PH), (proj2 PM), (proj2 PS); reflexivity).
    rewrite before_dot by (rewrite !forallb_app', !two_is_digits by assumption; reflexivity).
    rewrite (app_length (H ++ M ++ S)), L. cbn [length].
    replace (Nat.eqb (6 + Datatypes.S (length f)) 6) with false by (symmetry; apply Nat.eqb_neq; lia). cbn [negb].
    rewrite <- L at 1. rewrite skipn_app, skipn_all, Nat.sub_diag. cbn [app skipn].
    destruct (micros_str f Pf) as (v & -> & Ev). cbn [Nat.eqb]. unfold sub_bytes.
    destruct H as [|a [|b [|]]]; try (destruct PH as [_ E]; discriminate E).
    destruct M as [|c [|d [|]]]; try (destruct PM as [_ E]; discriminate E). cbn [app skipn firstn].
    rewrite (sd_str S (46 :: f) (two_sd _ PS)) by easy.
    rewrite (sd_str0 _ (two_sd _ PM)), (sd_str0 _ (two_sd _ PH)). cbn [n_tm n_fsec n_2d]. now rewrite Ev.
Qed.

(** ** Tokens *)
Definition after_compact (rest : bytes) : Prop := rest = [] \/ exists c r, rest = c :: r /\ (c = 32 \/ c = 65 \/ c = 80).

Lemma compact_token t h mi s us rest : compact_time t h mi s us -> after_compact rest ->
  digit_begin (t ++ rest) = ((Some KNumber, t), rest).
Proof.
  intros W A. unfold digit_begin, eat_digits.
  assert (stops is_digit rest) as St by (destruct A as [->|(c & r & -> & [->|[->| ->]])]; easy).
  assert (forall ds, forallb is_digit ds = true ->
    (let '(f0, s1) := eat is_digit (ds ++ rest) in
     match s1 with
     | c :: r => if c =? 58 then let '(f1, s2) := eat (fun i => is_digit i || (i =? 58) || (i =? 46)) s1 in ((Some KTime, f0 ++ f1), s2)
                 else if (c =? 45) || (c =? 47) || (c =? 46) then let '(ty, f1, s2) := digit_delim_begin c r in ((Some ty, f0 ++ f1), s2)
                 else ((Some KNumber, f0), s1)
     | [] => ((Some KNumber, f0), [])
     end) = ((Some KNumber, ds), rest)) as K.
  { intros ds D. rewrite eat_app by assumption. destruct A as [->|(c & r & -> & [->|[->| ->]])]; reflexivity. }
  destruct W as [H M PH PM|H M S PH PM PS|H M S f PH PM PS Pf Nf].
  - apply K. rewrite forallb_app', !two_is_digits by assumption. reflexivity.
  - apply K. rewrite !forallb_app', !two_is_digits by assumption. reflexivity.
  - replace ((H ++ M ++ S ++ 46 :: f) ++ rest) with ((H ++ M ++ S) ++ 46 :: f ++ rest) by (rewrite <- !app_assoc; reflexivity).
    rewrite eat_app; [|rewrite !forallb_app', !two_is_digits by assumption; reflexivity|easy].
    change (46 =? 58) with false. change (46 =? 45) with false. change (46 =? 47) with false. change (46 =? 46) with true. cbn [orb].
    unfold digit_delim_begin, eat_digits. change (46 =? 46) with true.
    assert (forallb is_digit f = true) as Df by (apply digits_forallb; apply Pf).
    destruct f as [|c f']; [easy|]. cbn [app].
    assert (is_digit c = true) as -> by (cbn in Df; now apply andb_prop in Df).
    change (c :: f' ++ rest) with ((c :: f') ++ rest). rewrite eat_app by assumption.
    replace (H ++ M ++ S ++ 46 :: c :: f') with ((H ++ M ++ S) ++ 46 :: c :: f') by (rewrite <- !app_assoc; reflexivity).
    destruct A as [->|(c1 & r & -> & [->|[->| ->]])]; reflexivity.
Qed.
Lemma compact_len t h mi s us : compact_time t h mi s us -> (4 <= length t <= 13)%nat.
Proof.
  intros W. destruct W;
    repeat match goal with H : two_digits ?x |- _ => destruct H as [_ ?] end;
    repeat match goal with H : fraction_digits ?x |- _ => destruct H as [_ ?] end;
    repeat (rewrite app_length; cbn [length]); lia.
Qed.
Lemma compact_head t h mi s us rest : compact_time t h mi s us ->
  match t ++ rest with c :: _ => is_digit c = true | [] => False end.
Proof.
  intros W. assert (forall H r, two_digits H -> match (H ++ r) with c :: _ => is_digit c = true | [] => False end) as K.
  { intros H r P. pose proof (two_is_digits H P) as D. destruct H as [|c H]; [destruct P; discriminate|]. cbn in *. now apply andb_prop in D. }
  destruct W; rewrite <- ?app_assoc; now apply K.
Qed.
Lemma tokenize_compact t h mi s us rest fuel n room : compact_time t h mi s us ->
  after_compact rest -> n < 25 -> blen t <= room ->
  tokenize (S fuel) n room (t ++ rest) =
  let* ts := tokenize fuel (n + 1) (room - blen t) rest in Ok ((Some KNumber, t) :: ts).
Proof.
  intros W S N B. rewrite (tokenize_digit fuel n room (t ++ rest) (Some KNumber, t) rest); [reflexivity| | |easy|exact B].
  - eapply compact_head; eauto.
  - now apply (compact_token t h mi s us).
Qed.
Lemma half_after x e : after_compact (half_text x ++ era_text e).
Proof.
  destruct x as [|[]|[]]; cbn [half_text gap app]; [|right; eexists; eexists; split; [reflexivity|auto]..].
  destruct e; [now left| |]; right; eexists; eexists; (split; [reflexivity|auto]).
Qed.

Lemma compact_tail sep t h mi s us x e fuel n room : sep = 32 \/ sep = 84 -> compact_time t h mi s us -> n <= 3 -> 98 <= room ->
  (length (sep :: t ++ half_text x ++ era_text e) <= fuel)%nat ->
  tokenize (S fuel) n room (sep :: t ++ half_text x ++ era_text e)
  = Ok (gap_tokens sep ++ (Some KNumber, t) :: half_tokens x ++ mark_tokens e).
Proof.
  intros Hs W N R L. pose proof (compact_len _ _ _ _ _ W) as Lt.
  cbn [length] in L. rewrite !app_length in L.
  assert (forall fuel n room, n <= 4 -> 97 <= room -> (length t + (length (half_text x) + length (era_text e)) <= fuel)%nat ->
    tokenize (S fuel) n room (t ++ half_text x ++ era_text e) = Ok ((Some KNumber, t) :: half_tokens x ++ mark_tokens e)) as K.
  { intros f k r Hk Hr Lf.
    rewrite (tokenize_compact t h mi s us); [|exact W|apply half_after|lia|unfold blen; lia].
    assert (half_count x <= length (half_text x))%nat as Hh by (destruct x as [|[]|[]]; cbn; lia).
    replace f with (half_count x + S (f - half_count x - 1))%nat by lia.
    rewrite tokenize_half; [|lia|unfold blen; lia|destruct e; [now left|right; eexists; reflexivity|right; eexists; reflexivity]].
    rewrite tokenize_mark'; [reflexivity|destruct x; cbn; lia|destruct x; cbn [half_size]; unfold blen; lia|lia]. }
  destruct Hs as [->| ->].
  - rewrite tokenize_space. rewrite K by lia. reflexivity.
  - destruct fuel as [|fuel]; [lia|].
    pose proof (compact_head _ _ _ _ _ (half_text x ++ era_text e) W) as Hd.
    destruct (t ++ half_text x ++ era_text e) as [|c r] eqn:E; [easy|].
    rewrite tokenize_T by (auto; lia). rewrite K by lia. reflexivity.
Qed.

(** ** The field after a date *)
Lemma field_T_number md order t rest c : Z.land (c_fmask c) DTK_DATE_M = DTK_DATE_M ->
  date_time_field md order (Some KString, [116]) (hd_error ((Some KNumber, t) :: rest)) c = Ok (t_ctx c).
Proof. intros H. rewrite <- (field_T md order t rest c H). reflexivity. Qed.

Lemma set_swap h mi s tm : set_hour h (set_min mi (set_sec s tm)) = set_sec s (set_min mi (set_hour h tm)).
Proof. destruct tm; reflexivity. Qed.

Lemma compact_nst t h mi s us fm st : compact_time t h mi s us ->
  Z.land fm DTK_DATE_M = DTK_DATE_M -> Z.land fm DTK_TIME_M = 0 -> n_fsec st = 0 ->
  number_field t fm st = Ok (mkN DTK_TIME_M (set_sec s (set_min mi (set_hour h (n_tm st)))) us (n_2d st), KTime).
Proof. intros. unfold number_field. rewrite (compact_field t h mi s us) by assumption. now rewrite set_swap. Qed.

(** Numbers without a dot: [decode_number] passes on to the number field. *)
Lemma compact_number_md md t h mi s us fm st order : compact_time t h mi s us -> (length t = 4)%nat ->
  Z.land fm DTK_DATE_M = DTK_DATE_M -> Z.land fm DTK_TIME_M = 0 -> n_fsec st = 0 ->
  decode_number md t false fm st order = Ok (mkN DTK_TIME_M (set_sec s (set_min mi (set_hour h (n_tm st)))) us (n_2d st)).
Proof.
  intros W L Hd Ht Hf. assert (short_digits t) as P.
  { destruct W as [H M PH PM|H M S PH PM PS|H M S f PH PM PS Pf Nf].
    - split; [apply Forall_app; split; [apply PH|apply PM]|lia].
    - rewrite !app_length, (proj2 PH), (proj2 PM), (proj2 PS) in L. discriminate.
    - rewrite !app_length, (proj2 PH), (proj2 PM), (proj2 PS) in L. discriminate. }
  unfold decode_number. rewrite (sd_str0 t P). cbn [bind].
  assert (beq [] t = false) as -> by (destruct t; [discriminate|reflexivity]).
  cbn [n_tm n_fsec n_2d]. rewrite Hd. replace (blen t =? 3) with false by (unfold blen; lia). cbn [andb].
  change (DTK_DATE_M =? 0) with false. change (DTK_DATE_M =? DTK_YEAR_M) with false. change (DTK_DATE_M =? DTK_MONTH_M) with false.
  change (DTK_DATE_M =? DTK_YEAR_MONTH_M) with false. change (DTK_DATE_M =? DTK_DAY_M) with false.
  change (DTK_DATE_M =? DTK_MONTH_DAY_M) with false. change (DTK_DATE_M =? DTK_DATE_M) with true. cbv iota.
  rewrite (compact_nst t h mi s us) by (assumption || reflexivity). cbn [bind fst n_tm n_2d]. reflexivity.
Qed.

Lemma compact_shape t h mi s us : compact_time t h mi s us ->
  (length t = 4 /\ before 46 t = t \/ length t = 6 /\ before 46 t = t)%nat
  \/ blen (before 46 t) = 6 /\ 7 < blen t + 1.
Proof.
  intros W. destruct W as [H M PH PM|H M S PH PM PS|H M S f PH PM PS Pf Nf].
  - left. left. rewrite app_length, (proj2 PH), (proj2 PM). split; [reflexivity|].
    apply digits_no_dot. rewrite forallb_app', !two_is_digits by assumption; reflexivity.
  - left. right. rewrite !app_length, (proj2 PH), (proj2 PM), (proj2 PS). split; [reflexivity|].
    apply digits_no_dot. rewrite !forallb_app', !two_is_digits by assumption; reflexivity.
  - right. replace (H ++ M ++ S ++ 46 :: f) with ((H ++ M ++ S) ++ 46 :: f) by now rewrite <- !app_assoc.
    rewrite before_dot by (rewrite !forallb_app', !two_is_digits by assumption; reflexivity).
    unfold blen. rewrite (app_length (H ++ M ++ S)), !app_length, (proj2 PH), (proj2 PM), (proj2 PS). cbn [length]. lia.
Qed.

Lemma compact_str t h mi s us : compact_time t h mi s us ->
  exists v, str2i32 t = Ok (v, []) \/ exists f, str2i32 t = Ok (v, 46 :: f).
Proof.
  intros W. assert (forall ds, forallb is_digit ds = true -> (1 <= length ds <= 6)%nat -> short_digits ds) as K.
  { intros ds D L. split; [|lia]. apply Forall_forall. intros c I. rewrite forallb_forall in D. apply is_digit_iff. auto. }
  destruct W as [H M PH PM|H M S PH PM PS|H M S f PH PM PS Pf Nf].
  - eexists. left. apply sd_str0, K; [rewrite forallb_app', !two_is_digits by assumption; reflexivity|].
    rewrite app_length, (proj2 PH), (proj2 PM). lia.
  - eexists. left. apply sd_str0, K; [rewrite !forallb_app', !two_is_digits by assumption; reflexivity|].
    rewrite !app_length, (proj2 PH), (proj2 PM), (proj2 PS). lia.
  - eexists. right. exists f. replace (H ++ M ++ S ++ 46 :: f) with ((H ++ M ++ S) ++ 46 :: f) by now rewrite <- !app_assoc.
    apply sd_str; [|easy]. apply K; [rewrite !forallb_app', !two_is_digits by assumption; reflexivity|].
    rewrite !app_length, (proj2 PH), (proj2 PM), (proj2 PS). lia.
Qed.

(** After "t" *)
Lemma compact_prefixed md t h mi s us c : compact_time t h mi s us -> c_ptype c = KTime ->
  Z.land (c_fmask c) DTK_TIME_M = 0 -> c_fsec c = 0 ->
  prefixed_number md t c = Ok (c_set_dtype KDate (c_set_tmask DTK_TIME_M
    (c_set_tm (set_sec s (set_min mi (set_hour h (c_tm c)))) (c_set_fsec us (c_set_ptype KNumber c))))).
Proof.
  intros W Pt Ht Hf. unfold prefixed_number.
  assert (Z.land (Z.lor (c_fmask c) DTK_DATE_M) DTK_DATE_M = DTK_DATE_M) as H1.
  { apply Z.bits_inj'. intros k _. rewrite Z.land_spec, Z.lor_spec. destruct (Z.testbit (c_fmask c) k), (Z.testbit DTK_DATE_M k); reflexivity. }
  assert (Z.land (Z.lor (c_fmask c) DTK_DATE_M) DTK_TIME_M = 0) as H2
    by (rewrite Z.land_lor_distr_l, Ht; reflexivity).
  assert (ctx_number_field t (Z.lor (c_fmask c) DTK_DATE_M) c = Ok (of_nst (mkN DTK_TIME_M (set_sec s (set_min mi (set_hour h (c_tm c)))) us (c_2d c)) c)) as E.
  { unfold ctx_number_field. rewrite (compact_nst t h mi s us) by assumption. reflexivity. }
  rewrite Pt. destruct (compact_str _ _ _ _ _ W) as (v & [->|(f & ->)]); cbn [bind].
  - rewrite E. cbn [bind]. change (c_tmask (of_nst (mkN DTK_TIME_M _ _ _) c) =? DTK_TIME_M) with true. cbn [negb bind].
    destruct c; reflexivity.
  - change (46 =? 46) with true. change (dot_prefix KTime) with true. cbn [andb bind].
    rewrite E. cbn [bind]. change (c_tmask (of_nst (mkN DTK_TIME_M _ _ _) c) =? DTK_TIME_M) with true. cbn [negb bind].
    destruct c; reflexivity.
Qed.

Lemma compact_date_field md order t h mi s us next c : compact_time t h mi s us ->
  c_ptype c = KNumber \/ c_ptype c = KTime -> c_fmask c = DTK_DATE_M -> c_fsec c = 0 -> c_dtype c = KDate ->
  date_time_field md order (Some KNumber, t) next c = Ok (time_ctx h mi s us c).
Proof.
  intros W Pt Hm Hf Hd. unfold date_time_field. cbn [fst snd read_type bind].
  assert (exists c', decode_number_token md t order c = Ok c' /\ c' = c_set_tmask DTK_TIME_M
    (c_set_tm (set_sec s (set_min mi (set_hour h (c_tm c)))) (c_set_fsec us (c_set_ptype KNumber c)))) as (c' & -> & ->).
  { unfold decode_number_token. destruct Pt as [E|E]; rewrite E.
    - cbn [is_num tfeq negb]. change (is_num KNumber) with true. cbn [negb]. rewrite Hm.
      change (Z.land DTK_DATE_M DTK_DATE_M =? 0) with false. change (Z.land DTK_DATE_M DTK_TIME_M =? 0) with true.
      cbn [orb]. rewrite !andb_false_r. cbn [andb]. rewrite andb_true_r.
      assert (ctx_number_field t DTK_DATE_M c = Ok (of_nst (mkN DTK_TIME_M (set_sec s (set_min mi (set_hour h (c_tm c)))) us (c_2d c)) c)) as E2.
      { unfold ctx_number_field. rewrite (compact_nst t h mi s us) by (assumption || reflexivity). reflexivity. }
      assert (of_nst (mkN DTK_TIME_M (set_sec s (set_min mi (set_hour h (c_tm c)))) us (c_2d c)) c = c_set_tmask DTK_TIME_M
        (c_set_tm (set_sec s (set_min mi (set_hour h (c_tm c)))) (c_set_fsec us (c_set_ptype KNumber c)))) as E3
        by (destruct c; cbn in E; subst; reflexivity).
      destruct (compact_shape _ _ _ _ _ W) as [[[L B]|[L B]]|[B L]].
      + rewrite B, Z.eqb_refl. cbn [negb andb]. replace (6 <=? blen t) with false by (unfold blen; lia).
        unfold ctx_decode_number. rewrite (compact_number_md md t h mi s us) by (assumption || reflexivity).
        cbn [bind]. change (n_tm (to_nst c)) with (c_tm c). change (n_2d (to_nst c)) with (c_2d c). rewrite E3. eauto.
      + rewrite B, Z.eqb_refl. cbn [negb andb]. replace (6 <=? blen t) with true by (unfold blen; lia).
        rewrite E2, E3. eauto.
      + rewrite B. replace (6 =? blen t) with false by lia. cbn [negb andb]. change (2 <? 6) with true. cbv iota.
        rewrite E2, E3. eauto.
    - change (is_num KTime) with false. cbn [negb]. rewrite (compact_prefixed md t h mi s us) by (rewrite ?Hm; assumption || reflexivity).
      eexists. split; [reflexivity|]. destruct c; cbn in *; subst; reflexivity. }
  cbn [bind]. unfold merge_mask. replace (has (c_fmask _) (c_tmask _)) with false.
  - reflexivity.
  - symmetry. cbn [c_fmask c_tmask c_set_tmask c_set_tm c_set_fsec c_set_ptype]. rewrite Hm. reflexivity.
Qed.

(** ** Timestamps and dates *)
Lemma to_ts_wide md tm us :
  let c := (tm_year tm, tm_mon tm, tm_mday tm) in
  let T := clock (tm_hour tm) (tm_min tm) (tm_sec tm) us in
  let t := (J c - 2451545) * usecs_day + T in
  valid_ymd c ->
  -500000 <= tm_hour tm <= 500000 -> -100000 <= tm_min tm <= 100000 -> in_i32 (tm_sec tm) ->
  -1000000000000 <= us <= 1000000000000 ->
  -usecs_day <= T <= 5 * usecs_day ->
  (valid_ts t -> to_timestamp md tm us = Ok t) /\
  (~ valid_ts t -> exists e, to_timestamp md tm us = Err e).
Proof.
  intros c T t V Hh Hm Hs Hu HT. unfold to_timestamp.
  destruct (is_valid_julian (tm_year tm) (tm_mon tm)) eqn:E; cbn [negb].
  - pose proof (J_julian_bounds _ _ _ V E) as JB.
    pose proof (is_valid_julian_bounds _ _ E) as B.
    destruct V as [Vm Vd]. pose proof (month_len_bounds (tm_year tm) (tm_mon tm) Vm) as ML.
    rewrite date2julian_ok by lia. cbn [bind].
    rewrite (date2julian_ok md 2000 1 1) by lia. cbn [bind].
    change (J (2000, 1, 1)) with 2451545.
    fold c in JB |- *. ar_unfold. ar1.
    rewrite time2t_ok by auto. fold T. cbn [bind].
    unfold chk64, USECS_PER_DAY. unfold usecs_day in *. unfold valid_ts.
    destruct (in64b ((J c - 2451545) * 86400000000)) eqn:I1; cbn [ok_or bind].
    + fold t. destruct (in64b t) eqn:I2; cbn [ok_or bind].
      * destruct (is_valid_timestamp t) eqn:VT; cbn [negb].
        -- apply is_valid_timestamp_spec in VT. unfold valid_ts in VT. split; [reflexivity|tauto].
        -- split; [|eauto]. intros VT'. apply is_valid_timestamp_spec in VT'. congruence.
      * split; [|eauto]. unfold in64b, i64_min, i64_max in I2. lia.
    + split; [|eauto]. unfold in64b, i64_min, i64_max in I1. subst t. lia.
  - split; [|eauto]. destruct (J_low _ _ _ V E) as [JL|JL]; fold c in JL;
      unfold valid_ts, t, usecs_day in *; lia.
Qed.

Lemma carried_bounds x h mi s us k : 0 <= h <= 99 -> carried_clock x h mi s us = Some k ->
  exists h', 0 <= h' <= 99 /\ k = clock h' mi s us /\ match x with NoHalf => h' = h | _ => meant_hour x h = Some h' end.
Proof.
  intros B E. destruct x as [|b|b]; cbn [carried_clock meant_hour] in *.
  - injection E as <-. exists h. auto.
  - destruct (h <=? 12); [|discriminate]. injection E as <-. exists (h mod 12). pose proof (Z.mod_pos_bound h 12 ltac:(lia)).
    split; [lia|auto].
  - destruct (h <=? 12); [|discriminate]. injection E as <-. exists (h mod 12 + 12). pose proof (Z.mod_pos_bound h 12 ltac:(lia)).
    split; [lia|auto].
Qed.

Definition carried (md : mode) (order : Base.date_order) (ts : list token) (e : era) (Y : bytes) (m d mi s us : Z) (c : option Z) : Prop :=
  (exists y h tm, meant_year e Y = Some y /\ valid_ymd (y, m, d) /\ c = Some (clock h mi s us)
     /\ 0 <= h <= 99 /\ decode_date_time md order ts = Ok (tm, KDate, us)
     /\ tm_year tm = y /\ tm_mon tm = m /\ tm_mday tm = d /\ tm_hour tm = h /\ tm_min tm = mi /\ tm_sec tm = s)
  \/ (c = None \/ forall y, meant_year e Y = Some y -> ~ valid_ymd (y, m, d))
     /\ exists er, decode_date_time md order ts = Err er.

Lemma carried_end md order all e Y m d h mi s us x c1 : date_time_fields md order all ctx_new = Ok c1 ->
  end_ctx x e Y c1 -> short_digits Y -> 0 <= h <= 99 -> c_fsec c1 = us ->
  tm_mon (c_tm c1) = m -> tm_mday (c_tm c1) = d -> tm_hour (c_tm c1) = h -> tm_min (c_tm c1) = mi -> tm_sec (c_tm c1) = s ->
  carried md order all e Y m d mi s us (carried_clock x h mi s us).
Proof.
  intros E K PY Bh Ef Em Ed Eh Emi Es. unfold carried.
  pose proof (finish_words md order all x e Y _ E K PY ltac:(rewrite Eh; rng; lia)) as D.
  rewrite Ef, Em, Ed, Eh in D. clear K E Ef. generalize dependent (c_tm c1). intros tm Eh Em Ed Emi Es D.
  destruct (meant_year e Y) as [y|]; [|right; split; [right; intros; discriminate|eauto]].
  destruct (validb y m d) eqn:V; [|right; split; [right; intros y' [= <-]; now apply invalidb|eauto]].
  apply validb_spec in V.
  destruct (carried_clock x h mi s us) as [k|] eqn:MC.
  - destruct (carried_bounds x h mi s us k Bh MC) as (h' & Bh' & -> & Mh).
    left. exists y, h', (match x with NoHalf => set_year y tm | _ => set_hour h' (set_year y tm) end).
    split; [reflexivity|]. split; [exact V|]. split; [reflexivity|]. split; [exact Bh'|].
    destruct x as [|b|b]; try rewrite Mh in D.
    + subst h'. split; [exact D|]. destruct tm; cbn in *; subst; repeat split.
    + split; [exact D|]. destruct tm; cbn in *; subst; repeat split.
    + split; [exact D|]. destruct tm; cbn in *; subst; repeat split.
  - right. split; [now left|].
    destruct x as [|b|b]; cbn [carried_clock meant_hour] in *; [discriminate| |].
    + destruct (h <=? 12); [discriminate|eauto].
    + destruct (h <=? 12); [discriminate|eauto].
Qed.

Lemma carried_time md order ts e Y m d c0 sep t h mi s us x : date_state Y m d c0 -> short_digits Y ->
  (forall r, date_time_fields md order (ts ++ r) ctx_new = date_time_fields md order r c0) -> compact_time t h mi s us ->
  carried md order (ts ++ gap_tokens sep ++ (Some KNumber, t) :: half_tokens x ++ mark_tokens e) e Y m d mi s us (carried_clock x h mi s us).
Proof.
  intros (S1 & S2 & S3 & S4 & S5 & S6 & S7 & S8 & S9 & S10 & S11 & S12 & S13 & S14) PY F W.
  pose proof (compact_bounds _ _ _ _ _ W) as (Bh & Bm & Bs & Bu).
  set (all := ts ++ _).
  set (cg := if sep =? 84 then t_ctx c0 else c0).
  assert (c_fmask cg = DTK_DATE_M) as G1 by (subst cg; destruct (sep =? 84); [cbn; rewrite S3; reflexivity|exact S3]).
  assert (date_time_fields md order all ctx_new = Ok (mark_ctx e (half_ctx x (time_ctx h mi s us cg)))) as E.
  { subst all. rewrite F.
    assert (date_time_fields md order (gap_tokens sep ++ (Some KNumber, t) :: half_tokens x ++ mark_tokens e) c0
      = date_time_fields md order ((Some KNumber, t) :: half_tokens x ++ mark_tokens e) cg) as ->.
    { unfold gap_tokens, cg. destruct (sep =? 84); [|reflexivity]. cbn [app date_time_fields].
      rewrite field_T_number by (rewrite S3; reflexivity). reflexivity. }
    cbn [date_time_fields]. rewrite (compact_date_field md order t h mi s us).
    - cbn [bind]. rewrite half_fields by (cbn; rewrite G1; reflexivity). apply mark_fields.
      destruct x; cbn; rewrite G1; reflexivity.
    - exact W.
    - subst cg. destruct (sep =? 84); [right; reflexivity|left; exact S4].
    - exact G1.
    - subst cg. destruct (sep =? 84); exact S2.
    - subst cg. destruct (sep =? 84); exact S1. }
  set (c1 := mark_ctx e (half_ctx x (time_ctx h mi s us cg))) in *.
  assert (c_tm c1 = set_sec s (set_min mi (set_hour h (c_tm c0)))) as Et.
  { subst c1 cg. destruct e, x as [|b|b], (sep =? 84); reflexivity. }
  assert (c_fsec c1 = us) as Ef by (subst c1 cg; destruct e, x as [|b|b], (sep =? 84); reflexivity).
  assert (end_ctx x e Y c1) as K.
  { unfold end_ctx. rewrite Et. subst c1 cg. destruct c0 as [tm0]. cbn in *. subst.
    destruct e, x as [|b|b], (sep =? 84); repeat split; destruct tm0; assumption. }
  apply (carried_end md order all e Y m d h mi s us x c1 E K PY); try assumption; try lia;
    rewrite Et; [rewrite <- S10|rewrite <- S11| | |]; destruct (c_tm c0); reflexivity.
Qed.

Lemma compact_decoded md order glue td Y m d sep t h mi s us x e : date_words order glue td Y m d ->
  sep = 32 \/ sep = 84 /\ glue = true -> compact_time t h mi s us ->
  exists ts, parse_date_time (td ++ sep :: t ++ half_text x ++ era_text e) = Ok ts
    /\ carried md order ts e Y m d mi s us (carried_clock x h mi s us).
Proof.
  intros Dw Hs W. destruct (date_case md _ _ _ _ _ _ Dw) as (ts & (k & n & room & Hk & Hn & Hr & T) & Fo).
  destruct (words_year _ _ _ _ _ _ Dw) as [PY _].
  set (tl := sep :: t ++ half_text x ++ era_text e).
  assert (rest_ok glue tl) as Ro.
  { destruct Hs as [->|[-> ->]]; [right; left; eexists; reflexivity|right; right; split; [reflexivity|eexists; reflexivity]]. }
  assert (parse_date_time (td ++ tl) = let* r := tokenize (S (length td - k + length tl)) n room tl in Ok (ts ++ r)) as P.
  { rewrite parse_date_time_cons by (destruct td; [cbn in Hk; lia|discriminate]). rewrite <- T by exact Ro.
    f_equal. rewrite app_length. lia. }
  unfold tl in *. rewrite (compact_tail sep t h mi s us) in P by (tauto || exact W || lia). cbn [bind] in P.
  eexists. split; [exact P|].
  destruct Fo as [(c0 & S0 & F)|[N F]].
  - now apply (carried_time md order ts e Y m d c0).
  - right. split; [right; intros; now apply not_valid_d|]. exists EInvalid. apply fields_err, F.
Qed.

Lemma carried_ts md order text ts Y m d mi s us e c p : parse_date_time text = Ok ts -> carried md order ts e Y m d mi s us c ->
  0 <= mi <= 99 -> 0 <= s <= 99 -> 0 <= us < 1000000 ->
  let r := timestamp_try_from_str md text p order in
  (forall n k, meant_day e Y m d n -> c = Some k -> valid_ts (n * usecs_day + k) ->
     r = timestamp_adjust_by_typmod md (n * usecs_day + k) p)
  /\ ((forall n k, meant_day e Y m d n -> c = Some k -> ~ valid_ts (n * usecs_day + k)) -> exists er, r = Err er).
Proof.
  intros P Dc Bm Bs Bu r. subst r.
  unfold timestamp_try_from_str. rewrite P. cbn [bind].
  destruct Dc as [(y & h' & tm & My & V & -> & Bh & -> & E1 & E2 & E3 & E4 & E5 & E6)|[N [er ->]]].
  - cbn [bind].
    assert (-usecs_day <= clock h' mi s us <= 5 * usecs_day) as BT by (unfold clock, usecs_day; lia).
    pose proof (to_ts_wide md tm us) as G. cbv zeta in G. rewrite E1, E2, E3, E4, E5, E6 in G.
    specialize (G V ltac:(lia) ltac:(lia) ltac:(rng; lia) ltac:(lia) BT). destruct G as [G1 G2].
    assert (forall n, meant_day e Y m d n -> n = J (y, m, d) - 2451545) as U.
    { intros n (y' & My' & V' & Dn). rewrite My in My'. injection My' as <-. apply day_number_J in Dn; [lia|exact V]. }
    assert (meant_day e Y m d (J (y, m, d) - 2451545)) as Md.
    { exists y. split; [exact My|]. split; [exact V|]. apply day_number_J; [exact V|lia]. }
    split.
    + intros n k Mn [= <-] Vt. rewrite (U n Mn) in *. rewrite G1 by exact Vt. reflexivity.
    + intros Nv. specialize (Nv _ _ Md eq_refl). destruct (G2 Nv) as [er Eer]. exists er. rewrite Eer. reflexivity.
  - split; [|intros _; exists er; reflexivity]. intros n k (y & My & V & _) Ck _. destruct N as [N|N]; [congruence|]. now destruct (N y My).
Qed.

Lemma carried_date md order text ts Y m d mi s us e c : parse_date_time text = Ok ts -> carried md order ts e Y m d mi s us c ->
  let r := date_try_from_str md text order in
  (forall n, meant_day e Y m d n -> c <> None -> valid_date n -> r = Ok n)
  /\ ((forall n, meant_day e Y m d n -> c <> None -> ~ valid_date n) -> exists er, r = Err er).
Proof.
  intros P Dc r. subst r.
  unfold date_try_from_str. rewrite P. cbn [bind].
  destruct Dc as [(y & h' & tm & My & V & -> & Bh & -> & E1 & E2 & E3 & E4 & E5 & E6)|[N [er ->]]].
  - cbn [bind]. rewrite E1, E2, E3. rewrite (finish_date [] ltac:(cbn; lia)) by exact V.
    assert (forall n, meant_day e Y m d n -> n = J (y, m, d) - 2451545) as U.
    { intros n (y' & My' & V' & Dn). rewrite My in My'. injection My' as <-. apply day_number_J in Dn; [lia|exact V]. }
    assert (meant_day e Y m d (J (y, m, d) - 2451545)) as Md.
    { exists y. split; [exact My|]. split; [exact V|]. apply day_number_J; [exact V|lia]. }
    split.
    + intros n Mn _ Vd. rewrite (U n Mn) in *. unfold valid_date in Vd.
      replace ((0 <=? J (y, m, d)) && (J (y, m, d) <=? 2147483493)) with true by lia. reflexivity.
    + intros Nv. specialize (Nv _ Md ltac:(discriminate)). unfold valid_date in Nv.
      replace ((0 <=? J (y, m, d)) && (J (y, m, d) <=? 2147483493)) with false by lia. eauto.
  - split; [|intros _; exists er; reflexivity]. intros n (y & My & V & _) Ck _. destruct N as [N|N]; [congruence|]. now destruct (N y My).
Qed.

Lemma compact_ts md order glue td Y m d sep t h mi s us x e p : date_words order glue td Y m d ->
  sep = 32 \/ sep = 84 /\ glue = true -> compact_time t h mi s us ->
  let r := timestamp_try_from_str md (td ++ sep :: t ++ half_text x ++ era_text e) p order in
  let c := carried_clock x h mi s us in
  (forall n k, meant_day e Y m d n -> c = Some k -> valid_ts (n * usecs_day + k) ->
     r = timestamp_adjust_by_typmod md (n * usecs_day + k) p)
  /\ ((forall n k, meant_day e Y m d n -> c = Some k -> ~ valid_ts (n * usecs_day + k)) -> exists er, r = Err er).
Proof.
  intros Dw Hs W r c. destruct (compact_decoded md _ _ _ _ _ _ _ _ _ _ _ _ x e Dw Hs W) as (ts & P & Dc). subst r c.
  pose proof (compact_bounds _ _ _ _ _ W) as (_ & Bm & Bs & Bu). now apply (carried_ts md order _ ts Y m d mi s us).
Qed.

Lemma compact_date md order glue td Y m d sep t h mi s us x e : date_words order glue td Y m d ->
  sep = 32 \/ sep = 84 /\ glue = true -> compact_time t h mi s us ->
  let r := date_try_from_str md (td ++ sep :: t ++ half_text x ++ era_text e) order in
  let c := carried_clock x h mi s us in
  (forall n, meant_day e Y m d n -> c <> None -> valid_date n -> r = Ok n)
  /\ ((forall n, meant_day e Y m d n -> c <> None -> ~ valid_date n) -> exists er, r = Err er).
Proof.
  intros Dw Hs W r c. destruct (compact_decoded md _ _ _ _ _ _ _ _ _ _ _ _ x e Dw Hs W) as (ts & P & Dc). subst r c.
  now apply (carried_date md order _ ts Y m d mi s us).
Qed.

(** ** Times of day *)
Definition t_text (b : bool) : bytes := if b then [84] else [].
Definition t_tokens (b : bool) : list token := if b then [(Some KString, [116])] else [].

Lemma compact_time_tokens b t h mi s us x : compact_time t h mi s us ->
  parse_date_time (t_text b ++ t ++ half_text x) = Ok (t_tokens b ++ (Some KNumber, t) :: half_tokens x).
Proof.
  intros W. pose proof (compact_tail (if b then 84 else 32) t h mi s us x Unmarked) as K. cbn [era_text mark_tokens] in K.
  rewrite !app_nil_r in K. pose proof (compact_len _ _ _ _ _ W) as L.
  rewrite parse_date_time_cons by (destruct b; [discriminate|]; destruct t; [cbn in L; lia|discriminate]).
  destruct b; cbn [t_text t_tokens app].
  - rewrite K by (auto; lia). reflexivity.
  - rewrite <- tokenize_space.
    change (tokenize (S (length (t ++ half_text x))) 0 128 (32 :: t ++ half_text x) = Ok ([] ++ (Some KNumber, t) :: half_tokens x)).
    change (@nil token) with (gap_tokens 32).
    assert (forall f, (length (t ++ half_text x) <= f)%nat -> tokenize (S f) 0 128 (t ++ half_text x) = Ok ((Some KNumber, t) :: half_tokens x)) as Q.
    { intros f Lf. rewrite (tokenize_compact t h mi s us); [|exact W| |lia|unfold blen; lia].
      2:{ pose proof (half_after x Unmarked) as A. cbn [era_text] in A. now rewrite app_nil_r in A. }
      rewrite app_length in Lf.
      assert (half_count x <= length (half_text x))%nat as Hh by (destruct x as [|[]|[]]; cbn; lia).
      replace f with (half_count x + S (f - half_count x - 1))%nat by lia.
      rewrite <- (app_nil_r (half_text x)). rewrite tokenize_half; [|lia|unfold blen; lia|now left].
      rewrite tokenize_nil. cbn [bind]. now rewrite app_nil_r. }
    rewrite tokenize_space. now apply Q.
Qed.

(** The end of [decode_time_only] and the conversion. *)
Lemma time_finish md h mi s us x p fm tk : 0 <= h <= 999999999 -> 0 <= mi <= 999999999 -> 0 <= s <= 999999999 -> 0 <= us < 1000000 ->
  let c := mkCtx (mkTm s mi h 0 0 0 0 0 (-1)) KDate us fm tk KNumber false false false HR24 false in
  validate_date md (c_fmask (half_ctx x c)) false false false (c_tm c) = Ok (c_tm c) ->
  (let* y := (let* tm := validate_date md (c_fmask (half_ctx x c)) (c_julian (half_ctx x c)) (c_2d (half_ctx x c)) (c_bc (half_ctx x c)) (c_tm (half_ctx x c)) in
   let* tm := apply_mer md (c_mer (half_ctx x c)) tm in
   if (tm_hour tm <? 0) || (tm_min tm <? 0) || (MINS_PER_HOUR - 1 <? tm_min tm)
      || (tm_sec tm <? 0) || (SECS_PER_MINUTE <? tm_sec tm) || (HOURS_PER_DAY <? tm_hour tm)
      || ((tm_hour tm =? HOURS_PER_DAY) && ((0 <? tm_min tm) || (0 <? tm_sec tm) || (0 <? c_fsec (half_ctx x c))))
      || (c_fsec (half_ctx x c) <? 0) || (USECS_PER_SEC <? c_fsec (half_ctx x c))
   then Err EOverflow else Ok (tm, c_fsec (half_ctx x c))) in
   let* t := time_from_pgtime md (fst y) (snd y) in time_adjust_by_typmod md t p)
  = match meant_clock x h mi s us with Some k => time_adjust_by_typmod md k p | None => Err EOverflow end.
Proof.
  intros Bh Bm Bs Bu c Vd.
  assert (c_julian (half_ctx x c) = false /\ c_2d (half_ctx x c) = false /\ c_bc (half_ctx x c) = false
     /\ c_tm (half_ctx x c) = c_tm c /\ c_mer (half_ctx x c) = half_code x /\ c_fsec (half_ctx x c) = us)
    as (-> & -> & -> & -> & -> & ->) by (destruct x; repeat split).
  rewrite Vd.
  cbn [bind]. rewrite apply_half by (cbn [c tm_hour c_tm]; rng; lia). cbn [c tm_hour c_tm].
  assert (forall h', 0 <= h' ->
    bind (if (tm_hour (set_hour h' (c_tm c)) <? 0) || (tm_min (set_hour h' (c_tm c)) <? 0) || (MINS_PER_HOUR - 1 <? tm_min (set_hour h' (c_tm c)))
     || (tm_sec (set_hour h' (c_tm c)) <? 0) || (SECS_PER_MINUTE <? tm_sec (set_hour h' (c_tm c))) || (HOURS_PER_DAY <? tm_hour (set_hour h' (c_tm c)))
     || ((tm_hour (set_hour h' (c_tm c)) =? HOURS_PER_DAY)
         && ((0 <? tm_min (set_hour h' (c_tm c))) || (0 <? tm_sec (set_hour h' (c_tm c))) || (0 <? us)))
     || (us <? 0) || (USECS_PER_SEC <? us)
  then Err EOverflow
  else Ok (set_hour h' (c_tm c), us)) (fun x => let* t := time_from_pgtime md (fst x) (snd x) in time_adjust_by_typmod md t p)
  = if (h' <=? 24) && ((mi <=? 59) && (s <=? 60) && ((h' <? 24) || (mi =? 0) && (s =? 0) && (us =? 0))) then time_adjust_by_typmod md (clock h' mi s us) p
    else Err EOverflow) as K.
  { intros h' B'. cbn [c c_tm set_hour tm_hour tm_min tm_sec].
    unfold MINS_PER_HOUR, SECS_PER_MINUTE, HOURS_PER_DAY, USECS_PER_SEC.
    match goal with |- bind (if ?b then _ else _) _ = (if ?d then _ else _) => assert (b = negb d) as -> by lia; destruct d eqn:D end; [|reflexivity].
    cbn [negb bind fst snd]. rewrite (time_from_fields md _ us h' mi s) by (reflexivity || lia). reflexivity. }
  unfold meant_clock. destruct x as [|b|b].
  - cbn [bind meant_hour]. specialize (K h (proj1 Bh)).
    change (set_hour h (c_tm c)) with (c_tm c) in K. unfold bind in K |- *. cbn [c c_tm] in K. etransitivity; [exact K|].
    destruct (h <=? 24), ((mi <=? 59) && _ && _); reflexivity.
  - cbn [meant_hour]. destruct (Z.leb_spec h 12) as [H|H]; [|reflexivity]. cbn [bind].
    pose proof (Z.mod_pos_bound h 12 ltac:(lia)). specialize (K (h mod 12) ltac:(lia)). unfold bind in K |- *. etransitivity; [exact K|].
    replace (h mod 12 <=? 24) with true by lia. cbn [andb]. destruct ((mi <=? 59) && _ && _); reflexivity.
  - cbn [meant_hour]. destruct (Z.leb_spec h 12) as [H|H]; [|reflexivity]. cbn [bind].
    pose proof (Z.mod_pos_bound h 12 ltac:(lia)). specialize (K (h mod 12 + 12) ltac:(lia)). unfold bind in K |- *. etransitivity; [exact K|].
    replace (h mod 12 + 12 <=? 24) with true by lia. cbn [andb]. destruct ((mi <=? 59) && _ && _); reflexivity.
Qed.

Lemma compact_only_field md order b t h mi s us x next (c0 := ctx_new) :  compact_time t h mi s us ->
  time_only_field md order (length (t_tokens b)) (List.map fst (t_tokens b ++ (Some KNumber, t) :: half_tokens x)) (Some KNumber, t) next
    (if b then t_ctx ctx_new else ctx_new)
  = Ok (mkCtx (mkTm s mi h 0 0 0 0 0 (-1)) KDate us DTK_TIME_M DTK_TIME_M KNumber false false false HR24 false).
Proof.
  intros W. unfold time_only_field. cbn [fst snd read_type bind].
  assert (time_number_token md (length (t_tokens b)) (List.map fst (t_tokens b ++ (Some KNumber, t) :: half_tokens x)) t order (if b then t_ctx ctx_new else ctx_new)
    = Ok (mkCtx (mkTm s mi h 0 0 0 0 0 (-1)) KDate us 0 DTK_TIME_M KNumber false false false HR24 false)) as ->; [|reflexivity].
  unfold time_number_token. destruct b.
  - change (is_num (c_ptype (t_ctx ctx_new))) with false. cbn [negb].
    rewrite (compact_prefixed md t h mi s us) by (assumption || reflexivity). reflexivity.
  - change (is_num (c_ptype ctx_new)) with true. cbn [negb t_tokens length app List.map].
    change (Z.lor (c_fmask ctx_new) DTK_DATE_M) with DTK_DATE_M.
    assert (ctx_number_field t DTK_DATE_M ctx_new = Ok (mkCtx (mkTm s mi h 0 0 0 0 0 (-1)) KDate us 0 DTK_TIME_M KNumber false false false HR24 false)) as E2.
    { unfold ctx_number_field. rewrite (compact_nst t h mi s us) by (assumption || reflexivity). reflexivity. }
    destruct (compact_shape _ _ _ _ _ W) as [[[L B]|[L B]]|[B L]].
    + rewrite B, Z.eqb_refl. cbn [negb]. replace (4 <? blen t) with false by (unfold blen; lia).
      unfold ctx_decode_number. rewrite (compact_number_md md t h mi s us) by (assumption || reflexivity). reflexivity.
    + rewrite B, Z.eqb_refl. cbn [negb]. replace (4 <? blen t) with true by (unfold blen; lia). exact E2.
    + rewrite B. replace (6 =? blen t) with false by lia. cbn [negb]. change (2 <? 6) with true.
      destruct x as [|bl|bl]; cbn [half_tokens List.map length fst Nat.eqb Nat.leb andb nth Nat.sub read_type bind]; exact E2.
Qed.

Lemma compact_time_text md b t h mi s us x p order : compact_time t h mi s us ->
  time_try_from_str md (t_text b ++ t ++ half_text x) p order =
  match meant_clock x h mi s us with Some k => time_adjust_by_typmod md k p | None => Err EOverflow end.
Proof.
  intros W. pose proof (compact_bounds _ _ _ _ _ W) as (Bh & Bm & Bs & Bu).
  unfold time_try_from_str. rewrite (compact_time_tokens b t h mi s us) by exact W. cbn [bind].
  unfold decode_time_only.
  assert (time_only_fields md order 0 (List.map fst (t_tokens b ++ (Some KNumber, t) :: half_tokens x)) (t_tokens b ++ (Some KNumber, t) :: half_tokens x) ctx_new
    = Ok (half_ctx x (mkCtx (mkTm s mi h 0 0 0 0 0 (-1)) KDate us DTK_TIME_M DTK_TIME_M KNumber false false false HR24 false))) as ->.
  { pose proof (compact_only_field md order b t h mi s us x (hd_error (half_tokens x)) W) as F.
    destruct b; cbn [t_tokens app length] in *.
    - cbn [time_only_fields].
      assert (forall i tys, time_only_field md order i tys (Some KString, [116]) (hd_error ((Some KNumber, t) :: half_tokens x)) ctx_new = Ok (t_ctx ctx_new)) as ->.
      { intros i tys. unfold time_only_field, time_string_token. cbn [fst snd read_type bind hd_error].
        assert (decode_special [116] = Ok (ISOTIME, kcode KTime)) as -> by (vm_compute; reflexivity).
        reflexivity. }
      cbn [bind]. rewrite F. cbn [bind]. apply half_time_only. reflexivity.
    - cbn [time_only_fields]. rewrite F. cbn [bind]. apply half_time_only. reflexivity. }
  cbn [bind]. apply time_finish; try lia. destruct x; unfold validate_date; cbn [half_ctx c_fmask c_set_fmask]; mk; reflexivity.
Qed.
