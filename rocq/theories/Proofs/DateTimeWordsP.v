(** Putting dates, times and eras together. *)
From Verif Require Import Model.Parse Spec.Calendar Spec.Ranges Spec.Clock Spec.Text Spec.DateText Spec.TimeText Spec.Keywords Spec.DateWords
  Proofs.Arith Proofs.Cal Proofs.DateP Proofs.TsP Proofs.DigitsP Proofs.LexP Proofs.ParseP Proofs.RoundTripP Proofs.NumDateP Proofs.ClockTextP Proofs.DateWordsP.
From Coq Require Import List ZArith Bool Lia.
Import ListNotations.
Open Scope Z_scope.

(** ** Finishing *)
Lemma validate_state md e Y tm : short_digits Y -> tm_year tm = digits_value Y ->
  validate_date md DTK_DATE_M false (length Y <=? 2)%nat (is_bc e) tm =
  match meant_year e Y with
  | Some y => if validb y (tm_mon tm) (tm_mday tm) then Ok (set_year y tm) else Err EOverflow
  | None => Err EOverflow
  end.
Proof.
  intros PY E. assert (short_digits [49]) as P1 by (split; [repeat constructor; unfold digit; lia|cbn; lia]).
  assert (DateText.reading YMD Y [49] [49] = (Y, [49], [49])) as R by (unfold DateText.reading; destruct (3 <=? length Y)%nat; reflexivity).
  pose proof (validate_numeric Y [49] [49] YMD PY P1 ltac:(cbn; lia) md e tm) as H. rewrite R in H. cbn [fst] in H. now apply H.
Qed.

Definition end_ctx (x : half) (e : era) (Y : bytes) (c : ctx) : Prop :=
  full_mask (c_fmask c) = true /\ c_julian c = false /\ c_2d c = (length Y <=? 2)%nat /\ c_bc c = is_bc e
  /\ c_dtype c = KDate /\ c_mer c = half_code x /\ tm_year (c_tm c) = digits_value Y.

Lemma finish_words md order ts x e Y c : date_time_fields md order ts ctx_new = Ok c -> end_ctx x e Y c -> short_digits Y ->
  0 <= tm_hour (c_tm c) <= i32_max ->
  decode_date_time md order ts =
  match meant_year e Y with
  | Some y =>
      if validb y (tm_mon (c_tm c)) (tm_mday (c_tm c)) then
        match x, meant_hour x (tm_hour (c_tm c)) with
        | NoHalf, _ => Ok (set_year y (c_tm c), KDate, c_fsec c)
        | _, Some h => Ok (set_hour h (set_year y (c_tm c)), KDate, c_fsec c)
        | _, None => Err EOverflow
        end
      else Err EOverflow
  | None => Err EOverflow
  end.
Proof.
  intros E (H1 & H2 & H3 & H4 & H5 & H6 & H7) PY Bh. unfold decode_date_time. rewrite E. cbn [bind].
  rewrite validate_full by exact H1. rewrite H2, H3, H4, validate_state by assumption.
  destruct (meant_year e Y) as [y|]; [|reflexivity]. destruct (validb _ _ _); [|reflexivity]. cbn [bind]. rewrite H6.
  assert (tm_hour (set_year y (c_tm c)) = tm_hour (c_tm c)) as Eh by (destruct (c_tm c); reflexivity).
  rewrite apply_half by (rewrite Eh; lia). rewrite Eh. rewrite H5.
  assert (Z.land (c_fmask c) DTK_DATE_M =? DTK_DATE_M = true) as ->
    by (unfold full_mask in H1; now apply andb_prop in H1 as [_ H1]).
  destruct x as [|b|b]; [reflexivity| |]; destruct (meant_hour _ _); reflexivity.
Qed.

(** The outcome of decoding: either the parts of a real date and clock, or an error. *)
Definition decoded (md : mode) (order : Base.date_order) (ts : list token) (e : era) (Y : bytes) (m d : Z) (c : option Z) : Prop :=
  (exists y h mi s us tm, meant_year e Y = Some y /\ valid_ymd (y, m, d) /\ c = Some (clock h mi s us)
     /\ 0 <= h <= 24 /\ 0 <= mi <= 59 /\ 0 <= s <= 60 /\ 0 <= us < 1000000 /\ (h = 24 -> mi = 0 /\ s = 0 /\ us = 0)
     /\ decode_date_time md order ts = Ok (tm, KDate, us)
     /\ tm_year tm = y /\ tm_mon tm = m /\ tm_mday tm = d /\ tm_hour tm = h /\ tm_min tm = mi /\ tm_sec tm = s)
  \/ (c = None \/ forall y, meant_year e Y = Some y -> ~ valid_ymd (y, m, d))
     /\ exists er, decode_date_time md order ts = Err er.

Lemma fields_err md order ts er : date_time_fields md order ts ctx_new = Err er -> decode_date_time md order ts = Err er.
Proof. intros E. unfold decode_date_time. now rewrite E. Qed.

Lemma not_valid_d y m d : ~ (1 <= d <= 31) -> ~ valid_ymd (y, m, d).
Proof. intros N [Hm Hd]. pose proof (month_len_bounds y m Hm). lia. Qed.

Lemma invalidb y m d : validb y m d = false -> ~ valid_ymd (y, m, d).
Proof. intros E V. apply validb_iff in V. congruence. Qed.

Lemma decoded_no_time md order ts e Y m d c0 : date_state Y m d c0 -> short_digits Y ->
  (forall r, date_time_fields md order (ts ++ r) ctx_new = date_time_fields md order r c0) ->
  decoded md order (ts ++ mark_tokens e) e Y m d (Some 0).
Proof.
  intros (S1 & S2 & S3 & S4 & S5 & S6 & S7 & S8 & S9 & S10 & S11 & S12 & S13 & S14) PY F.
  assert (date_time_fields md order (ts ++ mark_tokens e) ctx_new = Ok (mark_ctx e c0)) as E.
  { rewrite F. apply mark_fields. rewrite S3. reflexivity. }
  assert (c_tm (mark_ctx e c0) = c_tm c0) as Et by (destruct e; reflexivity).
  assert (c_fsec (mark_ctx e c0) = 0) as Ef by (destruct e; exact S2).
  assert (end_ctx NoHalf e Y (mark_ctx e c0)) as K.
  { unfold end_ctx. rewrite Et. destruct c0. cbn in *. subst. destruct e; repeat split; assumption. }
  pose proof (finish_words md order _ NoHalf e Y _ E K PY ltac:(rewrite Et, S12; rng; lia)) as D.
  rewrite Et, Ef, S10, S11 in D. unfold decoded. destruct (meant_year e Y) as [y|].
  - destruct (validb y m d) eqn:V.
    + left. exists y, 0, 0, 0, 0, (set_year y (c_tm c0)). apply validb_spec in V.
      split; [reflexivity|]. split; [exact V|]. split; [reflexivity|]. do 5 (split; [lia|]). split; [exact D|].
      destruct (c_tm c0); cbn in *; subst; repeat split.
    + right. split; [right; intros y' [= <-]; now apply invalidb|eauto].
  - right. split; [right; intros; discriminate|eauto].
Qed.

Lemma meant_clock_none x h mi s us : hour_ok h mi s us = false -> 0 <= h -> x = NoHalf \/ 12 < h -> meant_clock x h mi s us = None.
Proof.
  unfold hour_ok, meant_clock. intros H0 B Hx. destruct x as [|b|b]; cbn [meant_hour].
  - destruct (h <=? 24) eqn:E; [|reflexivity]. cbn [andb] in H0. rewrite H0, andb_false_r. reflexivity.
  - destruct Hx as [Hx|Hx]; [discriminate|]. now replace (h <=? 12) with false by lia.
  - destruct Hx as [Hx|Hx]; [discriminate|]. now replace (h <=? 12) with false by lia.
Qed.

Lemma decoded_time md order ts e Y m d c0 sep t h mi s us x : date_state Y m d c0 -> short_digits Y ->
  (forall r, date_time_fields md order (ts ++ r) ctx_new = date_time_fields md order r c0) -> time_words t h mi s us ->
  decoded md order (ts ++ gap_tokens sep ++ (Some KTime, t) :: half_tokens x ++ mark_tokens e) e Y m d (meant_clock x h mi s us).
Proof.
  intros (S1 & S2 & S3 & S4 & S5 & S6 & S7 & S8 & S9 & S10 & S11 & S12 & S13 & S14) PY F W.
  pose proof (words_bounds _ _ _ _ _ W) as (Bh & Bm & Bs & Bu).
  set (all := ts ++ _).
  set (cg := if sep =? 84 then t_ctx c0 else c0).
  assert (c_fmask cg = DTK_DATE_M) as G1 by (subst cg; destruct (sep =? 84); [cbn; rewrite S3; reflexivity|exact S3]).
  assert (date_time_fields md order all ctx_new =
    if (mi <=? 59) && (s <=? 60) then if hour_ok h mi s us then Ok (mark_ctx e (half_ctx x (time_ctx h mi s us cg))) else Err EOverflow else Err EInvalid) as E.
  { subst all. rewrite F.
    assert (date_time_fields md order (gap_tokens sep ++ (Some KTime, t) :: half_tokens x ++ mark_tokens e) c0
      = date_time_fields md order ((Some KTime, t) :: half_tokens x ++ mark_tokens e) cg) as ->.
    { unfold gap_tokens, cg. destruct (sep =? 84); [|reflexivity]. cbn [app date_time_fields].
      rewrite field_T by (rewrite S3; reflexivity). reflexivity. }
    cbn [date_time_fields]. rewrite (field_words md order t h mi s us).
    - destruct (_ && _); [|reflexivity]. destruct (hour_ok h mi s us); [|reflexivity]. cbn [bind].
      rewrite half_fields by (cbn; rewrite G1; reflexivity). apply mark_fields.
      destruct x; cbn; rewrite G1; reflexivity.
    - exact W.
    - subst cg. destruct (sep =? 84); [right; reflexivity|left; exact S4].
    - rewrite G1. reflexivity. }
  unfold decoded.
  destruct ((mi <=? 59) && (s <=? 60)) eqn:R.
  2:{ right. apply fields_err in E. split; [left|eauto]. unfold meant_clock. destruct (meant_hour x h); [|reflexivity]. rewrite R. reflexivity. }
  destruct (hour_ok h mi s us) eqn:HO.
  2:{ right. apply fields_err in E. split; [left|eauto]. apply meant_clock_none; [exact HO|lia|].
      destruct x; [now left| |]; right; unfold hour_ok in HO; lia. }
  set (c1 := mark_ctx e (half_ctx x (time_ctx h mi s us cg))) in *.
  assert (c_tm c1 = set_sec s (set_min mi (set_hour h (c_tm c0)))) as Et.
  { subst c1 cg. destruct e, x as [|b|b], (sep =? 84); reflexivity. }
  assert (c_fsec c1 = us) as Ef by (subst c1 cg; destruct e, x as [|b|b], (sep =? 84); reflexivity).
  assert (end_ctx x e Y c1) as K.
  { unfold end_ctx. rewrite Et. subst c1 cg. destruct c0 as [tm0]. cbn in *. subst.
    destruct e, x as [|b|b], (sep =? 84); repeat split; destruct tm0; assumption. }
  assert (tm_hour (c_tm c1) = h) as Eh by (rewrite Et; destruct (c_tm c0); reflexivity).
  assert (tm_mon (c_tm c1) = m) as Em by (rewrite Et, <- S10; destruct (c_tm c0); reflexivity).
  assert (tm_mday (c_tm c1) = d) as Ed by (rewrite Et, <- S11; destruct (c_tm c0); reflexivity).
  assert (tm_min (c_tm c1) = mi) as Emi by (rewrite Et; destruct (c_tm c0); reflexivity).
  assert (tm_sec (c_tm c1) = s) as Es by (rewrite Et; destruct (c_tm c0); reflexivity).
  pose proof (finish_words md order all x e Y _ E K PY ltac:(rewrite Eh; rng; lia)) as D.
  rewrite Ef, Em, Ed, Eh in D. clear Et K E Ef. generalize dependent (c_tm c1). intros tm Eh Em Ed Emi Es D.
  destruct (meant_year e Y) as [y|]; [|right; split; [right; intros; discriminate|eauto]].
  destruct (validb y m d) eqn:V; [|right; split; [right; intros y' [= <-]; now apply invalidb|eauto]].
  apply validb_spec in V.
  destruct (meant_clock x h mi s us) as [k|] eqn:MC.
  - destruct (meant_clock_bounds x h mi s us k ltac:(lia) ltac:(lia) ltac:(lia) Bu MC) as (h' & Mh & Bh' & Bmi & Bsec & H24 & ->).
    left. exists y, h', mi, s, us, (match x with NoHalf => set_year y tm | _ => set_hour h' (set_year y tm) end).
    split; [reflexivity|]. split; [exact V|]. split; [reflexivity|]. do 5 (split; [lia|]).
    destruct x as [|b|b]; try rewrite Mh in D.
    + split; [exact D|]. cbn in Mh. destruct (h <=? 24); [|discriminate]. injection Mh as <-. destruct tm; cbn in *; subst; repeat split.
    + split; [exact D|]. destruct tm; cbn in *; subst; repeat split.
    + split; [exact D|]. destruct tm; cbn in *; subst; repeat split.
  - right. split; [now left|]. unfold meant_clock in MC. rewrite R in MC. cbn [andb] in MC.
    destruct x as [|b|b]; cbn [meant_hour] in *.
    + unfold hour_ok in HO. destruct (h <=? 24); [|discriminate]. cbn [andb] in *. rewrite HO in MC. discriminate.
    + destruct (h <=? 12) eqn:H12; [|eauto]. pose proof (Z.mod_pos_bound h 12 ltac:(lia)).
      replace (h mod 12 <? 24) with true in MC by lia. discriminate.
    + destruct (h <=? 12) eqn:H12; [|eauto]. pose proof (Z.mod_pos_bound h 12 ltac:(lia)).
      replace (h mod 12 + 12 <? 24) with true in MC by lia. discriminate.
Qed.

Lemma time_rest_ok glue tt c e : DateWords.time_part glue tt c -> rest_ok glue (tt ++ era_text e).
Proof.
  destruct 1 as [g|g sep t h mi s us x [->|[-> ->]] W].
  - destruct e; [now left|right; left; eexists; reflexivity|right; left; eexists; reflexivity].
  - right. left. eexists. reflexivity.
  - right. right. split; [reflexivity|]. eexists. reflexivity.
Qed.

Lemma words_decoded md order glue td Y m d tt c e : date_words order glue td Y m d -> DateWords.time_part glue tt c ->
  exists ts, parse_date_time (td ++ tt ++ era_text e) = Ok ts /\ decoded md order ts e Y m d c.
Proof.
  intros Dw Tp. destruct (date_case md _ _ _ _ _ _ Dw) as (ts & (k & n & room & Hk & Hn & Hr & T) & Fo).
  destruct (words_year _ _ _ _ _ _ Dw) as [PY _].
  assert (parse_date_time (td ++ tt ++ era_text e)
    = let* r := tokenize (S (length td - k + length (tt ++ era_text e))) n room (tt ++ era_text e) in Ok (ts ++ r)) as P.
  { rewrite parse_date_time_cons by (destruct td; [cbn in Hk; lia|discriminate]). rewrite <- T by eauto using time_rest_ok.
    f_equal. rewrite app_length. lia. }
  destruct Tp as [g|g sep t h mi s us x Hs W].
  - cbn [app] in P |- *. rewrite tokenize_mark' in P by lia. cbn [bind] in P.
    exists (ts ++ mark_tokens e). split; [exact P|].
    destruct Fo as [(c0 & S0 & F)|[N F]].
    + now apply (decoded_no_time md order ts e Y m d c0).
    + right. split; [right; intros; now apply not_valid_d|]. exists EInvalid. apply fields_err, F.
  - assert ((sep :: t ++ half_text x) ++ era_text e = sep :: t ++ half_text x ++ era_text e) as Q by (cbn [app]; now rewrite <- app_assoc).
    rewrite Q in *. rewrite (tail_tokens sep t h mi s us) in P by (tauto || exact W || lia). cbn [bind] in P.
    eexists. split; [exact P|].
    destruct Fo as [(c0 & S0 & F)|[N F]].
    + now apply (decoded_time md order ts e Y m d c0).
    + right. split; [right; intros; now apply not_valid_d|]. exists EInvalid. apply fields_err, F.
Qed.

(** ** Timestamps and dates *)
Lemma ts_words md order glue td Y m d tt c e p : date_words order glue td Y m d -> DateWords.time_part glue tt c ->
  let r := timestamp_try_from_str md (td ++ tt ++ era_text e) p order in
  (forall n k, meant_day e Y m d n -> c = Some k -> valid_ts (n * usecs_day + k) ->
     r = timestamp_adjust_by_typmod md (n * usecs_day + k) p)
  /\ ((forall n k, meant_day e Y m d n -> c = Some k -> ~ valid_ts (n * usecs_day + k)) -> exists er, r = Err er).
Proof.
  intros Dw Tp r. destruct (words_decoded md _ _ _ _ _ _ _ _ e Dw Tp) as (ts & P & Dc). subst r.
  unfold timestamp_try_from_str. rewrite P. cbn [bind].
  destruct Dc as [(y & h & mi & s & us & tm & My & V & -> & Bh & Bm & Bs & Bu & H24 & -> & E1 & E2 & E3 & E4 & E5 & E6)|[N [er ->]]].
  - cbn [bind].
    assert (-usecs_day <= clock h mi s us <= 2 * usecs_day) as BT by (unfold clock, usecs_day; lia).
    pose proof (to_ts_gen md tm us) as G. cbv zeta in G. rewrite E1, E2, E3, E4, E5, E6 in G.
    specialize (G V ltac:(lia) ltac:(lia) ltac:(rng; lia) ltac:(lia) BT). destruct G as [G1 G2].
    assert (forall n, meant_day e Y m d n -> n = J (y, m, d) - 2451545) as U.
    { intros n (y' & My' & V' & Dn). rewrite My in My'. injection My' as <-. apply day_number_J in Dn; [lia|exact V]. }
    assert (meant_day e Y m d (J (y, m, d) - 2451545)) as Md.
    { exists y. split; [exact My|]. split; [exact V|]. apply day_number_J; [exact V|lia]. }
    split.
    + intros n k Mn [= <-] Vt. rewrite (U n Mn) in *. rewrite G1 by exact Vt. reflexivity.
    + intros Nv. specialize (Nv _ _ Md eq_refl). destruct (G2 Nv) as [er Eer]. exists er. rewrite Eer. reflexivity.
  - split; [|intros _; exists er; reflexivity]. intros n k (y & My & V & _) Ck _. destruct N as [N|N]; [congruence|]. now destruct (N y My).
Qed.

Lemma date_words_value md order glue td Y m d tt c e : date_words order glue td Y m d -> DateWords.time_part glue tt c ->
  let r := date_try_from_str md (td ++ tt ++ era_text e) order in
  (forall n, meant_day e Y m d n -> c <> None -> valid_date n -> r = Ok n)
  /\ ((forall n, meant_day e Y m d n -> c <> None -> ~ valid_date n) -> exists er, r = Err er).
Proof.
  intros Dw Tp r. destruct (words_decoded md _ _ _ _ _ _ _ _ e Dw Tp) as (ts & P & Dc). subst r.
  unfold date_try_from_str. rewrite P. cbn [bind].
  destruct Dc as [(y & h & mi & s & us & tm & My & V & -> & Bh & Bm & Bs & Bu & H24 & -> & E1 & E2 & E3 & E4 & E5 & E6)|[N [er ->]]].
  - cbn [bind]. rewrite E1, E2, E3. rewrite (finish_date [] ltac:(cbn; lia)) by exact V.
    assert (forall n, meant_day e Y m d n -> n = J (y, m, d) - 2451545) as U.
    { intros n (y' & My' & V' & Dn). rewrite My in My'. injection My' as <-. apply day_number_J in Dn; [lia|exact V]. }
    assert (meant_day e Y m d (J (y, m, d) - 2451545)) as Md.
    { exists y. split; [exact My|]. split; [exact V|]. apply day_number_J; [exact V|lia]. }
    split.
    + intros n Mn _ Vd. rewrite (U n Mn) in *. unfold valid_date in Vd.
      replace ((0 <=? J (y, m, d)) && (J (y, m, d) <=? 2147483493)) with true by lia. reflexivity.
    + intros Nv. specialize (Nv _ Md ltac:(discriminate)). unfold valid_date in Nv.
      replace ((0 <=? J (y, m, d)) && (J (y, m, d) <=? 2147483493)) with false by lia. eauto.
  - split; [|intros _; exists er; reflexivity]. intros n (y & My & V & _) Ck _. destruct N as [N|N]; [congruence|]. now destruct (N y My).
Qed.
