(** Dates given by a count of days (Julian days and days of the year): lemmas for C62. *)
From Verif Require Import Model.Parse Spec.Calendar Spec.Ranges Spec.Clock Spec.Text Spec.Lexing Spec.DateText Spec.TimeText Spec.Keywords Spec.DateWords Spec.DayCount
  Proofs.Arith Proofs.Cal Proofs.DateP Proofs.TsP Proofs.DigitsP Proofs.LexP Proofs.ParseP Proofs.RoundTripP Proofs.NumDateP Proofs.ClockTextP Proofs.DateWordsP
  Proofs.FieldsP Proofs.DateTimeWordsP.
From Coq Require Import List ZArith Bool Lia.
Import ListNotations.
Open Scope Z_scope.

(** ** Any way of giving a date, followed by a time and an era *)
Definition date_bits (doy : bool) (fm : Z) : bool :=
  has fm (mask YEAR) && eqb (has fm (mask DOY)) doy && has fm (mask MONTH) && has fm (mask DAY) && (Z.land fm DTK_DATE_M =? DTK_DATE_M).
Definition begun (doy : bool) (c : ctx) : Prop :=
  c_dtype c = KDate /\ c_fsec c = 0 /\ c_fmask c = Z.lor DTK_DATE_M (if doy then mask DOY else 0) /\ c_ptype c = KNumber
  /\ c_bc c = false /\ c_mer c = HR24 /\ tm_hour (c_tm c) = 0 /\ tm_min (c_tm c) = 0 /\ tm_sec (c_tm c) = 0.
Definition same_day (a b : pgtime) : Prop :=
  tm_year a = tm_year b /\ tm_mon a = tm_mon b /\ tm_mday a = tm_mday b /\ tm_yday a = tm_yday b.
Definition gives (md : mode) (doy : bool) (c : ctx) (e : era) (D : option ymd) : Prop :=
  forall tm fm, same_day tm (c_tm c) -> date_bits doy fm = true ->
  match D with
  | Some (y, m, d) => valid_ymd (y, m, d) /\ validate_date md fm (c_julian c) (c_2d c) (is_bc e) tm = Ok (set_ymd y m d tm)
  | None => exists er, validate_date md fm (c_julian c) (c_2d c) (is_bc e) tm = Err er
  end.

Definition outcome (md : mode) (order : Base.date_order) (ts : list token) (D : option ymd) (c : option Z) : Prop :=
  (exists y m d h mi s us tm, D = Some (y, m, d) /\ valid_ymd (y, m, d) /\ c = Some (clock h mi s us)
     /\ 0 <= h <= 24 /\ 0 <= mi <= 59 /\ 0 <= s <= 60 /\ 0 <= us < 1000000 /\ (h = 24 -> mi = 0 /\ s = 0 /\ us = 0)
     /\ decode_date_time md order ts = Ok (tm, KDate, us)
     /\ tm_year tm = y /\ tm_mon tm = m /\ tm_mday tm = d /\ tm_hour tm = h /\ tm_min tm = mi /\ tm_sec tm = s)
  \/ (D = None \/ c = None) /\ exists er, decode_date_time md order ts = Err er.

Lemma finish_gives md order ts x e doy c0 c D : date_time_fields md order ts ctx_new = Ok c -> gives md doy c0 e D ->
  same_day (c_tm c) (c_tm c0) -> c_julian c = c_julian c0 -> c_2d c = c_2d c0 -> c_bc c = is_bc e -> c_dtype c = KDate -> c_mer c = half_code x ->
  date_bits doy (c_fmask c) = true -> 0 <= tm_hour (c_tm c) <= i32_max ->
  match D with
  | Some (y, m, d) => valid_ymd (y, m, d) /\ decode_date_time md order ts =
      match x, meant_hour x (tm_hour (c_tm c)) with
      | NoHalf, _ => Ok (set_ymd y m d (c_tm c), KDate, c_fsec c)
      | _, Some h => Ok (set_hour h (set_ymd y m d (c_tm c)), KDate, c_fsec c)
      | _, None => Err EOverflow
      end
  | None => exists er, decode_date_time md order ts = Err er
  end.
Proof.
  intros E G Sd H1 H2 H3 H4 H5 H6 Bh. specialize (G _ _ Sd H6). unfold decode_date_time. rewrite E. cbn [bind]. rewrite H1, H2, H3.
  destruct D as [[[y m] d]|].
  - destruct G as [V ->]. split; [exact V|]. cbn [bind]. rewrite H5.
    assert (tm_hour (set_ymd y m d (c_tm c)) = tm_hour (c_tm c)) as Eh by (destruct (c_tm c); reflexivity).
    rewrite apply_half by (rewrite Eh; lia). rewrite Eh, H4.
    assert (Z.land (c_fmask c) DTK_DATE_M =? DTK_DATE_M = true) as ->
      by (unfold date_bits in H6; now apply andb_prop in H6 as [_ H6]).
    destruct x as [|b|b]; [reflexivity| |]; destruct (meant_hour _ _); reflexivity.
  - destruct G as [er ->]. exists er. reflexivity.
Qed.

Lemma outcome_no_time md order ts e doy c0 D : begun doy c0 -> gives md doy c0 e D ->
  (forall r, date_time_fields md order (ts ++ r) ctx_new = date_time_fields md order r c0) ->
  outcome md order (ts ++ mark_tokens e) D (Some 0).
Proof.
  intros (S1 & S2 & S3 & S4 & S5 & S6 & S7 & S8 & S9) G F.
  assert (date_time_fields md order (ts ++ mark_tokens e) ctx_new = Ok (mark_ctx e c0)) as E.
  { rewrite F. apply mark_fields. rewrite S3. destruct doy; reflexivity. }
  assert (c_tm (mark_ctx e c0) = c_tm c0) as Et by (destruct e; reflexivity).
  assert (c_fsec (mark_ctx e c0) = 0) as Ef by (destruct e; exact S2).
  pose proof (finish_gives md order _ NoHalf e doy c0 _ D E G) as K. rewrite Et, Ef, S7 in K.
  assert (same_day (c_tm c0) (c_tm c0)) as Sd by (repeat split).
  specialize (K Sd ltac:(destruct e; reflexivity) ltac:(destruct e; reflexivity)
    ltac:(destruct e; [exact S5|reflexivity|reflexivity]) ltac:(destruct e; exact S1) ltac:(destruct e; exact S6)
    ltac:(destruct e; cbn; rewrite S3; destruct doy; reflexivity) ltac:(rng; lia)).
  destruct D as [[[y m] d]|].
  - destruct K as [V K]. left. exists y, m, d, 0, 0, 0, 0, (set_ymd y m d (c_tm c0)).
    split; [reflexivity|]. split; [exact V|]. split; [reflexivity|]. do 5 (split; [lia|]). split; [exact K|].
    destruct (c_tm c0); cbn in *; subst; repeat split.
  - right. split; [now left|exact K].
Qed.

Lemma outcome_time md order ts e doy c0 D sep t h mi s us x : begun doy c0 -> gives md doy c0 e D ->
  (forall r, date_time_fields md order (ts ++ r) ctx_new = date_time_fields md order r c0) -> time_words t h mi s us ->
  outcome md order (ts ++ gap_tokens sep ++ (Some KTime, t) :: half_tokens x ++ mark_tokens e) D (meant_clock x h mi s us).
Proof.
  intros (S1 & S2 & S3 & S4 & S5 & S6 & S7 & S8 & S9) G F W.
  pose proof (words_bounds _ _ _ _ _ W) as (Bh & Bm & Bs & Bu).
  set (all := ts ++ _).
  set (cg := if sep =? 84 then t_ctx c0 else c0).
  assert (c_fmask cg = c_fmask c0) as G1 by (subst cg; destruct (sep =? 84); [cbn; apply Z.lor_0_r|reflexivity]).
  assert (date_time_fields md order all ctx_new =
    if (mi <=? 59) && (s <=? 60) then if hour_ok h mi s us then Ok (mark_ctx e (half_ctx x (time_ctx h mi s us cg))) else Err EOverflow else Err EInvalid) as E.
  { subst all. rewrite F.
    assert (date_time_fields md order (gap_tokens sep ++ (Some KTime, t) :: half_tokens x ++ mark_tokens e) c0
      = date_time_fields md order ((Some KTime, t) :: half_tokens x ++ mark_tokens e) cg) as ->.
    { unfold gap_tokens, cg. destruct (sep =? 84); [|reflexivity]. cbn [app date_time_fields].
      rewrite field_T by (rewrite S3; destruct doy; reflexivity). reflexivity. }
    cbn [date_time_fields]. rewrite (field_words md order t h mi s us).
    - destruct (_ && _); [|reflexivity]. destruct (hour_ok h mi s us); [|reflexivity]. cbn [bind].
      rewrite half_fields by (cbn; rewrite G1, S3; destruct doy; reflexivity). apply mark_fields.
      destruct x; cbn; rewrite G1, S3; destruct doy; reflexivity.
    - exact W.
    - subst cg. destruct (sep =? 84); [right; reflexivity|left; exact S4].
    - rewrite G1, S3. destruct doy; reflexivity. }
  unfold outcome.
  destruct ((mi <=? 59) && (s <=? 60)) eqn:R.
  2:{ right. apply fields_err in E. split; [right|eauto]. unfold meant_clock. destruct (meant_hour x h); [|reflexivity]. rewrite R. reflexivity. }
  destruct (hour_ok h mi s us) eqn:HO.
  2:{ right. apply fields_err in E. split; [right|eauto]. apply meant_clock_none; [exact HO|lia|].
      destruct x; [now left| |]; right; unfold hour_ok in HO; lia. }
  set (c1 := mark_ctx e (half_ctx x (time_ctx h mi s us cg))) in *.
  assert (c_tm c1 = set_sec s (set_min mi (set_hour h (c_tm c0)))) as Et.
  { subst c1 cg. destruct e, x as [|b|b], (sep =? 84); reflexivity. }
  assert (c_fsec c1 = us) as Ef by (subst c1 cg; destruct e, x as [|b|b], (sep =? 84); reflexivity).
  assert (tm_hour (c_tm c1) = h) as Eh by (rewrite Et; destruct (c_tm c0); reflexivity).
  assert (tm_min (c_tm c1) = mi) as Emi by (rewrite Et; destruct (c_tm c0); reflexivity).
  assert (tm_sec (c_tm c1) = s) as Es by (rewrite Et; destruct (c_tm c0); reflexivity).
  pose proof (finish_gives md order all x e doy c0 _ D E G) as K. rewrite Ef, Eh in K.
  specialize (K ltac:(rewrite Et; unfold same_day; destruct (c_tm c0); cbn; auto)).
  specialize (K ltac:(subst c1 cg; destruct e, x as [|b|b], (sep =? 84); reflexivity)).
  specialize (K ltac:(subst c1 cg; destruct e, x as [|b|b], (sep =? 84); reflexivity)).
  specialize (K ltac:(subst c1 cg; destruct e, x as [|b|b], (sep =? 84); cbn; auto)).
  specialize (K ltac:(subst c1 cg; destruct e, x as [|b|b], (sep =? 84); cbn; auto)).
  specialize (K ltac:(subst c1 cg; destruct e, x as [|b|b], (sep =? 84); cbn; auto)).
  specialize (K ltac:(subst c1 cg; destruct e, x as [|b|b], (sep =? 84); cbn; rewrite S3; destruct doy; reflexivity)).
  specialize (K ltac:(rng; lia)). clear Et E Ef. generalize dependent (c_tm c1). intros tm Eh Emi Es K.
  destruct D as [[[y m] d]|]; [|right; split; [now left|exact K]]. destruct K as [V K].
  destruct (meant_clock x h mi s us) as [k|] eqn:MC.
  - destruct (meant_clock_bounds x h mi s us k ltac:(lia) ltac:(lia) ltac:(lia) Bu MC) as (h' & Mh & Bh' & Bmi & Bsec & H24 & ->).
    left. exists y, m, d, h', mi, s, us, (match x with NoHalf => set_ymd y m d tm | _ => set_hour h' (set_ymd y m d tm) end).
    split; [reflexivity|]. split; [exact V|]. split; [reflexivity|]. do 5 (split; [lia|]).
    destruct x as [|b|b]; try rewrite Mh in K.
    + split; [exact K|]. cbn in Mh. destruct (h <=? 24); [|discriminate]. injection Mh as <-. destruct tm; cbn in *; subst; repeat split.
    + split; [exact K|]. destruct tm; cbn in *; subst; repeat split.
    + split; [exact K|]. destruct tm; cbn in *; subst; repeat split.
  - right. split; [now right|]. unfold meant_clock in MC. rewrite R in MC. cbn [andb] in MC.
    destruct x as [|b|b]; cbn [meant_hour] in *.
    + unfold hour_ok in HO. destruct (h <=? 24); [|discriminate]. cbn [andb] in *. rewrite HO in MC. discriminate.
    + destruct (h <=? 12) eqn:H12; [|eauto]. pose proof (Z.mod_pos_bound h 12 ltac:(lia)).
      replace (h mod 12 <? 24) with true in MC by lia. discriminate.
    + destruct (h <=? 12) eqn:H12; [|eauto]. pose proof (Z.mod_pos_bound h 12 ltac:(lia)).
      replace (h mod 12 + 12 <? 24) with true in MC by lia. discriminate.
Qed.

Lemma count_outcome md order glue td ts doy c0 e D tt c : date_tokens_ok order glue td ts ->
  (forall r, date_time_fields md order (ts ++ r) ctx_new = date_time_fields md order r c0) -> begun doy c0 -> gives md doy c0 e D ->
  DateWords.time_part glue tt c ->
  exists ts', parse_date_time (td ++ tt ++ era_text e) = Ok ts' /\ outcome md order ts' D c.
Proof.
  intros (k & n & room & Hk & Hn & Hr & T) F B G Tp.
  assert (parse_date_time (td ++ tt ++ era_text e)
    = let* r := tokenize (S (length td - k + length (tt ++ era_text e))) n room (tt ++ era_text e) in Ok (ts ++ r)) as P.
  { rewrite parse_date_time_cons by (destruct td; [cbn in Hk; lia|discriminate]). rewrite <- T by eauto using time_rest_ok.
    f_equal. rewrite app_length. lia. }
  destruct Tp as [g|g sep t h mi s us x Hs W].
  - cbn [app] in P |- *. rewrite tokenize_mark' in P by lia. cbn [bind] in P.
    exists (ts ++ mark_tokens e). split; [exact P|]. now apply (outcome_no_time md order ts e doy c0).
  - assert ((sep :: t ++ half_text x) ++ era_text e = sep :: t ++ half_text x ++ era_text e) as Q by (cbn [app]; now rewrite <- app_assoc).
    rewrite Q in *. rewrite (tail_tokens sep t h mi s us) in P by (tauto || exact W || lia). cbn [bind] in P.
    eexists. split; [exact P|]. now apply (outcome_time md order ts e doy c0).
Qed.

(** What an outcome means for a date and for a timestamp; [n] is the number of the day. *)
Lemma outcome_date md order s ts D c : parse_date_time s = Ok ts -> outcome md order ts D c ->
  match D with
  | Some ymd => if match c with Some _ => (0 <=? J ymd) && (J ymd <=? 2147483493) | None => false end
      then date_try_from_str md s order = Ok (J ymd - 2451545) else exists er, date_try_from_str md s order = Err er
  | None => exists er, date_try_from_str md s order = Err er
  end.
Proof.
  intros P O. unfold date_try_from_str. rewrite P. cbn [bind].
  destruct O as [(y & m & d & h & mi & se & us & tm & -> & V & -> & Bh & Bm & Bs & Bu & H24 & -> & E1 & E2 & E3 & E4 & E5 & E6)|[N [er ->]]].
  - cbn [bind]. rewrite E1, E2, E3. rewrite (finish_date [] ltac:(cbn; lia)) by exact V. destruct (_ && _); eauto.
  - cbn [bind]. destruct D as [ymd|]; [|eauto]. destruct c; [destruct N; discriminate|eauto].
Qed.
Lemma outcome_ts md order s ts D c p : parse_date_time s = Ok ts -> outcome md order ts D c ->
  match D, c with
  | Some ymd, Some k =>
      (valid_ts ((J ymd - 2451545) * usecs_day + k) ->
        timestamp_try_from_str md s p order = timestamp_adjust_by_typmod md ((J ymd - 2451545) * usecs_day + k) p)
      /\ (~ valid_ts ((J ymd - 2451545) * usecs_day + k) -> exists er, timestamp_try_from_str md s p order = Err er)
  | _, _ => exists er, timestamp_try_from_str md s p order = Err er
  end.
Proof.
  intros P O. unfold timestamp_try_from_str. rewrite P. cbn [bind].
  destruct O as [(y & m & d & h & mi & se & us & tm & -> & V & -> & Bh & Bm & Bs & Bu & H24 & -> & E1 & E2 & E3 & E4 & E5 & E6)|[N [er ->]]].
  - cbn [bind].
    assert (-usecs_day <= clock h mi se us <= 2 * usecs_day) as BT by (unfold clock, usecs_day; lia).
    pose proof (to_ts_gen md tm us) as G. cbv zeta in G. rewrite E1, E2, E3, E4, E5, E6 in G.
    specialize (G V ltac:(lia) ltac:(lia) ltac:(rng; lia) ltac:(lia) BT). destruct G as [G1 G2]. split.
    + intros Vt. now rewrite G1 by exact Vt.
    + intros Nv. destruct (G2 Nv) as [er ->]. exists er. reflexivity.
  - cbn [bind]. destruct D as [ymd|], c as [k|]; eauto. destruct N; discriminate.
Qed.

(** ** Julian days *)
Lemma julian_facts w : julian_word w -> forallb is_alpha w = true /\ (1 <= length w <= 6)%nat
  /\ (lowers w = [106] \/ lowers w = [106; 100] \/ lowers w = [106; 117; 108; 105; 97; 110]).
Proof.
  intros (k & I & C). destruct (any_case_facts _ _ C) as (A & L & N). split; [exact A|].
  destruct I as [<- |[<- |[<- |[]]]]; cbn in N; rewrite N; (split; [lia|]); auto.
Qed.

Lemma tokenize_blanks fuel n room b s : forallb is_space b = true -> tokenize (S fuel) n room (b ++ s) = tokenize (S fuel) n room s.
Proof. intros B. cbn [tokenize]. now rewrite eat_ws_app by exact B. Qed.

Lemma julian_tokens order w b ds : julian_word w -> Forall white b -> Forall digit ds -> (1 <= length ds <= 10)%nat ->
  date_tokens_ok order true (w ++ b ++ ds) [(Some KString, lowers w); (Some KNumber, ds)].
Proof.
  intros Jw Wb Dd L. destruct (julian_facts w Jw) as (A & Lw & K).
  assert (forallb is_digit ds = true) as Fd by now apply FieldsP.forall_digit.
  assert (forallb is_space b = true) as Fb by now apply FieldsP.forall_white.
  exists 2%nat, 2, (128 - blen w - blen ds). rewrite !app_length. split; [lia|]. split; [lia|]. split; [unfold blen; lia|].
  intros fuel rest R. destruct w as [|c w]; [cbn in Lw; lia|]. destruct ds as [|d ds]; [cbn in L; lia|].
  cbn [app]. rewrite (tokenize_alpha (S fuel) 0 128 c _ (Some KString, lowers (c :: w)) ((b ++ d :: ds) ++ rest)).
  - rewrite <- app_assoc, tokenize_blanks by exact Fb. cbn [snd]. rewrite (tok_number (d :: ds) true); [|exact Fd|discriminate|exact R|lia|].
    + replace (blen (lowers (c :: w))) with (blen (c :: w)) by (unfold blen; now rewrite lower_len).
      change (0 + 1 + 1) with 2. destruct (tokenize fuel 2 _ rest); reflexivity.
    + unfold blen. rewrite lower_len. lia.
  - cbn in A. now apply andb_prop in A as [A _].
  - unfold alpha_begin, eat_alphabetics. rewrite <- app_assoc. change (c :: w ++ (b ++ (d :: ds)) ++ rest) with ((c :: w) ++ (b ++ (d :: ds)) ++ rest).
    rewrite eat_app; [|exact A|].
    + destruct b as [|e b]; cbn [app].
      * cbn in Fd. apply andb_prop in Fd as [Fd _].
        assert ((d =? 45) || (d =? 47) || (d =? 46) = false) as -> by (unfold is_digit in Fd; lia). rewrite Fd, orb_true_r.
        assert (exists t, search_date_token (lowers (c :: w)) = Ok (Some t)) as [t ->].
        { destruct K as [-> |[-> | ->]]; vm_compute; eauto. }
        reflexivity.
      * cbn in Fb. apply andb_prop in Fb as [Fb _].
        assert ((e =? 45) || (e =? 47) || (e =? 46) = false /\ (e =? 43) || is_digit e = false) as [-> ->] by (unfold is_space, is_digit in *; lia).
        reflexivity.
    + destruct b as [|e b]; cbn [app stops].
      * cbn in Fd. apply andb_prop in Fd as [Fd _]. unfold is_digit, is_alpha, is_upper, is_lower in *. lia.
      * cbn in Fb. apply andb_prop in Fb as [Fb _]. unfold is_space, is_alpha, is_upper, is_lower in *. lia.
  - lia.
  - cbn [snd]. unfold blen. rewrite lower_len. lia.
Qed.

Lemma str_big ds : Forall digit ds -> (1 <= length ds <= 10)%nat -> i32_max < digits_value ds -> str2i32 ds = Err EOverflow.
Proof.
  intros F L B. destruct ds as [|c r]; [cbn in L; lia|]. assert (digit c) as Dc by now inversion F.
  unfold str2i32. rewrite eat_ws_cons by now apply digit_not_space.
  unfold extract_sign. destruct (digit_not_sign c Dc) as [-> ->].
  unfold eat_digits. rewrite <- (app_nil_r (c :: r)).
  rewrite eat_app; [|now apply digits_forallb|exact I].
  unfold blen. destruct (Z.ltb_spec 10 (Z.of_nat (length (c :: r)))); [reflexivity|].
  rewrite dval_value, Z.mul_1_r. unfold in32b. replace ((_ <=? _) && _) with false; [reflexivity|]. rng. lia.
Qed.

Definition julian_ctx (n : Z) : ctx :=
  let '(y, m, d) := day_of n in
  mkCtx (set_ymd y m d tm_new) KDate 0 DTK_DATE_M DTK_DATE_M KNumber true false false HR24 false.

Lemma julian_fields md order w ds r : julian_word w -> Forall digit ds -> (1 <= length ds <= 10)%nat ->
  date_time_fields md order ([(Some KString, lowers w); (Some KNumber, ds)] ++ r) ctx_new =
  if digits_value ds <=? i32_max then date_time_fields md order r (julian_ctx (digits_value ds)) else Err EOverflow.
Proof.
  intros Jw Dd L. destruct (julian_facts w Jw) as (_ & _ & K). cbn [app date_time_fields].
  assert (forall next, date_time_field md order (Some KString, lowers w) next ctx_new
    = Ok (mkCtx tm_new KDate 0 0 0 KJulian false false false HR24 false)) as ->.
  { intros next. destruct K as [-> |[-> | ->]]; vm_compute; reflexivity. }
  cbn [bind]. unfold date_time_field at 1. cbn [fst snd read_type bind]. unfold decode_number_token.
  cbn [c_ptype is_num tfeq negb]. change (is_num KJulian) with false. cbn [negb]. unfold prefixed_number.
  assert (str2i32 ds = if digits_value ds <=? i32_max then Ok (digits_value ds, []) else Err EOverflow) as ->.
  { destruct (Z.leb_spec (digits_value ds) i32_max) as [B|B].
    - apply (str_whole ds (digits_value ds) (length ds)); [|lia|exact B].
      split; [|now left]. split; [exact Dd|]. split; [intros ->; cbn in L; lia|reflexivity].
    - now apply str_big. }
  destruct (Z.leb_spec (digits_value ds) i32_max) as [B|B]; [|reflexivity]. cbn [bind].
  pose proof (digits_value_bound _ Dd) as V. cbn [c_ptype c_tm]. destruct (Z.ltb_spec (digits_value ds) 0); [lia|].
  rewrite julian2date_ok by (rng; lia). unfold julian_ctx. destruct (day_of (digits_value ds)) as [[y m] d]. reflexivity.
Qed.

Lemma julian_gives md n e : 0 <= n -> begun false (julian_ctx n) /\ gives md false (julian_ctx n) e (Some (day_of n)).
Proof.
  intros B. unfold julian_ctx, gives. pose proof (day_of_valid n) as V. destruct (day_of n) as [[y m] d]. split; [repeat split|].
  intros tm fm (S1 & S2 & S3 & S4) M. split; [exact V|]. cbn in S1, S2, S3. cbn [c_julian c_2d].
  unfold date_bits in M. repeat (apply andb_prop in M as [M ?]). apply eqb_prop in H2.
  unfold validate_date. rewrite M, H2, H1, H0, H. cbn [andb bind]. rewrite S2, S3.
  destruct V as [Vm Vd]. pose proof (month_len_bounds y m Vm).
  assert ((m <? 1) || (MONTHS_PER_YEAR <? m) = false /\ (d <? 1) || (31 <? d) = false) as [-> ->] by (unfold MONTHS_PER_YEAR; lia).
  rewrite S1, days_of_month_ok by exact Vm. cbn [bind]. destruct (Z.ltb_spec (month_len y m) d); [lia|].
  f_equal. destruct tm. cbn in *. subst. reflexivity.
Qed.

(** ** Days of the year *)
Lemma nd_doy md ds have fm tm fs d2 order : short_digits ds -> length ds = 3%nat -> Z.land fm DTK_DATE_M = mask YEAR ->
  decode_number md ds have fm (mkN 0 tm fs d2) order =
  if (1 <=? digits_value ds) && (digits_value ds <=? 366)
  then Ok (mkN (Z.lor (Z.lor (mask DOY) (mask MONTH)) (mask DAY)) (set_yday (digits_value ds) tm) fs d2)
  else Ok (mkN (mask MONTH) (set_mon (digits_value ds) tm) fs d2).
Proof.
  intros P L H. unfold decode_number. rewrite (str_whole ds (digits_value ds) (length ds) (sd_padded ds P) (sd_w ds P) (sd_i32 ds P)). cbn [bind].
  rewrite (beq_nil ds _ (length ds) (sd_padded ds P)). cbn [n_tm n_fsec n_2d]. rewrite H.
  assert (blen ds = 3) as -> by (unfold blen; lia). change (3 =? 3) with true. rewrite Z.eqb_refl. cbn [andb].
  destruct ((1 <=? digits_value ds) && (digits_value ds <=? 366)); reflexivity.
Qed.

Definition doy_ctx (Y D : bytes) (tk : Z) : ctx :=
  mkCtx (set_yday (digits_value D) (set_year (digits_value Y) tm_new)) KDate 0 (Z.lor DTK_DATE_M (mask DOY)) tk KNumber false
    (length Y <=? 2)%nat false HR24 false.

Lemma three_sd D : Forall digit D -> length D = 3%nat -> short_digits D.
Proof. intros F L. split; [exact F|lia]. Qed.

Lemma year_first order Y : (3 <= length Y)%nat \/ order = YMD -> (3 <=? blen Y) || is_ymd order = true.
Proof. intros [H| ->]; [|apply orb_true_r]. replace (3 <=? blen Y) with true by (unfold blen; lia). reflexivity. Qed.

Lemma doy_decode md order Y D sep : short_digits Y -> (3 <= length Y)%nat \/ order = YMD -> Forall digit D -> length D = 3%nat -> separator sep ->
  decode_date md (Y ++ sep :: D) 0 false tm_new order
  = if (1 <=? digits_value D) && (digits_value D <=? 366)
    then Ok (Z.lor DTK_DATE_M (mask DOY), set_yday (digits_value D) (set_year (digits_value Y) tm_new), (length Y <=? 2)%nat)
    else Err EInvalid.
Proof.
  intros PY Yf FD LD S. pose proof (three_sd D FD LD) as PD. destruct (sep_facts sep S) as (As & Ds & _).
  unfold decode_date. rewrite app_length. cbn [length]. rewrite LD. pose proof (sd_nonempty Y PY) as NY. pose proof (sd_nonempty D PD) as ND.
  replace (Datatypes.S (length Y + 4)) with (Datatypes.S (Datatypes.S (Datatypes.S (length Y + 2)))) by lia.
  change (Y ++ sep :: D) with ([] ++ Y ++ (sep :: D)).
  rewrite date_parts_step; [|easy|now apply sd_digits|exact NY|cbn; auto|lia].
  change (sep :: D) with ([sep] ++ D). rewrite <- (app_nil_r D) at 1.
  rewrite date_parts_step; [|cbn; now rewrite As|now apply sd_digits|exact ND|exact I|lia]. cbn [date_parts bind].
  rewrite text_month_digits by (repeat constructor; now apply sd_digits). cbn [bind List.map].
  erewrite number_parts_cons; [|auto|apply nd_year; [exact PY|reflexivity|now apply year_first]|reflexivity].
  cbn [number_parts]. destruct D as [|d0 D']; [easy|]. set (D := d0 :: D') in *.
  cbn [n_tmask n_tm n_fsec n_2d]. rewrite (nd_doy md D) by (auto; reflexivity).
  destruct ((1 <=? digits_value D) && (digits_value D <=? 366)); cbn [bind n_tmask n_tm n_fsec n_2d].
  - mk. rewrite bl2. reflexivity.
  - mk. reflexivity.
Qed.

Lemma sep_type sep : separator sep -> sep = 45 \/ sep = 46 \/ sep = 47.
Proof. unfold separator. tauto. Qed.

Definition sep_kind (sep : Z) : tfield := if sep =? 46 then KNumber else KDate.
Lemma doy_tokens order Y D sep : short_digits Y -> Forall digit D -> length D = 3%nat -> separator sep ->
  date_tokens_ok order true (Y ++ sep :: D) [(Some (sep_kind sep), Y ++ sep :: D)].
Proof.
  intros PY FD LD S. pose proof (sd_blen _ PY) as BY. destruct (sep_facts sep S) as (As & Ds & Al & _ & N58 & Sd & _).
  assert (blen D = 3) as BD by (unfold blen; lia).
  one_token. cbn [snd]. rewrite !blen_app, !blen_cons, BD. split; [rewrite app_length; cbn [length]; lia|]. split; [lia|]. split; [lia|].
  intros fuel rest R. change (1 + fuel)%nat with (Datatypes.S fuel).
  rewrite (tokenize_digit _ _ _ ((Y ++ sep :: D) ++ rest) (Some (sep_kind sep), Y ++ sep :: D) rest).
  - cbn [snd]. rewrite !blen_app, !blen_cons, BD. reflexivity.
  - pose proof (sd_digits Y PY) as Da. pose proof (sd_nonempty Y PY) as Na. destruct Y as [|c a]; [easy|].
    cbn in Da. now apply andb_prop in Da as [Da _].
  - unfold digit_begin, eat_digits. rewrite <- app_assoc. cbn [app].
    rewrite eat_app; [|now apply sd_digits|exact Ds]. apply Z.eqb_neq in N58. rewrite N58, Sd.
    unfold digit_delim_begin. destruct D as [|d0 D']; [discriminate|]. cbn [app]. assert (forallb is_digit (d0 :: D') = true) as Fb by now apply digits_forallb.
    assert (is_digit d0 = true) as -> by (cbn in Fb; now apply andb_prop in Fb as [Fb _]).
    unfold eat_digits. change (d0 :: D' ++ rest) with ((d0 :: D') ++ rest).
    rewrite eat_app; [|exact Fb|eapply rest_stops; eauto].
    destruct R as [->|[[r ->]|[_ [r ->]]]]; [reflexivity| |].
    + destruct (sep_type sep S) as [->|[->| ->]]; reflexivity.
    + destruct (sep_type sep S) as [->|[->| ->]]; reflexivity.
  - lia.
  - cbn [snd]. rewrite !blen_app, !blen_cons. lia.
Qed.

Lemma doy_field md order Y D sep next : short_digits Y -> (3 <= length Y)%nat \/ order = YMD -> Forall digit D -> length D = 3%nat -> separator sep ->
  date_time_field md order (Some (sep_kind sep), Y ++ sep :: D) next ctx_new
  = if (1 <=? digits_value D) && (digits_value D <=? 366) then Ok (doy_ctx Y D (Z.lor DTK_DATE_M (mask DOY))) else Err EInvalid.
Proof.
  intros PY Yf FD LD S. pose proof (doy_decode md order Y D sep PY Yf FD LD S) as K. pose proof (sd_blen _ PY) as BY.
  assert (ctx_decode_date md (Y ++ sep :: D) order ctx_new = if (1 <=? digits_value D) && (digits_value D <=? 366) then
    Ok (mkCtx (set_yday (digits_value D) (set_year (digits_value Y) tm_new)) KDate 0 0 (Z.lor DTK_DATE_M (mask DOY)) KNumber false (length Y <=? 2)%nat false HR24 false)
    else Err EInvalid) as Q.
  { unfold ctx_decode_date. change (c_fmask ctx_new) with 0. change (c_tm ctx_new) with tm_new. change (c_2d ctx_new) with false.
    rewrite K. destruct (_ && _); reflexivity. }
  unfold date_time_field, sep_kind. cbn [fst snd read_type bind].
  destruct (Z.eqb_spec sep 46) as [->|N].
  - unfold decode_number_token. change (is_num (c_ptype ctx_new)) with true. cbn [negb].
    assert (before 46 (Y ++ 46 :: D) = Y) as ->.
    { unfold before. rewrite eat_app; [reflexivity| |reflexivity]. pose proof (sd_digits Y PY) as Da. revert Da. apply forallb_weaken. unfold is_digit. lia. }
    rewrite blen_app, blen_cons. assert (blen D = 3) as -> by (unfold blen; lia).
    assert (blen Y =? blen Y + (1 + 3) = false) as -> by lia. change (c_fmask ctx_new) with 0. mk. change (0 =? 0) with true.
    assert (blen Y + (1 + 3) <=? 14 = true) as -> by lia. cbn [andb negb]. rewrite Q.
    destruct (_ && _); reflexivity.
  - unfold decode_date_token. change (tfeq (c_ptype ctx_new) KJulian) with false. change (is_num (c_ptype ctx_new)) with true.
    cbn [negb orb]. change (c_fmask ctx_new) with 0. mk. rewrite Q.
    destruct (_ && _); reflexivity.
Qed.

Lemma doy_blank_tokens order Y D : few_digits Y -> Forall digit D -> length D = 3%nat ->
  date_tokens_ok order true (Y ++ 32 :: D) [(Some KNumber, Y); (Some KNumber, D)].
Proof.
  intros PY FD LD. pose proof (fd_blen _ PY). assert (few_digits D) as PD by (split; [exact FD|lia]). pose proof (fd_blen _ PD).
  exists 2%nat, 2, (128 - blen Y - blen D). split; [rewrite app_length; unfold blen in *; cbn [length]; lia|]. split; [lia|]. split; [lia|].
  intros fuel rest R. rewrite <- app_assoc. cbn [app]. change (2 + fuel)%nat with (Datatypes.S (Datatypes.S fuel)).
  rewrite (tok_few Y true) by (auto using rest_blank; lia). rewrite tokenize_space.
  rewrite (tok_few D true) by (auto; lia). change (0 + 1 + 1) with 2. destruct (tokenize fuel _ _ rest); reflexivity.
Qed.

Lemma doy_blank_fields md order Y D r : few_digits Y -> (3 <= length Y)%nat \/ order = YMD -> Forall digit D -> length D = 3%nat ->
  1 <= digits_value D <= 366 ->
  date_time_fields md order ([(Some KNumber, Y); (Some KNumber, D)] ++ r) ctx_new
  = date_time_fields md order r (doy_ctx Y D (Z.lor (Z.lor (mask DOY) (mask MONTH)) (mask DAY))).
Proof.
  intros PY Yf FD LD V. assert (few_digits D) as PD by (split; [exact FD|lia]).
  cbn [app date_time_fields]. change ctx_new with (mkCtx tm_new KDate 0 0 0 KNumber false false false HR24 false).
  rewrite (number_field_ctx md order Y _ _ _ _ _ _ (mask YEAR) (set_year (digits_value Y) tm_new) (blen Y <=? 2) PY);
    [|apply nd_year; [now apply fd_sd|reflexivity|now apply year_first]|reflexivity]. cbn [bind].
  rewrite (number_field_ctx md order D _ _ _ _ _ _ (Z.lor (Z.lor (mask DOY) (mask MONTH)) (mask DAY))
      (set_yday (digits_value D) (set_year (digits_value Y) tm_new)) (blen Y <=? 2) PD); [| |reflexivity].
  - cbn [bind]. rewrite bl2. reflexivity.
  - rewrite nd_doy by (auto using fd_sd; reflexivity).
    destruct (Z.leb_spec 1 (digits_value D)), (Z.leb_spec (digits_value D) 366); try lia. reflexivity.
Qed.

Definition year_step (md : mode) (d2 bc : bool) (tm : pgtime) : res pgtime :=
  if bc then
    if tm_year tm <=? 0 then Err EOverflow
    else let* y1 := sub32 md (tm_year tm) 1 in
         let* y := neg32 md y1 in Ok (set_year y tm)
  else if d2 then
    if tm_year tm <? 0 then Err EOverflow
    else if tm_year tm <? 70 then let* y := add32 md (tm_year tm) 2000 in Ok (set_year y tm)
    else if tm_year tm <? 100 then let* y := add32 md (tm_year tm) 1900 in Ok (set_year y tm)
    else Ok tm
  else if tm_year tm <=? 0 then Err EOverflow else Ok tm.
Definition doy_step (md : mode) (tm : pgtime) : res pgtime :=
  let* tm :=
    let* j := date2julian md (tm_year tm) 1 1 in
    let* j := add32 md j (tm_yday tm) in
    let* j := sub32 md j 1 in
    let* p := julian2date md j in
    let '(y, m, d) := p in Ok (set_ymd y m d tm) in
  if (tm_mon tm <? 1) || (MONTHS_PER_YEAR <? tm_mon tm) then Err EOverflow
  else if (tm_mday tm <? 1) || (31 <? tm_mday tm) then Err EOverflow
  else
    let* dom := days_of_month md (tm_year tm) (tm_mon tm) in
    if dom <? tm_mday tm then Err EOverflow else Ok tm.
Lemma validate_doy md fm d2 bc tm : date_bits true fm = true ->
  validate_date md fm false d2 bc tm = let* tm := year_step md d2 bc tm in doy_step md tm.
Proof.
  intros M. unfold date_bits in M. repeat (apply andb_prop in M as [M ?]). apply eqb_prop in H2.
  unfold validate_date. rewrite M, H2, H1, H0, H. cbn [andb]. reflexivity.
Qed.

Lemma year_step_ok md e Y tm : short_digits Y -> tm_year tm = digits_value Y ->
  year_step md (length Y <=? 2)%nat (is_bc e) tm
  = match meant_year e Y with Some y => Ok (set_year y tm) | None => Err EOverflow end.
Proof.
  intros PY Ey. pose proof (sd_value Y PY) as Bv. unfold year_step. rewrite Ey.
  assert (meant_year e Y = if is_bc e then if digits_value Y =? 0 then None else Some (1 - digits_value Y)
    else if (length Y <=? 2)%nat then Some (if digits_value Y <? 70 then 2000 + digits_value Y else 1900 + digits_value Y)
      else if digits_value Y =? 0 then None else Some (digits_value Y)) as -> by (destruct e; reflexivity).
  destruct (is_bc e).
  - destruct (Z.eqb_spec (digits_value Y) 0) as [Q|Q].
    + now replace (digits_value Y <=? 0) with true by lia.
    + replace (digits_value Y <=? 0) with false by lia. unfold sub32, neg32. rewrite ar32_ok by (rng; lia). cbn [bind].
      rewrite ar32_ok by (rng; lia). cbn [bind]. do 2 f_equal. lia.
  - destruct (Nat.leb_spec (length Y) 2) as [L|L].
    + assert (0 <= digits_value Y < 100) by (pose proof (digits_value_bound _ (proj1 PY)) as Bd; assert (10 ^ Z.of_nat (length Y) <= 10 ^ 2) by (apply Z.pow_le_mono_r; lia); change (10 ^ 2) with 100 in *; lia). replace (digits_value Y <? 0) with false by lia.
      replace (digits_value Y <? 100) with true by lia. unfold add32.
      destruct (digits_value Y <? 70); rewrite ar32_ok by (rng; lia); cbn [bind]; do 2 f_equal; lia.
    + destruct (Z.eqb_spec (digits_value Y) 0) as [Q|Q].
      * now replace (digits_value Y <=? 0) with true by lia.
      * replace (digits_value Y <=? 0) with false by lia. rewrite <- Ey. destruct tm; reflexivity.
Qed.

Lemma J_year_low y : 0 <= J (y, 1, 1) + 365 -> -4799 <= y.
Proof.
  intros H. destruct (Z.le_gt_cases (-4799) y); [assumption|]. pose proof (J_mono_year y (-4800) ltac:(lia)) as M.
  rewrite J_day in H. change (J (-4800, 1, 0)) with (-32105) in M. lia.
Qed.
Lemma J_year_high y : y <= 5874897 -> J (y, 1, 1) <= 2147483129.
Proof. intros H. pose proof (J_mono_year y 5874897 H) as M. rewrite J_day. change (J (5874897, 1, 0)) with 2147483128 in M. lia. Qed.

Lemma doy_step_ok md tm y v : tm_year tm = y -> tm_yday tm = v -> 1 <= v <= 366 -> y <= 5874897 -> 0 <= J (y, 1, 1) + v - 1 ->
  doy_step md tm = let '(y', m', d') := day_of (J (y, 1, 1) + v - 1) in Ok (set_ymd y' m' d' tm).
Proof.
  intros Ey Ev V Hy Hj. pose proof (J_year_low y ltac:(lia)) as Lo. pose proof (J_year_high y Hy) as Hi. pose proof (J_year_low y ltac:(lia)).
  unfold doy_step. rewrite Ey, Ev, date2julian_ok by lia. cbn [bind]. unfold add32, sub32.
  rewrite ar32_ok by (rng; lia). cbn [bind]. rewrite ar32_ok by (rng; lia). cbn [bind].
  rewrite julian2date_ok by (rng; lia). pose proof (day_of_valid (J (y, 1, 1) + v - 1)) as Vd.
  destruct (day_of _) as [[y' m'] d']. cbn [bind]. destruct Vd as [Vm Vd]. pose proof (month_len_bounds y' m' Vm).
  assert (tm_mon (set_ymd y' m' d' tm) = m' /\ tm_mday (set_ymd y' m' d' tm) = d' /\ tm_year (set_ymd y' m' d' tm) = y') as (-> & -> & ->)
    by (destruct tm; repeat split).
  assert ((m' <? 1) || (MONTHS_PER_YEAR <? m') = false /\ (d' <? 1) || (31 <? d') = false) as [-> ->] by (unfold MONTHS_PER_YEAR; lia).
  rewrite days_of_month_ok by exact Vm. cbn [bind]. destruct (Z.ltb_spec (month_len y' m') d'); [lia|]. reflexivity.
Qed.

Definition year_day (e : era) (Y D : bytes) : option Z :=
  match meant_year e Y with Some y => Some (J (y, 1, 1) + digits_value D - 1) | None => None end.

Lemma doy_gives md e Y D tk : short_digits Y -> 1 <= digits_value D <= 366 ->
  match meant_year e Y with Some y => y <= 5874897 /\ 0 <= J (y, 1, 1) + digits_value D - 1 | None => True end ->
  begun true (doy_ctx Y D tk) /\
  gives md true (doy_ctx Y D tk) e (match meant_year e Y with Some y => Some (day_of (J (y, 1, 1) + digits_value D - 1)) | None => None end).
Proof.
  intros PY V K. split; [repeat split|]. intros tm fm (S1 & S2 & S3 & S4) M. cbn in S1, S4.
  cbn [c_julian c_2d doy_ctx]. rewrite validate_doy by exact M. rewrite year_step_ok by assumption.
  destruct (meant_year e Y) as [y|]; [|cbn [bind]; eauto]. destruct K as [K1 K2]. cbn [bind].
  rewrite (doy_step_ok md _ y (digits_value D)) by (try assumption; destruct tm; cbn in *; auto).
  pose proof (day_of_valid (J (y, 1, 1) + digits_value D - 1)) as Vd. destruct (day_of _) as [[y' m'] d']. split; [exact Vd|].
  destruct tm; reflexivity.
Qed.

(** ** Dates and timestamps *)
Definition dated (md : mode) (order : Base.date_order) (s : bytes) (n : Z) (c : option Z) : Prop :=
  (c <> None -> valid_date n -> date_try_from_str md s order = Ok n)
  /\ (c = None \/ ~ valid_date n -> exists er, date_try_from_str md s order = Err er)
  /\ (forall p k, c = Some k -> valid_ts (n * usecs_day + k) ->
        timestamp_try_from_str md s p order = timestamp_adjust_by_typmod md (n * usecs_day + k) p)
  /\ (forall p, c = None \/ (exists k, c = Some k /\ ~ valid_ts (n * usecs_day + k)) -> exists er, timestamp_try_from_str md s p order = Err er).

Lemma outcome_dated md order s ts n c : -2451545 <= n -> parse_date_time s = Ok ts -> outcome md order ts (Some (day_of (n + 2451545))) c -> dated md order s n c.
Proof.
  intros Hn P O. pose proof (outcome_date md order s ts _ c P O) as A. cbv beta iota in A.
  pose proof (fun p => outcome_ts md order s ts _ c p P O) as B. cbv beta iota in B.
  rewrite J_day_of in A by lia. rewrite J_day_of in B by lia. replace (n + 2451545 - 2451545) with n in * by lia. unfold dated, valid_date.
  split; [|split; [|split]].
  - intros C V. destruct c; [|easy]. replace ((0 <=? n + 2451545) && (n + 2451545 <=? 2147483493)) with true in A by lia. exact A.
  - intros [->|V]; [exact A|]. destruct c; [|exact A].
    replace ((0 <=? n + 2451545) && (n + 2451545 <=? 2147483493)) with false in A by lia. exact A.
  - intros p k -> V. now apply (proj1 (B p)).
  - intros p [->|(k & -> & V)]; [exact (B p)|now apply (proj2 (B p))].
Qed.

Lemma julian_dated md order w b ds td tt c e : julian_text w b ds td -> DateWords.time_part true tt c -> digits_value ds <= i32_max ->
  dated md order (td ++ tt ++ era_text e) (digits_value ds - 2451545) c.
Proof.
  intros (Jw & Wb & Dd & L & ->) Tp B. pose proof (digits_value_bound _ Dd) as V.
  destruct (julian_gives md (digits_value ds) e ltac:(lia)) as [Bg G].
  destruct (count_outcome md order true _ _ false (julian_ctx (digits_value ds)) e _ tt c (julian_tokens order w b ds Jw Wb Dd L)
    ltac:(intros r; rewrite julian_fields by assumption; now replace (digits_value ds <=? i32_max) with true by lia) Bg G Tp) as (ts & P & O).
  eapply outcome_dated; [lia|exact P|]. now replace (digits_value ds - 2451545 + 2451545) with (digits_value ds) by lia.
Qed.

(** A date that is refused by its own fields *)
Lemma refused_fields md order glue td ts er tt c e : date_tokens_ok order glue td ts ->
  (forall r, date_time_fields md order (ts ++ r) ctx_new = Err er) -> DateWords.time_part glue tt c ->
  (exists er, date_try_from_str md (td ++ tt ++ era_text e) order = Err er)
  /\ forall p, exists er, timestamp_try_from_str md (td ++ tt ++ era_text e) p order = Err er.
Proof.
  intros (k & n & room & Hk & Hn & Hr & T) F Tp.
  assert (parse_date_time (td ++ tt ++ era_text e)
    = let* r := tokenize (S (length td - k + length (tt ++ era_text e))) n room (tt ++ era_text e) in Ok (ts ++ r)) as P.
  { rewrite parse_date_time_cons by (destruct td; [cbn in Hk; lia|discriminate]). rewrite <- T by eauto using time_rest_ok.
    f_equal. rewrite app_length. lia. }
  assert (exists ts', parse_date_time (td ++ tt ++ era_text e) = Ok (ts ++ ts')) as [ts' Q].
  { destruct Tp as [g|g sep t h mi s us x Hs W].
    - cbn [app] in P |- *. rewrite tokenize_mark' in P by lia. cbn [bind] in P. eauto.
    - assert ((sep :: t ++ half_text x) ++ era_text e = sep :: t ++ half_text x ++ era_text e) as Q by (cbn [app]; now rewrite <- app_assoc).
      rewrite Q in *. rewrite (tail_tokens sep t h mi s us) in P by (tauto || exact W || lia). cbn [bind] in P. eauto. }
  pose proof (fields_err md order (ts ++ ts') er (F ts')) as E.
  split; [|intros p]; unfold date_try_from_str, timestamp_try_from_str; rewrite Q; cbn [bind]; rewrite E; cbn [bind]; eauto.
Qed.

Lemma julian_big md order w b ds td tt c e : julian_text w b ds td -> DateWords.time_part true tt c -> i32_max < digits_value ds ->
  (exists er, date_try_from_str md (td ++ tt ++ era_text e) order = Err er)
  /\ forall p, exists er, timestamp_try_from_str md (td ++ tt ++ era_text e) p order = Err er.
Proof.
  intros (Jw & Wb & Dd & L & ->) Tp B. eapply refused_fields; [now apply julian_tokens| |exact Tp].
  intros r. rewrite julian_fields by assumption. now replace (digits_value ds <=? i32_max) with false by lia.
Qed.

Lemma doy_start md order Y D td : year_day_text order Y D td -> 1 <= digits_value D <= 366 ->
  short_digits Y /\ exists ts tk, date_tokens_ok order true td ts
    /\ forall r, date_time_fields md order (ts ++ r) ctx_new = date_time_fields md order r (doy_ctx Y D tk).
Proof.
  intros (Yf & FD & LD & [[PY (sep & S & ->)]|[PY ->]]) V.
  - split; [exact PY|]. eexists _, _. split; [now apply doy_tokens|]. intros r. cbn [app date_time_fields].
    rewrite doy_field by assumption.
    destruct (Z.leb_spec 1 (digits_value D)), (Z.leb_spec (digits_value D) 366); try lia. reflexivity.
  - split; [now apply fd_sd|]. eexists _, _. split; [now apply doy_blank_tokens|]. intros r. now apply doy_blank_fields.
Qed.

Lemma year_day_dated md order Y D td tt c e y n : year_day_text order Y D td -> 1 <= digits_value D <= 366 -> DateWords.time_part true tt c ->
  meant_year_day e Y D y n -> y <= 5874897 -> -2451545 <= n -> dated md order (td ++ tt ++ era_text e) n c.
Proof.
  intros T V Tp (My & n1 & Dn & ->) Hy Hn. apply day_number_J in Dn; [|split; [lia|cbn; lia]].
  destruct (doy_start md order Y D td T V) as (PY & ts & tk & Tk & F).
  destruct (doy_gives md e Y D tk PY V) as [Bg G]; [rewrite My; lia|]. rewrite My in G.
  destruct (count_outcome md order true td ts true _ e _ tt c Tk F Bg G Tp) as (ts' & P & O).
  eapply outcome_dated; [lia|exact P|]. replace (n1 + digits_value D - 1 + 2451545) with (J (y, 1, 1) + digits_value D - 1) by lia. exact O.
Qed.

Lemma year_day_none md order Y D td tt c e : year_day_text order Y D td -> 1 <= digits_value D <= 366 -> DateWords.time_part true tt c ->
  meant_year e Y = None ->
  (exists er, date_try_from_str md (td ++ tt ++ era_text e) order = Err er)
  /\ forall p, exists er, timestamp_try_from_str md (td ++ tt ++ era_text e) p order = Err er.
Proof.
  intros T V Tp My.
  destruct (doy_start md order Y D td T V) as (PY & ts & tk & Tk & F).
  destruct (doy_gives md e Y D tk PY V) as [Bg G]; [rewrite My; exact I|]. rewrite My in G.
  destruct (count_outcome md order true td ts true _ e _ tt c Tk F Bg G Tp) as (ts' & P & O).
  split; [exact (outcome_date md order _ ts' None c P O)|]. intros p. exact (outcome_ts md order _ ts' None c p P O).
Qed.

Lemma year_day_refused md order Y D sep tt c e : ((3 <= length Y)%nat \/ order = YMD) -> short_digits Y -> Forall digit D -> length D = 3%nat ->
  separator sep -> ~ 1 <= digits_value D <= 366 -> DateWords.time_part true tt c ->
  (exists er, date_try_from_str md ((Y ++ sep :: D) ++ tt ++ era_text e) order = Err er)
  /\ forall p, exists er, timestamp_try_from_str md ((Y ++ sep :: D) ++ tt ++ era_text e) p order = Err er.
Proof.
  intros Yf PY FD LD S V Tp. eapply refused_fields; [now apply doy_tokens| |exact Tp].
  intros r. cbn [app date_time_fields]. rewrite doy_field by assumption.
  destruct (Z.leb_spec 1 (digits_value D)), (Z.leb_spec (digits_value D) 366); try lia; reflexivity.
Qed.

Lemma time_part_low g tt k : DateWords.time_part g tt (Some k) -> 0 <= k <= usecs_day + 1000000.
Proof.
  intros Tp. remember (Some k) as c eqn:E. destruct Tp as [g|g sep t h mi s us x Hs W]; [injection E as <-; unfold usecs_day; lia|].
  pose proof (words_bounds _ _ _ _ _ W) as (Bh & Bm & Bs & Bu).
  destruct (meant_clock_bounds x h mi s us k ltac:(lia) ltac:(lia) ltac:(lia) Bu E) as (h' & Mh & Bh' & Bmi & Bsec & H24 & ->).
  unfold clock, usecs_day. lia.
Qed.

Lemma year_day_bounds e Y D y n g tt k : meant_year_day e Y D y n -> 1 <= digits_value D <= 366 -> DateWords.time_part g tt (Some k) ->
  valid_ts (n * usecs_day + k) -> y <= 5874897.
Proof.
  intros (My & n1 & Dn & ->) V Tp Vt. apply day_number_J in Dn; [|split; [lia|cbn; lia]]. pose proof (time_part_low _ _ _ Tp) as B.
  unfold valid_ts, usecs_day in *.
  destruct (Z.le_gt_cases y 5874897) as [|L]; [assumption|]. exfalso. pose proof (J_mono_year 5874897 y ltac:(lia)) as M.
  rewrite J_day in Dn. change (J (5874897, 1, 0)) with 2147483128 in M. lia.
Qed.
