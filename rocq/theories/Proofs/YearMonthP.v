(** Intervals with years and months written "y-m". *)
From Verif Require Import Model.Parse Spec.Calendar Spec.Ranges Spec.Clock Spec.Text Spec.DateText Spec.TimeText Spec.IntervalS Spec.Keywords
  Spec.DateWords Spec.IntervalWords Spec.SqlInterval
  Proofs.Arith Proofs.TsP Proofs.IntervalP Proofs.DigitsP Proofs.ParseP Proofs.RoundTripP
  Proofs.NumDateP Proofs.ClockTextP Proofs.DateWordsP Proofs.IvParseP Proofs.IvReadP Proofs.IvPostgresP Proofs.IvWordsP.
From Coq Require Import List ZArith Bool Lia Permutation.
From Verif Require Import Spec.Keywords Props.Keywords Proofs.IvWordsP.
Import List.
Import ListNotations.
Open Scope Z_scope.

(** ** The field *)
Definition ym_tok (y : yearmonth) : token :=
  (Some (match m_sign y with Unsigned => KDate | _ => KTz end), ym_text y).

Lemma ym_piece y : ym_shape y -> piece (ym_text y) (ym_tok y).
Proof.
  intros [Py Pm]. pose proof (sd_digits _ Py) as Dy. pose proof (sd_nonempty _ Py) as Ny.
  pose proof (sd_digits _ Pm) as Dm. pose proof (sd_nonempty _ Pm) as Nm.
  assert (forall c, c = 43 \/ c = 45 -> piece (c :: m_year y ++ 45 :: m_month y) (Some KTz, c :: m_year y ++ 45 :: m_month y)) as Sg.
  { intros c Hc. apply piece_signed; [exact Hc| |].
    - destruct (m_year y) as [|d r]; [easy|]. cbn in Dy |- *. now apply andb_prop in Dy.
    - rewrite forallb_app. cbn [forallb]. now rewrite !digits_signed. }
  unfold ym_tok, ym_text. destruct (m_sign y); cbn [sign_text app]; [now apply piece_pair|apply Sg; auto|apply Sg; auto].
Qed.

Lemma ym_piece_of y : ym_shape y -> piece_of (ym_text y) (ym_tok y).
Proof. intros H. pose proof (ym_piece y H) as P. split; [exact P|]. split; [reflexivity|]. apply P. Qed.

Lemma ym_tok_field md range y i x : ym_shape y -> interval_field md range (ym_tok y) i x = num_step md range (ym_text y) i x.
Proof.
  intros [Py Pm]. unfold ym_tok, ym_text. pose proof (sd_digits _ Py) as Dy. pose proof (sd_digits _ Pm) as Dm.
  destruct (m_sign y); cbn [sign_text app]; [reflexivity| |];
    (apply tz_field; [eauto|cbn [existsb]; rewrite existsb_app; cbn [existsb]; now rewrite (digits_no_colon (m_year y) Dy), (digits_no_colon (m_month y) Dm)]).
Qed.

Lemma sign_str s ds rest : short_digits ds -> stops is_digit rest -> str2i32 (sign_text s ++ ds ++ rest) = Ok (signed s (digits_value ds), rest).
Proof.
  intros P Hs. pose proof (sd_value _ P) as B. destruct s; cbn [sign_text app signed].
  - now apply sd_str.
  - apply str2i32_pos; [now apply sd_padded|now apply sd_w|now apply sd_i32|exact Hs].
  - apply str2i32_neg; [now apply sd_padded|now apply sd_w| |exact Hs]. unfold i32_max. lia.
Qed.

Lemma sign_minus s ds rest : short_digits ds -> starts_minus (sign_text s ++ ds ++ rest) = Ok (match s with Minus => true | _ => false end).
Proof.
  intros P. destruct s; cbn [sign_text app]; try reflexivity. pose proof (sd_digits _ P) as D. pose proof (sd_nonempty _ P) as N.
  destruct ds as [|c t]; [easy|]. cbn [app starts_minus]. assert (is_digit c = true) as Dc by (cbn in D; now apply andb_prop in D).
  apply is_digit_iff, digit_not_sign in Dc as [_ ->]. reflexivity.
Qed.

Lemma ym_number md y u : ym_shape y ->
  interval_number md (ym_text y) u =
  if 12 <=? digits_value (m_month y) then Err EOverflow
  else if (i32_min <=? ym_months y) && (ym_months y <=? i32_max) then Ok (kcode KMonth, ym_months y, f0) else Err EOverflow.
Proof.
  intros [Py Pm]. pose proof (sd_value _ Py) as By. pose proof (sd_value _ Pm) as Bm.
  unfold interval_number, ym_text. rewrite (sign_str (m_sign y) (m_year y) (45 :: m_month y) Py) by reflexivity. cbn [bind].
  change (45 =? 45) with true. cbv iota.
  pose proof (sign_str Unsigned (m_month y) [] Pm I) as E. cbn [sign_text app signed] in E. rewrite app_nil_r in E. rewrite E. clear E. cbn [bind].
  unfold MONTHS_PER_YEAR. destruct (Z.ltb_spec (digits_value (m_month y)) 0); [lia|]. cbn [orb].
  destruct (Z.leb_spec 12 (digits_value (m_month y))); [reflexivity|].
  rewrite (sign_minus _ _ _ Py). cbn [bind].
  assert ((if match m_sign y with Minus => true | _ => false end then neg32 md (digits_value (m_month y)) else Ok (digits_value (m_month y)))
    = Ok (signed (m_sign y) (digits_value (m_month y)))) as ->.
  { destruct (m_sign y); cbn [signed]; try reflexivity. unfold neg32. rewrite ar32_ok by (rng; lia). reflexivity. }
  cbn [bind]. unfold ym_months, ym_total.
  replace (signed (m_sign y) (digits_value (m_year y)) * 12 + signed (m_sign y) (digits_value (m_month y)))
    with (signed (m_sign y) (12 * digits_value (m_year y) + digits_value (m_month y))) by (destruct (m_sign y); cbn [signed]; lia).
  set (tot := signed (m_sign y) (12 * digits_value (m_year y) + digits_value (m_month y))).
  assert (signed (m_sign y) (digits_value (m_year y)) * 12 + signed (m_sign y) (digits_value (m_month y)) = tot) as Et by (unfold tot; destruct (m_sign y); cbn [signed]; lia).
  destruct (Z.ltb_spec i32_max tot) as [H1|H1].
  { destruct (Z.leb_spec tot i32_max); [lia|]. rewrite andb_false_r. reflexivity. }
  destruct (Z.ltb_spec tot i32_min) as [H2|H2]; cbn [orb].
  { destruct (Z.leb_spec i32_min tot); [lia|]. reflexivity. }
  destruct (Z.leb_spec i32_min tot); [|lia]. destruct (Z.leb_spec tot i32_max); [|lia]. cbn [andb].
  assert (in_i32 (signed (m_sign y) (digits_value (m_year y)) * 12)) as R1.
  { unfold in_i32 in *. unfold tot, i32_min, i32_max in *. destruct (m_sign y); cbn [signed] in *; lia. }
  unfold mul32. rewrite ar32_ok by exact R1. cbn [bind]. unfold add32. rewrite Et, ar32_ok by (unfold in_i32; lia). reflexivity.
Qed.

Lemma ym_step md range y i x n : ym_ok y -> fits n x -> 0 <= n <= 12 ->
  num_step md range (ym_text y) i x =
  if has (i_fmask i) (bit UMonth) then (shift 0 (ym_months y) 0 0 0 0 0 x, Err EInvalid)
  else (shift 0 (ym_months y) 0 0 0 0 0 x, Ok (mkI (kcode KMonth) (Z.lor (i_fmask i) (bit UMonth)) (i_before i) (i_dtype i))).
Proof.
  intros (P & M & T) F Hn. pose proof (fits_bounds n x F ltac:(lia)) as (_ & Fmo & _).
  pose proof (sd_value _ (proj1 P)) as By. pose proof (sd_value _ (proj2 P)) as Bm.
  assert (Z.abs (ym_months y) <= 100000000) as Ba by (unfold ym_months; rewrite signed_abs; unfold ym_total in *; lia).
  unfold num_step, interval_number_field. rewrite (ym_number md y _ P).
  destruct (Z.leb_spec 12 (digits_value (m_month y))); [lia|].
  destruct (Z.leb_spec i32_min (ym_months y)); [|unfold i32_min in *; lia]. destruct (Z.leb_spec (ym_months y) i32_max); [|unfold i32_max in *; lia].
  cbn [andb]. change (tfield_of (kcode KMonth)) with (Ok (A := tfield) KMonth). cbv iota.
  rewrite add32_small by lia. cbn [step_set step_bind]. rewrite s_mon_shift.
  unfold adjust_fract_days. rewrite fnz_f0. cbn [negb step_bind fst snd].
  unfold merge_i. cbn [i_set_ty i_fmask i_ty i_before i_dtype]. change (mask MONTH) with (bit UMonth). now destruct (has (i_fmask i) (bit UMonth)).
Qed.

(** ** The whole text *)
Definition sql_style (st : interval_style) : bool := match st with ISQLStandard => true | _ => false end.
Definition neg_in (md : Base.mode) (z : tmf) (ago : bool) : tm_step unit := if ago then negate_all md z else (z, Ok tt).

Lemma interval_finish md st r p prec txt ps ts x i y z :
  0 <= prec <= 65535 -> p = range_code r * 65536 + prec \/ p < 0 /\ r = RFull ->
  parse_date_time txt = Ok ts -> Forall2 piece_of ps ts -> ps <> [] ->
  interval_fields md (range_code r) (rev ts) init_i (tm_new, 0) = (x, Ok i) ->
  i_fmask i <> 0 -> i_dtype i = KDelta -> carry_fsec md x = (y, Ok tt) ->
  neg_in md (if sql_style st && only_minus ps then force_negative y else y) (i_before i) = (z, Ok tt) -> fits 13 z ->
  interval_try_from_str md txt p st =
  if (i32_min <=? months_in z) && (months_in z <=? i32_max)
  then interval_adjust_by_typmod md (from_mdt (months_in z) (days_in z) (micros_in z)) p else Err EOverflow.
Proof.
  intros Hprec Hp P FP N E Fm Dt Ec En Fz. unfold interval_try_from_str. rewrite (typmod_range r p prec Hprec Hp), P. cbn [bind].
  unfold decode_interval. fold init_i. cbn [fst]. rewrite E. cbn [step_bind].
  destruct (Z.eqb_spec (i_fmask i) 0) as [|_]; [easy|]. rewrite Ec. cbn [step_bind].
  destruct ts as [|t rest]; [now inversion FP; subst|].
  destruct (lone_tokens _ _ t rest FP eq_refl) as (b & -> & Lo).
  assert (b && negb (existsb starts_sign rest) = only_minus ps) as Lo2 by exact Lo.
  unfold neg_in in En. destruct st; cbn [sql_style andb] in En |- *; cbv iota; rewrite ?Lo2; rewrite En; cbn [step_bind]; rewrite Dt; cbn [bind];
    rewrite from_pgtime_gen by exact Fz; destruct ((i32_min <=? months_in z) && (months_in z <=? i32_max)); reflexivity.
Qed.

Section Dated.
Variables (md : Base.mode) (st : interval_style) (r : irange) (p prec : Z) (y : yearmonth) (w : wordy).
Hypothesis Hprec : 0 <= prec <= 65535.
Hypothesis Hp : p = range_code r * 65536 + prec \/ p < 0 /\ r = RFull.
Hypothesis R : dated_rest r y w.
Hypothesis Sh : ym_shape y.

Definition dated_toks : list token := ym_tok y :: wordy_toks w.

Lemma rest_pieces_of : Forall2 piece_of (wordy_pieces w) (wordy_toks w).
Proof.
  destruct R as (F & C & _). unfold wordy_pieces, wordy_toks. apply Forall2_app; [|apply Forall2_app].
  - induction F as [|q qs Hq _ IH]; [constructor|]. cbn [map concat]. apply Forall2_app; [now apply quantity_pieces_of|exact IH].
  - unfold clock_toks. destruct (w_clock w) as [k|]; [|constructor]. specialize (C k eq_refl). constructor; [|constructor].
    split; [now apply (clock_piece r)|]. split; [reflexivity|]. destruct (clock_piece r k C) as [N _]. exact N.
  - unfold ago_toks. destruct (w_ago w); [|constructor]. constructor; [|constructor]. split; [now apply piece_word|]. split; [reflexivity|discriminate].
Qed.

Lemma dated_pieces_of : Forall2 piece_of (dated_pieces y w) dated_toks.
Proof. constructor; [now apply ym_piece_of|apply rest_pieces_of]. Qed.

Lemma dated_parse : (length (dated_pieces y w) <= 25)%nat -> parse_date_time (dated_text y w) = Ok dated_toks.
Proof.
  intros L. apply (parse_pieces _ (dated_pieces y w)).
  - now apply joined_spaced.
  - pose proof dated_pieces_of as F. clear - F. induction F as [|a b la lb [H _] _ IH]; constructor; auto.
  - exact L.
  - apply R.
Qed.

Lemma dated_rev : rev dated_toks = rev (clock_toks w ++ ago_toks w) ++ rev (concat (map toks (w_qs w))) ++ [ym_tok y].
Proof. unfold dated_toks, wordy_toks. cbn [rev]. rewrite rev_app_distr, <- app_assoc. reflexivity. Qed.

Lemma fields_app md' range ts us i x : interval_fields md' range (ts ++ us) i x =
  step_bind (interval_fields md' range ts i x) (fun x i => interval_fields md' range us i x).
Proof.
  revert i x. induction ts as [|t ts IH]; intros i x; [reflexivity|]. cbn [app interval_fields].
  destruct (interval_field md' range t i x) as [x' [i'|e|f]]; cbn [step_bind]; [apply IH|reflexivity|reflexivity].
Qed.

(** Everything but the years and months *)
Lemma rest_step : 
  (NoDup (wordy_takes w) -> exists x i n L, interval_fields md (range_code r) (rev dated_toks) init_i (tm_new, 0) = interval_field md (range_code r) (ym_tok y) i x
     /\ state_ok n L i x /\ Permutation (wordy_takes w) L /\ i_before i = w_ago w /\ i_dtype i = KDelta
     /\ months_in x = total q_months (w_qs w) /\ days_in x = total q_days (w_qs w)
     /\ micros_in x = total q_micros (w_qs w) + match w_clock w with None => 0 | Some k => clock_micros k end)
  /\ (~ NoDup (wordy_takes w) -> exists x, interval_fields md (range_code r) (rev dated_toks) init_i (tm_new, 0) = (x, Err EInvalid)).
Proof.
  destruct R as (Fq & C & _ & Ui). rewrite dated_rev.
  destruct (start_step md r w (rev (concat (map toks (w_qs w))) ++ [ym_tok y]) C) as (i & x & n & -> & St & Bf & Dt & M0 & D0 & T0 & Ty).
  destruct (quantities_step md (range_code r) (w_qs w) n (start_units w) i x (last_unit r w) Fq St Ui Ty) as [A B].
  rewrite fields_app. split; intros N.
  - destruct A as (x' & i' & n' & E & St' & Bf' & Dt' & M1 & D1 & T1).
    { eapply Permutation_NoDup; [apply takes_rev|exact N]. }
    rewrite E. cbn [step_bind]. exists x', i', n', (start_units w ++ concat (map takes (rev (w_qs w)))).
    split; [|split; [exact St'|split; [apply takes_rev|]]].
    + cbn [interval_fields]. destruct (interval_field md (range_code r) (ym_tok y) i' x') as [x2 [i2|e|f]]; reflexivity.
    + repeat split; lia || congruence.
  - destruct B as (x' & ->); [|cbn [step_bind]; eauto].
    intros N'. apply N. eapply Permutation_NoDup; [apply Permutation_sym, takes_rev|exact N'].
Qed.

Lemma dated_few : NoDup (dated_takes w) -> (length (dated_pieces y w) <= 25)%nat.
Proof.
  intros N. destruct R as (F & _).
  assert (Forall span_unit (concat (map takes (w_qs w))) /\ (length (w_qs w) <= length (concat (map takes (w_qs w))))%nat
    /\ (length (concat (map quantity_pieces (w_qs w))) <= 2 * length (w_qs w))%nat) as (S & L & P).
  { clear N R. induction F as [|q qs Hq _ (IH1 & IH2 & IH3)]; [repeat constructor|]. cbn [map concat]. rewrite !app_length.
    destruct (takes_span q Hq) as (T1 & _ & T2). split; [now apply Forall_app|]. cbn [length]. split.
    - destruct (takes q); [easy|]. cbn [length]. lia.
    - unfold quantity_pieces at 1. destruct (q_word q); cbn [length]; lia. }
  unfold dated_takes, wordy_takes in N. assert (Forall span_unit (UMonth :: concat (map takes (w_qs w)) ++ match w_clock w with None => [] | Some _ => clock_takes end)) as S'.
  { constructor; [exact I|]. apply Forall_app. split; [exact S|]. destruct (w_clock w); repeat constructor. }
  pose proof (span_few _ N S') as K. cbn [length] in K. unfold dated_pieces, wordy_pieces. cbn [length]. rewrite !app_length in *.
  destruct (w_clock w), (w_ago w); cbn [length clock_takes] in *; lia.
Qed.

Lemma dated_accepted : ym_ok y -> (st = ISQLStandard -> only_minus (dated_pieces y w) = false) -> NoDup (dated_takes w) ->
  interval_try_from_str md (dated_text y w) p st =
  if (i32_min <=? dated_months y w) && (dated_months y w <=? i32_max)
  then interval_adjust_by_typmod md (from_mdt (dated_months y w) (wordy_days w) (wordy_time w)) p else Err EOverflow.
Proof.
  intros Y Sq N. assert (NoDup (wordy_takes w)) as N' by now inversion N.
  destruct rest_step as [A _]. destruct (A N') as (x & i & n & L & E & (Fm & NL & SL & Bn & Fx) & Pe & Bf & Dt & M1 & D1 & T1). clear A.
  assert (~ In UMonth L) as NM by (intros Hin; inversion N as [|? ? K _]; apply K; eapply Permutation_in; [apply Permutation_sym, Pe|exact Hin]).
  assert (length L <= 11)%nat as Few.
  { pose proof (span_few (UMonth :: L) ltac:(now constructor) ltac:(now constructor)) as K. cbn [length] in K. lia. }
  rewrite (ym_tok_field md _ y i x Sh), (ym_step md _ y i x n Y Fx ltac:(lia)) in E.
  assert (has (i_fmask i) (bit UMonth) = false) as Hn.
  { rewrite Fm. destruct (has (bits L) (bit UMonth)) eqn:K; [|reflexivity]. apply has_bits in K; [easy|exact SL|exact I]. }
  rewrite Hn in E.
  set (x1 := shift 0 (ym_months y) 0 0 0 0 0 x) in *.
  assert (Z.abs (ym_months y) <= 100000000) as Ba.
  { destruct Y as (P & M & T). pose proof (sd_value _ (proj1 P)). pose proof (sd_value _ (proj2 P)). unfold ym_months; rewrite signed_abs; unfold ym_total in *; lia. }
  assert (fits (n + 1) x1 /\ months_in x1 = months_in x + ym_months y /\ days_in x1 = days_in x /\ micros_in x1 = micros_in x) as (F1 & M2 & D2 & T2).
  { unfold x1. destruct x as [[s mi h d mo yr wd yd ds] us]. unfold fits, small, months_in, days_in, micros_in, shift in *. cbn in *.
    repeat split; try lia. unfold clock. lia. }
  destruct (carry_gen md x1 (n + 1) F1 ltac:(lia)) as (x2 & Ec & F2 & M3 & D3 & T3).
  assert (exists z, neg_in md x2 (w_ago w) = (z, Ok tt) /\ fits 13 z
    /\ months_in z = dated_months y w /\ days_in z = wordy_days w /\ micros_in z = wordy_time w) as (z & Ez & Fz & M4 & D4 & T4).
  { unfold neg_in, dated_months, wordy_days, wordy_time. destruct (w_ago w); cbn [sign_of].
    - destruct (negate_gen md x2 F2) as (z & Ez & Fz & M4 & D4 & T4). exists z. repeat (split; [assumption|]). repeat split; lia.
    - exists x2. repeat (split; [reflexivity||assumption|]). repeat split; lia. }
  assert (sql_style st && only_minus (dated_pieces y w) = false) as Sq'.
  { destruct st; try reflexivity. now rewrite Sq. }
  rewrite (interval_finish md st r p prec (dated_text y w) (dated_pieces y w) dated_toks x1 _ x2 z Hprec Hp (dated_parse (dated_few N)) dated_pieces_of
    ltac:(discriminate) E); cbn [i_fmask i_dtype i_before]; rewrite ?Sq', ?Bf, ?M4, ?D4, ?T4; auto.
  intros K. apply Z.lor_eq_0_iff in K as [_ K]. discriminate K.
Qed.

Lemma not_iso : exists c t, dated_text y w = c :: t /\ c <> 80.
Proof.
  unfold dated_text, dated_pieces. assert (exists c t, ym_text y = c :: t /\ c <> 80) as (c & t & E & Hc).
  { unfold ym_text. destruct (m_sign y); cbn [sign_text app]; try (do 2 eexists; split; [reflexivity|discriminate]).
    pose proof (sd_nonempty _ (proj1 Sh)) as Ne. pose proof (sd_digits _ (proj1 Sh)) as D.
    destruct (m_year y) as [|c t]; [easy|]. cbn [app]. do 2 eexists. split; [reflexivity|]. intros ->. discriminate D. }
  rewrite E. cbn [joined_text]. destruct (wordy_pieces w); cbn [app]; eauto.
Qed.

Lemma refused_as (x : tmf) e : (length (dated_pieces y w) <= 25)%nat ->
  interval_fields md (range_code r) (rev dated_toks) init_i (tm_new, 0) = (x, Err e) -> e = EInvalid \/ e = EOverflow ->
  interval_try_from_str md (dated_text y w) p st = Err e.
Proof.
  intros L E He. unfold interval_try_from_str. rewrite (typmod_range r p prec Hprec Hp), (dated_parse L). cbn [bind].
  unfold decode_interval. fold init_i. cbn [fst]. rewrite E. cbn [step_bind].
  destruct not_iso as (c & t & -> & Hc). destruct He as [-> | ->]; [|reflexivity].
  unfold decode_iso8601_interval. apply Z.eqb_neq in Hc. destruct t as [|d t]; [reflexivity|]. now rewrite Hc.
Qed.

Lemma dated_twice : ym_ok y -> (length (dated_pieces y w) <= 25)%nat -> ~ NoDup (dated_takes w) ->
  interval_try_from_str md (dated_text y w) p st = Err EInvalid.
Proof.
  intros Y L N. destruct rest_step as [A B].
  destruct (ListDec.NoDup_dec (fun a b : iunit => ltac:(decide equality)) (wordy_takes w)) as [N'|N'].
  - destruct (A N') as (x & i & n & U & E & (Fm & NL & SL & Bn & Fx) & Pe & _).
    assert (In UMonth U) as HM.
    { destruct (in_dec (fun a b : iunit => ltac:(decide equality)) UMonth (wordy_takes w)) as [K|K].
      - eapply Permutation_in; [exact Pe|exact K].
      - destruct N. now constructor. }
    rewrite (ym_tok_field md _ y i x Sh), (ym_step md _ y i x n Y Fx ltac:(pose proof (span_few U NL SL); lia)) in E.
    assert (has (i_fmask i) (bit UMonth) = true) as Hn by (rewrite Fm; apply has_bits; [exact SL|exact I|exact HM]).
    rewrite Hn in E. eapply refused_as; eauto.
  - destruct (B N') as (x & E). eapply refused_as; eauto.
Qed.

Lemma dated_month : 12 <= digits_value (m_month y) -> NoDup (dated_takes w) -> interval_try_from_str md (dated_text y w) p st = Err EOverflow.
Proof.
  intros M N. assert (NoDup (wordy_takes w)) as N' by now inversion N.
  destruct rest_step as [A _]. destruct (A N') as (x & i & n & U & E & _).
  assert (interval_field md (range_code r) (ym_tok y) i x = (x, Err EOverflow)) as K.
  { rewrite (ym_tok_field md _ y i x Sh). unfold num_step, interval_number_field. rewrite (ym_number md y _ Sh).
    destruct (Z.leb_spec 12 (digits_value (m_month y))); [reflexivity|lia]. }
  rewrite K in E. apply (refused_as x EOverflow); auto. now apply dated_few.
Qed.
End Dated.

(** ** One leading minus in the SQL standard's style *)
Section Sql.
Variables (md : Base.mode) (r : irange) (p prec : Z) (s : sqlspan).
Hypothesis Hprec : 0 <= prec <= 65535.
Hypothesis Hp : p = range_code r * 65536 + prec \/ p < 0 /\ r = RFull.
Hypothesis S : sql_ok r s.

Definition day_sign : sign := match s_ym s with None => Minus | Some _ => Unsigned end.
Definition time_sign : sign := match s_ym s, s_day s with None, None => Minus | _, _ => Unsigned end.
Definition minus_ym (q : list Z * list Z) : yearmonth := mkYM Minus (fst q) (snd q).
Definition day_q (d : list Z) : quantity := mkQ day_sign d None None UDay.
Definition time_k (k : clockpart) : clockpart := mkC time_sign (k_text k) (k_h k) (k_mi k) (k_s k) (k_us k).
Definition minus_pieces : list bytes :=
  match s_ym s with None => [] | Some q => [ym_text (minus_ym q)] end
  ++ match s_day s with None => [] | Some d => [number_text (day_q d)] end
  ++ match s_clock s with None => [] | Some k => [sign_text (k_sign (time_k k)) ++ k_text (time_k k)] end.
Definition minus_toks : list token :=
  match s_ym s with None => [] | Some q => [ym_tok (minus_ym q)] end
  ++ match s_day s with None => [] | Some d => [num_tok (day_q d)] end
  ++ match s_clock s with None => [] | Some k => [clock_tok (time_k k)] end.

Lemma day_q_ok d : s_day s = Some d -> quantity_ok (day_q d).
Proof. intros E. destruct S as (_ & D & _). destruct (D d E) as (D1 & D2 & _). repeat split; cbn; try apply D1; lia. Qed.
Lemma time_k_ok k : s_clock s = Some k -> clock_ok r (time_k k).
Proof. intros E. destruct S as (_ & _ & C & _). destruct (C k E) as (C1 & _). exact C1. Qed.
Lemma minus_ym_ok q : s_ym s = Some q -> ym_ok (minus_ym q).
Proof. intros E. destruct S as (Y & _). exact (Y q E). Qed.

Lemma minus_joined : joined_text minus_pieces = 45 :: joined_text (sql_pieces s).
Proof.
  destruct S as (_ & _ & C & N & _). revert N. unfold minus_pieces, sql_pieces, number_text, day_q, time_k, day_sign, time_sign.
  destruct (s_ym s) as [[a b]|], (s_day s) as [d|], (s_clock s) as [k|]; cbn; intros N; rewrite ?app_nil_r; try reflexivity. now destruct N.
Qed.

Lemma minus_pieces_of : Forall2 piece_of minus_pieces minus_toks.
Proof.
  unfold minus_pieces, minus_toks. apply Forall2_app; [|apply Forall2_app].
  - destruct (s_ym s) as [q|] eqn:E; [|constructor]. constructor; [|constructor]. apply ym_piece_of, minus_ym_ok, E.
  - destruct (s_day s) as [d|] eqn:E; [|constructor]. constructor; [|constructor]. pose proof (number_piece _ (day_q_ok d E)) as P.
    split; [exact P|]. split; [reflexivity|]. apply P.
  - destruct (s_clock s) as [k|] eqn:E; [|constructor]. constructor; [|constructor]. pose proof (clock_piece r _ (time_k_ok k E)) as P.
    split; [exact P|]. split; [reflexivity|]. apply P.
Qed.

Lemma day_step d ty i x n : s_day s = Some d -> fits n x -> 0 <= n <= 12 -> i_ty i = ty -> default_unit ty (range_code r) = unit_code UDay ->
  has (i_fmask i) (bit UDay) = false ->
  interval_field md (range_code r) (num_tok (day_q d)) i x =
  (shift 0 0 (signed day_sign (digits_value d)) 0 0 0 0 x, Ok (mkI (unit_code UDay) (Z.lor (i_fmask i) (bit UDay)) (i_before i) (i_dtype i))).
Proof.
  intros E F Hn T U H. pose proof (day_q_ok d E) as Q. rewrite (num_tok_field md _ _ i x Q). unfold num_step, interval_number_field. rewrite T, U.
  destruct (number_value md (day_q d) (unit_code UDay) Q) as (f & -> & _ & F0 & _). rewrite (F0 eq_refl).
  change (tfield_of (unit_code UDay)) with (Ok (A := tfield) KDay). cbv iota. change (q_val (day_q d)) with (signed day_sign (digits_value d)).
  pose proof (fits_bounds n x F ltac:(lia)) as (_ & _ & Fd & _).
  assert (0 <= digits_value d <= 100000000) as B.
  { destruct S as (_ & D & _). destruct (D d E) as (D1 & D2 & _). pose proof (sd_value _ D1). lia. }
  rewrite add32_small by (rewrite ?signed_abs; lia). cbn [step_set step_bind]. rewrite s_mday_shift.
  unfold adjust_fract_seconds. rewrite fnz_f0. cbn [negb step_bind fst snd].
  unfold merge_i. cbn [i_set_ty i_fmask i_ty i_before i_dtype]. change (mask DAY) with (bit UDay). now rewrite H.
Qed.

(** The fields before and after the sign is applied to all of them *)
Definition the_h := match s_clock s with None => 0 | Some k => k_h k end.
Definition the_mi := match s_clock s with None => 0 | Some k => k_mi k end.
Definition the_s := match s_clock s with None => 0 | Some k => k_s k end.
Definition the_us := match s_clock s with None => 0 | Some k => k_us k end.
Definition fields_of (ct cd cm : sign) : tmf :=
  (mkTm (signed ct the_s) (signed ct the_mi) (signed ct the_h) (signed cd (sql_days s)) (signed cm (sql_months s)) 0 0 0 (-1), signed ct the_us).

Lemma signed_0 c : signed c 0 = 0. Proof. now destruct c. Qed.

Lemma part_bounds : 0 <= the_h <= 1000000 /\ 0 <= the_mi <= 59 /\ 0 <= the_s <= 60 /\ 0 <= the_us < 1000000
  /\ 0 <= sql_days s <= 100000000 /\ 0 <= sql_months s <= 100000000.
Proof.
  destruct S as (Y & D & C & _). unfold the_h, the_mi, the_s, the_us, sql_days, sql_months.
  assert (match s_clock s with None => True | Some k => clock_ok r k end) as K1 by (destruct (s_clock s) as [k|]; [now apply C|exact I]).
  assert (match s_day s with None => True | Some d => 0 <= digits_value d <= 100000000 end) as K2.
  { destruct (s_day s) as [d|]; [|exact I]. destruct (D d eq_refl) as (D1 & D2 & _). pose proof (sd_value _ D1). lia. }
  assert (match s_ym s with None => True | Some q => 0 <= ym_total (unsigned_ym q) <= 100000000 end) as K3.
  { destruct (s_ym s) as [q|]; [|exact I]. destruct (Y q eq_refl) as ((P1 & P2) & Y1 & Y2). pose proof (sd_value _ P1). pose proof (sd_value _ P2). unfold ym_total in *. lia. }
  destruct (s_clock s) as [k|].
  - destruct K1 as (W & H1 & H2 & H3). pose proof (clock_bounds _ _ _ _ _ _ W) as B. destruct (s_day s), (s_ym s); repeat split; lia.
  - destruct (s_day s), (s_ym s); repeat split; lia.
Qed.

Lemma minus_fields : exists i, interval_fields md (range_code r) (rev minus_toks) init_i (tm_new, 0) = (fields_of time_sign day_sign Minus, Ok i)
  /\ i_fmask i <> 0 /\ i_before i = false /\ i_dtype i = KDelta.
Proof.
  pose proof part_bounds as B. unfold minus_toks. rewrite !rev_app_distr, <- app_assoc.
  assert (exists i, interval_fields md (range_code r) (rev match s_clock s with None => [] | Some k => [clock_tok (time_k k)] end) init_i (tm_new, 0)
    = ((mkTm (signed time_sign the_s) (signed time_sign the_mi) (signed time_sign the_h) 0 0 0 0 0 (-1), signed time_sign the_us), Ok i)
    /\ i_before i = false /\ i_dtype i = KDelta /\ i_fmask i = bits (match s_clock s with None => [] | Some _ => clock_takes end)
    /\ (s_day s <> None -> default_unit (i_ty i) (range_code r) = unit_code UDay)) as (i & E & Bf & Dt & Fm & Ty).
  { unfold the_s, the_mi, the_h, the_us. destruct (s_clock s) as [k|] eqn:Ek.
    - cbn [rev app interval_fields]. rewrite (clock_step md r (time_k k) init_i _ (time_k_ok k Ek) eq_refl). cbn [step_bind].
      eexists. split; [reflexivity|]. repeat split.
    - rewrite !signed_0. exists init_i. split; [reflexivity|]. repeat split. intros Nd. destruct S as (_ & D & _).
      destruct (s_day s) as [d|]; [|easy]. destruct (D d eq_refl) as (_ & _ & K). specialize (K Ek). destruct r; try discriminate K; reflexivity. }
  rewrite fields_app, E. cbn [step_bind]. clear E.
  set (x0 := (mkTm (signed time_sign the_s) (signed time_sign the_mi) (signed time_sign the_h) 0 0 0 0 0 (-1), signed time_sign the_us)).
  assert (fits 1 x0) as F0 by (unfold fits, small, x0; cbn; rewrite !signed_abs; repeat split; lia).
  assert (exists i', interval_fields md (range_code r) (rev match s_day s with None => [] | Some d => [num_tok (day_q d)] end) i x0
    = (shift 0 0 (signed day_sign (sql_days s)) 0 0 0 0 x0, Ok i')
    /\ i_before i' = false /\ i_dtype i' = KDelta
    /\ i_fmask i' = bits (match s_clock s with None => [] | Some _ => clock_takes end ++ match s_day s with None => [] | Some _ => [UDay] end)) as (i' & E & Bf' & Dt' & Fm').
  { unfold sql_days. destruct (s_day s) as [d|] eqn:Ed.
    - cbn [rev app interval_fields]. rewrite (day_step d (i_ty i) i x0 1 Ed F0 ltac:(lia) eq_refl (Ty ltac:(discriminate))).
      + cbn [step_bind]. eexists. split; [reflexivity|]. cbn [i_before i_dtype i_fmask]. repeat split; try assumption. rewrite bits_app, Fm. reflexivity.
      + rewrite Fm. destruct (s_clock s); reflexivity.
    - exists i. rewrite signed_0, shift_0, app_nil_r. repeat split; assumption. }
  rewrite fields_app, E. cbn [step_bind]. clear E.
  set (x1 := shift 0 0 (signed day_sign (sql_days s)) 0 0 0 0 x0).
  assert (fits 2 x1) as F1 by (unfold fits, small, x1, shift, x0; cbn; rewrite ?Z.add_0_r, ?Z.add_0_l, ?signed_abs; repeat split; lia).
  assert (fields_of time_sign day_sign Minus = shift 0 (- sql_months s) 0 0 0 0 0 x1) as ->.
  { unfold fields_of, x1, x0, shift. cbn. rewrite !Z.add_0_r. reflexivity. }
  unfold sql_months. destruct (s_ym s) as [q|] eqn:Ey.
  - cbn [rev app interval_fields]. rewrite (ym_tok_field md _ (minus_ym q)) by apply minus_ym_ok, Ey.
    rewrite (ym_step md _ (minus_ym q) i' x1 2 (minus_ym_ok q Ey) F1 ltac:(lia)).
    assert (has (i_fmask i') (bit UMonth) = false) as -> by (rewrite Fm'; destruct (s_clock s), (s_day s); reflexivity).
    cbn [step_bind]. eexists. split; [reflexivity|]. cbn [i_before i_dtype i_fmask]. repeat split; try assumption.
    intros K. apply Z.lor_eq_0_iff in K as [_ K]. discriminate K.
  - cbn [rev app interval_fields]. exists i'. rewrite Z.opp_0, shift_0. repeat split; try assumption. rewrite Fm'. destruct S as (_ & _ & _ & N & _). revert N. unfold sql_pieces. rewrite Ey.
    destruct (s_day s), (s_clock s); cbn; intros N; try discriminate. now destruct N.
Qed.

Lemma neg_pos_signed c v : 0 <= v -> neg_pos (signed c v) = - v.
Proof. intros H. unfold neg_pos. destruct c; cbn [signed]; destruct (Z.ltb_spec 0 v), (Z.ltb_spec 0 (- v)); lia. Qed.

Lemma only_minus_pieces : only_minus minus_pieces = true.
Proof.
  destruct S as (Y & D & C & N & _).
  assert (forall k t, s_clock s = Some k -> match k_text k ++ t with c :: _ => is_sign c = false | [] => False end) as Kc.
  { intros k t E. destruct (C k E) as ((W & _) & _). destruct (clock_words_time _ _ _ _ _ _ W) as (? & ? & ? & ? & T).
    pose proof (words_head _ _ _ _ _ t T) as Hd. destruct (k_text k ++ t) as [|c u]; [easy|]. apply is_digit_iff, digit_not_sign in Hd as [Ha Hb]. unfold is_sign. now rewrite Ha, Hb. }
  assert (forall d, s_day s = Some d -> match d with c :: _ => is_sign c = false | [] => False end) as Kd.
  { intros d E. destruct (D d E) as (P & _). pose proof (sd_digits _ P) as Dg. pose proof (sd_nonempty _ P) as Ne. destruct d as [|c u]; [easy|].
    cbn in Dg. apply andb_prop in Dg as [Dg _]. apply is_digit_iff, digit_not_sign in Dg as [Ha Hb]. unfold is_sign. now rewrite Ha, Hb. }
  revert N. unfold minus_pieces, sql_pieces, number_text, day_q, time_k, day_sign, time_sign.
  destruct (s_ym s) as [[a b]|]; [|destruct (s_day s) as [d|]; [|destruct (s_clock s) as [k|]; [|now intros []]]]; cbn; intros _; [| |reflexivity].
  - destruct (s_day s) as [d|], (s_clock s) as [k|]; cbn; rewrite ?app_nil_r; try specialize (Kd _ eq_refl); try specialize (Kc k [] eq_refl); rewrite ?app_nil_r in *.
    + destruct d; [easy|]. destruct (k_text k); [easy|]. now rewrite Kd, Kc.
    + destruct d; [easy|]. now rewrite Kd.
    + destruct (k_text k); [easy|]. now rewrite Kc.
    + reflexivity.
  - destruct (s_clock s) as [k|]; cbn; [|reflexivity]. specialize (Kc k [] eq_refl). rewrite app_nil_r in Kc. destruct (k_text k); [easy|]. now rewrite Kc.
Qed.

Lemma sql_minus : interval_try_from_str md (45 :: joined_text (sql_pieces s)) p ISQLStandard =
  interval_adjust_by_typmod md (from_mdt (- sql_months s) (- sql_days s) (- sql_time s)) p.
Proof.
  pose proof part_bounds as B. destruct minus_fields as (i & E & Fm & Bf & Dt). rewrite <- minus_joined.
  assert (minus_pieces <> []) as Np.
  { destruct S as (_ & _ & _ & N & _). revert N. unfold minus_pieces, sql_pieces. destruct (s_ym s), (s_day s), (s_clock s); cbn; intros N; try discriminate. now destruct N. }
  assert (parse_date_time (joined_text minus_pieces) = Ok minus_toks) as P.
  { apply (parse_pieces _ minus_pieces).
    - now apply joined_spaced.
    - pose proof minus_pieces_of as F. clear - F. induction F as [|a b la lb [H _] _ IH]; constructor; auto.
    - unfold minus_pieces. rewrite !app_length. destruct (s_ym s), (s_day s), (s_clock s); cbn; lia.
    - rewrite minus_joined. cbn [length]. destruct S as (_ & _ & _ & _ & L). lia. }
  set (z := (mkTm (- the_s) (- the_mi) (- the_h) (- sql_days s) (- sql_months s) 0 0 0 (-1), - the_us)).
  rewrite (interval_finish md ISQLStandard r p prec _ minus_pieces minus_toks (fields_of time_sign day_sign Minus) i (fields_of time_sign day_sign Minus) z
    Hprec Hp P minus_pieces_of Np E Fm Dt).
  - unfold months_in, days_in, micros_in, z. cbn [fst snd tm_year tm_mon tm_mday tm_hour tm_min tm_sec].
    destruct (Z.leb_spec i32_min (12 * 0 + - sql_months s)); [|unfold i32_min in *; lia]. destruct (Z.leb_spec (12 * 0 + - sql_months s) i32_max); [|unfold i32_max in *; lia].
    cbn [andb]. replace (12 * 0 + - sql_months s) with (- sql_months s) by lia.
    assert (clock (- the_h) (- the_mi) (- the_s) (- the_us) = - sql_time s) as ->; [|reflexivity].
    unfold sql_time, the_h, the_mi, the_s, the_us. destruct S as (_ & _ & C & _). destruct (s_clock s) as [k|]; [|reflexivity].
    destruct (C k eq_refl) as [_ Eu]. unfold clock_micros. rewrite Eu. cbn [signed]. unfold clock. lia.
  - apply carry_none; cbn; rewrite ?signed_abs; [lia|]. unfold in_i32, i32_min, i32_max. destruct time_sign; cbn [signed]; lia.
  - cbn [sql_style andb]. rewrite only_minus_pieces, Bf. unfold neg_in, fields_of, z. f_equal. unfold force_negative. cbn.
    unfold set_year, set_mon, set_mday, set_hour, set_min, set_sec. cbn. rewrite !neg_pos_signed by lia.
    unfold neg_pos. destruct (Z.ltb_spec 0 (- sql_months s)); [lia|]. reflexivity.
  - unfold fits, small, z. cbn. repeat split; lia.
Qed.
End Sql.
