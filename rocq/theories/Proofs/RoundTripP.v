(** Dates, times and timestamps read back from their own text. *)
From Verif Require Import Model.Parse Spec.Calendar Spec.Ranges Spec.Clock Spec.Text
  Proofs.Arith Proofs.Cal Proofs.DateP Proofs.TsP Proofs.FloatP Proofs.ClockP Proofs.DigitsP Proofs.FormatP
  Proofs.ParseP.
Open Scope Z_scope.

(** Evaluate tests on closed masks. *)
Ltac mk :=
  repeat match goal with
  | |- context [has ?a ?b] =>
      let v := eval vm_compute in (has a b) in
      match v with true => change (has a b) with true | false => change (has a b) with false end
  | |- context [Z.land ?a ?b =? ?c] =>
      let v := eval vm_compute in (Z.land a b =? c) in
      match v with
      | true => change (Z.land a b =? c) with true
      | false => change (Z.land a b =? c) with false
      end
  end; cbn [negb andb orb]; cbv iota.

Lemma padded_blen w n t : padded w n t -> blen t <= 10 -> Z.of_nat w <= blen t.
Proof. intros P _. unfold blen. pose proof (padded_len_ge _ _ _ P). lia. Qed.

(** ** Numbers inside dates *)
Section Numbers.
Variables (md : mode) (ds : bytes) (n : Z) (w : nat).
Hypothesis P : padded w n ds.
Hypothesis W : (w <= 10)%nat.
Hypothesis N : n <= i32_max.

Lemma str_whole : str2i32 ds = Ok (n, []).
Proof. rewrite <- (app_nil_r ds) at 1. now apply (padded_str w). Qed.
Lemma beq_nil : beq [] ds = false.
Proof. destruct (padded_cons _ _ _ P) as (c & r & -> & _). reflexivity. Qed.

Ltac dn Hd := intros; unfold decode_number; rewrite str_whole; cbn [bind]; rewrite beq_nil;
  cbn [n_tm n_fsec n_2d]; rewrite Hd.

Lemma dn_year0 have fm tm fs d2 order : Z.land fm DTK_DATE_M = 0 -> 3 <= blen ds ->
  decode_number md ds have fm (mkN 0 tm fs d2) order = Ok (mkN (mask YEAR) (set_year n tm) fs false).
Proof.
  intros Hd L. dn Hd. change (0 =? mask YEAR) with false. rewrite andb_false_r. cbn [andb].
  rewrite Z.eqb_refl. replace (3 <=? blen ds) with true by lia. cbn [orb].
  change (mask YEAR =? mask YEAR) with true. cbv iota. now replace (blen ds <=? 2) with false by lia.
Qed.
Lemma dn_first have fm tm fs d2 order : Z.land fm DTK_DATE_M = 0 -> blen ds = 2 ->
  decode_number md ds have fm (mkN 0 tm fs d2) order =
  match order with
  | YMD => Ok (mkN (mask YEAR) (set_year n tm) fs true)
  | DMY => Ok (mkN (mask DAY) (set_mday n tm) fs d2)
  | MDY => Ok (mkN (mask MONTH) (set_mon n tm) fs d2)
  end.
Proof. intros Hd L. dn Hd. rewrite L. destruct order; reflexivity. Qed.
Lemma dn_dmy have fm tm fs d2 : Z.land fm DTK_DATE_M = 0 -> blen ds = 2 ->
  decode_number md ds have fm (mkN 0 tm fs d2) DMY = Ok (mkN (mask DAY) (set_mday n tm) fs d2).
Proof. intros. now rewrite dn_first. Qed.
Lemma dn_mdy have fm tm fs d2 : Z.land fm DTK_DATE_M = 0 -> blen ds = 2 ->
  decode_number md ds have fm (mkN 0 tm fs d2) MDY = Ok (mkN (mask MONTH) (set_mon n tm) fs d2).
Proof. intros. now rewrite dn_first. Qed.
Lemma dn_month have fm tm fs d2 order : Z.land fm DTK_DATE_M = mask YEAR -> blen ds = 2 ->
  decode_number md ds have fm (mkN 0 tm fs d2) order = Ok (mkN (mask MONTH) (set_mon n tm) fs d2).
Proof. intros Hd L. dn Hd. rewrite L. reflexivity. Qed.
Lemma dn_ym_day fm tm fs d2 order : Z.land fm DTK_DATE_M = DTK_YEAR_MONTH_M ->
  decode_number md ds false fm (mkN 0 tm fs d2) order = Ok (mkN (mask DAY) (set_mday n tm) fs d2).
Proof. intros Hd. dn Hd. change (DTK_YEAR_MONTH_M =? mask YEAR) with false. rewrite andb_false_r. reflexivity. Qed.
Lemma dn_m_day fm tm fs d2 order : Z.land fm DTK_DATE_M = mask MONTH ->
  decode_number md ds false fm (mkN 0 tm fs d2) order = Ok (mkN (mask DAY) (set_mday n tm) fs d2).
Proof. intros Hd. dn Hd. change (mask MONTH =? mask YEAR) with false. rewrite andb_false_r. reflexivity. Qed.
Lemma dn_d_month have fm tm fs d2 order : Z.land fm DTK_DATE_M = mask DAY ->
  decode_number md ds have fm (mkN 0 tm fs d2) order = Ok (mkN (mask MONTH) (set_mon n tm) fs d2).
Proof. intros Hd. dn Hd. change (mask DAY =? mask YEAR) with false. rewrite andb_false_r. reflexivity. Qed.
Lemma dn_md_year have fm tm fs d2 order : Z.land fm DTK_DATE_M = DTK_MONTH_DAY_M -> 3 <= blen ds ->
  decode_number md ds have fm (mkN 0 tm fs d2) order = Ok (mkN (mask YEAR) (set_year n tm) fs false).
Proof.
  intros Hd L. dn Hd. change (DTK_MONTH_DAY_M =? mask YEAR) with false. rewrite andb_false_r. cbn -[Z.leb blen].
  now replace (blen ds <=? 2) with false by lia.
Qed.
End Numbers.

(** ** Date fields *)
Lemma is_alnum_digit c : is_digit c = true -> is_alnum c = true.
Proof. intros E. unfold is_alnum. rewrite E. apply orb_true_r. Qed.

Lemma eat_seps seps c r : forallb (fun i => negb (is_alnum i)) seps = true -> is_digit c = true ->
  eat (fun i => negb (is_alnum i)) (seps ++ c :: r) = (seps, c :: r).
Proof. intros F D. apply eat_app; auto. cbn. now rewrite is_alnum_digit. Qed.

Lemma date_parts_step fuel nf seps ds rest : forallb (fun i => negb (is_alnum i)) seps = true ->
  forallb is_digit ds = true -> ds <> [] -> stops is_digit rest -> nf < 25 ->
  date_parts (S fuel) nf (seps ++ ds ++ rest) =
  let* fs := date_parts fuel (nf + 1) rest in Ok (ds :: fs).
Proof.
  intros Fs F Nn S B. destruct ds as [|c r]; [easy|]. pose proof F as F'. cbn in F'. apply andb_prop in F' as [Dc _].
  cbn [date_parts]. unfold MAX_DATE_FIELDS. destruct (Z.leb_spec 25 nf); [lia|].
  cbn [app]. rewrite eat_seps by easy. cbn [snd]. rewrite Dc.
  change (c :: r ++ rest) with ((c :: r) ++ rest). unfold eat_digits. rewrite eat_app by easy.
  destruct (seps ++ (c :: r) ++ rest) eqn:E; [|reflexivity].
  apply app_eq_nil in E as [_ E]. discriminate.
Qed.

Lemma date_parts_three wa a c1 wb b c2 wc c t k :
  three wa a c1 wb b c2 wc c t -> is_alnum c1 = false -> is_alnum c2 = false ->
  exists ta tb tc, padded wa a ta /\ padded wb b tb /\ padded wc c tc /\
    t = ta ++ c1 :: tb ++ c2 :: tc /\ date_parts (4 + k) 0 t = Ok [ta; tb; tc].
Proof.
  intros (ta & tb & tc & Pa & Pb & Pc & E) A1 A2. exists ta, tb, tc. repeat (split; [assumption|]).
  assert (forall w n x, padded w n x -> x <> []) as NN by (intros ? ? ? [(_ & Q & _) _]; exact Q).
  assert (forall x, is_alnum x = false -> is_digit x = false) as AD
    by (intros x; unfold is_alnum; destruct (is_digit x), (is_alpha x); easy).
  subst t. change (4 + k)%nat with (S (S (S (S k)))).
  change (ta ++ c1 :: tb ++ c2 :: tc) with ([] ++ ta ++ (c1 :: tb ++ c2 :: tc)).
  rewrite date_parts_step; [|easy|eauto using padded_digits|eauto|cbn; auto|lia].
  change (c1 :: tb ++ c2 :: tc) with ([c1] ++ tb ++ (c2 :: tc)).
  rewrite date_parts_step; [|cbn; now rewrite A1|eauto using padded_digits|eauto|cbn; auto|lia].
  change (c2 :: tc) with ([c2] ++ tc). rewrite <- (app_nil_r tc) at 1.
  rewrite date_parts_step; [|cbn; now rewrite A2|eauto using padded_digits|eauto|exact I|lia].
  reflexivity.
Qed.

Lemma text_month_digits parts fm tmk tm have : Forall (fun f => forallb is_digit f = true) parts ->
  text_month parts fm tmk tm have = Ok (List.map Some parts, fm, tmk, tm, have).
Proof.
  induction 1 as [|f rest F _ IH]; [reflexivity|]. cbn [text_month]. rewrite IH.
  destruct f as [|c r]; [reflexivity|]. cbn in F. apply andb_prop in F as [D _].
  replace (is_alpha c) with false by (unfold is_digit, is_alpha, is_upper, is_lower in *; lia). reflexivity.
Qed.

Lemma number_parts_cons md f rest have order fm tmk tm d2 fs m tm' fs' d2' : f <> [] ->
  decode_number md f have fm (mkN 0 tm fs d2) order = Ok (mkN m tm' fs' d2') -> has fm m = false ->
  number_parts md (Some f :: rest) have order fm tmk tm d2 fs
  = number_parts md rest have order (Z.lor fm m) (Z.lor tmk m) tm' d2' fs'.
Proof. intros Nf E H. destruct f; [easy|]. cbn [number_parts]. rewrite E. cbn [bind n_tmask n_tm n_2d n_fsec]. now rewrite H. Qed.

(** The three orders of a date field. *)
Inductive field_order := FYmd | FDmy | FMdy.
Definition in_order (fo : field_order) (y m d : Z) (c1 c2 : Z) (t : bytes) : Prop :=
  match fo with
  | FYmd => three 4 y c1 2 m c2 2 d t
  | FDmy => three 2 d c1 2 m c2 4 y t
  | FMdy => three 2 m c1 2 d c2 4 y t
  end.
(** Which session orders read the field order *)
Definition reads (fo : field_order) (o : Base.date_order) : Prop :=
  match fo with FYmd => True | FDmy => o = DMY | FMdy => o = MDY end.

Lemma padded_blen2 n t : padded 2 n t -> n < 100 -> blen t = 2.
Proof. intros P L. unfold blen. pose proof (padded_len2 _ _ P L). pose proof (padded_len_ge _ _ _ P). lia. Qed.

Lemma three_fuel wa a c1 wb b c2 wc c t : three wa a c1 wb b c2 wc c t -> exists k, S (length t) = (4 + k)%nat.
Proof.
  intros (ta & tb & tc & Pa & Pb & Pc & ->). exists (S (length ta + length tb + length tc) - 2)%nat.
  destruct (padded_cons _ _ _ Pa) as (? & ? & -> & _). destruct (padded_cons _ _ _ Pb) as (? & ? & -> & _).
  destruct (padded_cons _ _ _ Pc) as (? & ? & -> & _).
  rewrite !app_length. cbn [length]. rewrite !app_length. cbn [length]. lia.
Qed.

Definition set3 (y m d : Z) (tm : pgtime) : pgtime := set_year y (set_mon m (set_mday d tm)).

Lemma decode_date_order md fo y m d c1 c2 t order d2 tm :
  in_order fo y m d c1 c2 t -> reads fo order -> is_alnum c1 = false -> is_alnum c2 = false ->
  0 <= y <= i32_max -> 1 <= m <= 12 -> 1 <= d <= 31 ->
  decode_date md t 0 d2 tm order = Ok (DTK_DATE_M, set3 y m d tm, false).
Proof.
  intros H R A1 A2 Y M D. unfold decode_date.
  assert (forall w n x, padded w n x -> x <> []) as NN by (intros ? ? ? [(_ & Q & _) _]; exact Q).
  assert (forall n x, padded 4 n x -> 3 <= blen x) as B4
    by (intros n x Px; unfold blen; pose proof (padded_len_ge _ _ _ Px); lia).
  assert (m <= i32_max /\ d <= i32_max) as [] by (rng; lia).
  destruct fo; cbn in H, R; destruct (three_fuel _ _ _ _ _ _ _ _ _ H) as [k ->];
    destruct (date_parts_three _ _ _ _ _ _ _ _ _ k H A1 A2) as (ta & tb & tc & Pa & Pb & Pc & _ & ->);
    cbn [bind]; rewrite text_month_digits by (repeat constructor; eauto using padded_digits);
    cbn [bind List.map]; subst.
  - erewrite number_parts_cons; [|eauto|eapply dn_year0; eauto; lia|reflexivity].
    erewrite number_parts_cons; [|eauto|eapply (dn_month _ _ _ 2); eauto; [lia|apply (padded_blen2 m); auto; lia]|reflexivity].
    erewrite number_parts_cons; [|eauto|eapply (dn_ym_day _ _ _ 2); eauto; lia|reflexivity].
    cbn [number_parts bind]. mk. destruct tm; reflexivity.
  - erewrite number_parts_cons; [|eauto|eapply (dn_dmy _ _ _ 2); eauto; [lia|apply (padded_blen2 d); auto; lia]|reflexivity].
    erewrite number_parts_cons; [|eauto|eapply (dn_d_month _ _ _ 2); eauto; lia|reflexivity].
    erewrite number_parts_cons; [|eauto|eapply dn_md_year; eauto; lia|reflexivity].
    cbn [number_parts bind]. mk. destruct tm; reflexivity.
  - erewrite number_parts_cons; [|eauto|eapply (dn_mdy _ _ _ 2); eauto; [lia|apply (padded_blen2 m); auto; lia]|reflexivity].
    erewrite number_parts_cons; [|eauto|eapply (dn_m_day _ _ _ 2); eauto; lia|reflexivity].
    erewrite number_parts_cons; [|eauto|eapply dn_md_year; eauto; lia|reflexivity].
    cbn [number_parts bind]. mk. destruct tm; reflexivity.
Qed.

(** ** Fields *)
Definition date_ctx (y m d : Z) : ctx :=
  mkCtx (set3 y m d tm_new) KDate 0 DTK_DATE_M DTK_DATE_M KNumber false false false HR24 false.

Lemma field_date md fo y m d c1 c2 t order next :
  in_order fo y m d c1 c2 t -> reads fo order -> is_alnum c1 = false -> is_alnum c2 = false ->
  0 <= y <= i32_max -> 1 <= m <= 12 -> 1 <= d <= 31 ->
  date_time_field md order (Some KDate, t) next ctx_new = Ok (date_ctx y m d).
Proof.
  intros. unfold date_time_field, decode_date_token, ctx_decode_date. cbn [fst snd read_type bind].
  change (tfeq (c_ptype ctx_new) KJulian) with false. change (is_num (c_ptype ctx_new)) with true.
  cbn [negb orb]. change (c_fmask ctx_new) with 0. mk.
  change (c_tm ctx_new) with tm_new. change (c_2d ctx_new) with false.
  rewrite (decode_date_order md fo y m d c1 c2) by easy. cbn [bind]. reflexivity.
Qed.

Definition time_ctx (h mi s us : Z) (c : ctx) : ctx :=
  c_set_fmask (Z.lor (c_fmask c) DTK_TIME_M)
    (c_set_tmask DTK_TIME_M (c_set_tm (set_sec s (set_min mi (set_hour h (c_tm c)))) (c_set_fsec us (c_set_ptype KNumber c)))).

Lemma field_time md h mi s us t order next c :
  clock_text 2 h mi s us t -> 0 <= h <= 24 -> 0 <= mi < 60 -> 0 <= s < 60 -> 0 <= us < 1000000 ->
  (h = 24 -> mi = 0 /\ s = 0 /\ us = 0) ->
  c_ptype c = KNumber \/ c_ptype c = KTime -> has (c_fmask c) DTK_TIME_M = false ->
  date_time_field md order (Some KTime, t) next c = Ok (time_ctx h mi s us c).
Proof.
  intros C Hh Hm Hs Hu H24 Pt Hf. unfold date_time_field. cbn [fst snd read_type bind].
  assert ((if negb (is_num (c_ptype c)) then if negb (tfeq (c_ptype c) KTime) then Err EInvalid
           else Ok (c_set_ptype KNumber c) else Ok c) = Ok (c_set_ptype KNumber c)) as ->.
  { destruct Pt as [E|E]; rewrite E; [|reflexivity]. cbn. destruct c; cbn in *; now subst. }
  cbn [bind].
  rewrite (time_field_ok md 2 h mi s us t) by (auto; rng; lia). cbn [bind].
  replace (tm_hour _) with h by (destruct c as [[]]; reflexivity).
  replace (tm_min _) with mi by (destruct c as [[]]; reflexivity).
  replace (tm_sec _) with s by (destruct c as [[]]; reflexivity).
  assert ((HOURS_PER_DAY <? h) || (h =? HOURS_PER_DAY) && ((0 <? mi) || (0 <? s) || (0 <? us)) = false) as ->.
  { unfold HOURS_PER_DAY. destruct (Z.eq_dec h 24); [|lia]. specialize (H24 e). lia. }
  unfold merge_mask. replace (has (c_fmask _) (c_tmask _)) with false by (symmetry; exact Hf). reflexivity.
Qed.

Definition bc_text : bytes := [98; 99].
Definition bc_ctx (c : ctx) : ctx :=
  c_set_fmask (Z.lor (c_fmask c) (mask ADBC)) (c_set_bc true (c_set_tmask (mask ADBC) c)).

Lemma field_bc md order next c : has (c_fmask c) (mask ADBC) = false ->
  date_time_field md order (Some KString, bc_text) next c = Ok (bc_ctx c).
Proof.
  intros Hf. unfold date_time_field, decode_string_token. cbn [fst snd read_type bind].
  assert (decode_special bc_text = Ok (ADBC, BC)) as -> by (vm_compute; reflexivity).
  cbn [bind tteq]. change (tteq ADBC IgnoreDtf) with false. cbv iota. cbn [bind].
  change (BC =? BC) with true. unfold merge_mask.
  replace (has (c_fmask _) (c_tmask _)) with false by (symmetry; exact Hf). reflexivity.
Qed.

(** ** Finishing *)
Definition full_mask (fm : Z) : bool :=
  has fm (mask YEAR) && negb (has fm (mask DOY)) && has fm (mask MONTH) && has fm (mask DAY)
  && (Z.land fm DTK_DATE_M =? DTK_DATE_M).

Lemma validate_full md fm j d2 bc tm : full_mask fm = true ->
  validate_date md fm j d2 bc tm = validate_date md DTK_DATE_M j d2 bc tm.
Proof.
  unfold full_mask. intros H. repeat (apply andb_prop in H as [H ?]).
  apply negb_true_iff in H3. unfold validate_date. rewrite H, H0, H1, H2, H3. mk. reflexivity.
Qed.

Lemma validb_iff y m d : valid_ymd (y, m, d) -> validb y m d = true.
Proof. cbn. unfold validb. pose proof (month_len_bounds y m). lia. Qed.

Lemma finish_ctx md order ts c y m d :
  date_time_fields md order ts ctx_new = Ok c -> full_mask (c_fmask c) = true ->
  c_julian c = false -> c_2d c = false -> c_mer c = HR24 -> c_dtype c = KDate ->
  c_bc c = negb (0 <? y) -> tm_year (c_tm c) = era_year y -> tm_mon (c_tm c) = m -> tm_mday (c_tm c) = d ->
  valid_ymd (y, m, d) -> -4713 <= y <= 5874897 ->
  decode_date_time md order ts = Ok (set_year y (c_tm c), KDate, c_fsec c).
Proof.
  intros E F Hj H2 Hm Hd Hb Ey Em Ed V B. unfold decode_date_time. rewrite E. cbn [bind].
  rewrite validate_full by easy. rewrite Hj, H2, Hb.
  assert (era_year y = if 0 <? y then y else 1 - y) as EY by reflexivity.
  rewrite validate_date_ymd by (rewrite Ey, EY; destruct (Z.ltb_spec 0 y); rng; lia).
  rewrite Ey, Em, Ed. cbv zeta.
  replace (era_year y <=? 0) with false by (rewrite EY; destruct (Z.ltb_spec 0 y); lia).
  replace (if negb (0 <? y) then 1 - era_year y else era_year y) with y
    by (rewrite EY; destruct (Z.ltb_spec 0 y); cbn [negb]; lia).
  rewrite validb_iff by easy. cbn [bind]. rewrite Hm. unfold apply_mer. cbn [Z.eqb negb andb HR24].
  change (HR24 =? HR24) with true. change (HR24 =? AM) with false. change (HR24 =? PM) with false.
  cbn [negb andb bind]. rewrite Hd. unfold full_mask in F. apply andb_prop in F as [_ F]. rewrite F.
  reflexivity.
Qed.

(** ** Tokens of a date *)
Definition era_tokens (y : Z) : list token := if 0 <? y then [] else [(Some KString, bc_text)].

Lemma tokenize_era fuel n room y : n < 25 -> 2 <= room ->
  tokenize (S (S fuel)) n room (era_suffix y) = Ok (era_tokens y).
Proof.
  intros N R. unfold era_suffix, era_tokens. destruct (0 <? y); [reflexivity|].
  rewrite tokenize_space. change [66; 67] with ([66; 67] ++ []).
  rewrite tokenize_word; [reflexivity|reflexivity|easy|now left|easy|exact R].
Qed.

Lemma era_stops y f : f 32 = false -> stops f (era_suffix y).
Proof. unfold era_suffix. now destruct (0 <? y). Qed.

Lemma date_layout_order style po ro y m d t : date_layout style po (y, m, d) t -> date_readable style po ro ->
  exists fo c1, in_order fo (era_year y) m d c1 c1 t /\ reads fo ro /\ (c1 = 45 \/ c1 = 46 \/ c1 = 47).
Proof.
  destruct style; cbn; intros H R.
  - destruct R as [R1 R2]. destruct po; try easy; exists FMdy, 46; cbn; auto.
  - exists FYmd, 45; cbn; auto.
  - destruct po; [exists FMdy, 47|exists FDmy, 47|exists FMdy, 47]; cbn; auto.
  - exists FDmy, 46; cbn; auto.
  - exists FYmd, 45; cbn; auto.
Qed.

Lemma in_order_token fo y m d c1 t rest : in_order fo y m d c1 c1 t -> c1 = 45 \/ c1 = 46 \/ c1 = 47 ->
  stops (date_char c1) rest -> digit_begin (t ++ rest) = ((Some KDate, t), rest).
Proof. destruct fo; cbn; intros; eapply digit_begin_date; eauto. Qed.

Lemma in_order_head fo y m d c1 t rest : in_order fo y m d c1 c1 t ->
  match t ++ rest with c :: _ => is_digit c = true | [] => False end.
Proof.
  intros H. assert (exists w n ta r, padded w n ta /\ t = ta ++ r) as (w & n & ta & r & P & ->).
  { destruct fo; destruct H as (ta & tb & tc & Pa & _ & _ & ->); eauto 6. }
  destruct (padded_cons _ _ _ P) as (c & r' & -> & D). exact D.
Qed.

Lemma tokenize_date fo y m d c1 t rest fuel n room : in_order fo y m d c1 c1 t ->
  c1 = 45 \/ c1 = 46 \/ c1 = 47 -> stops (date_char c1) rest -> n < 25 -> blen t <= room ->
  tokenize (S fuel) n room (t ++ rest) =
  let* ts := tokenize fuel (n + 1) (room - blen t) rest in Ok ((Some KDate, t) :: ts).
Proof.
  intros H C S N B. rewrite (tokenize_digit fuel n room (t ++ rest) (Some KDate, t) rest); [reflexivity| | |easy|exact B].
  - eapply in_order_head; eauto.
  - eapply in_order_token; eauto.
Qed.

Lemma tokenize_time w h mi s us t rest fuel n room : clock_text w h mi s us t ->
  stops time_char rest -> n < 25 -> blen t <= room ->
  tokenize (S fuel) n room (t ++ rest) =
  let* ts := tokenize fuel (n + 1) (room - blen t) rest in Ok ((Some KTime, t) :: ts).
Proof.
  intros H S N B. rewrite (tokenize_digit fuel n room (t ++ rest) (Some KTime, t) rest); [reflexivity| | |easy|exact B].
  - destruct H as (th & tmi & ts & P & _ & _ & ->). destruct (padded_cons _ _ _ P) as (c & r & -> & D). exact D.
  - eapply digit_begin_time; eauto.
Qed.

Lemma parse_date_time_cons s : s <> [] -> parse_date_time s = tokenize (S (length s)) 0 128 s.
Proof. now destruct s. Qed.

Lemma date_char_space c : c = 45 \/ c = 46 \/ c = 47 -> date_char c 32 = false.
Proof. intros [->|[->| ->]]; reflexivity. Qed.
Lemma sep_alnum c : c = 45 \/ c = 46 \/ c = 47 -> is_alnum c = false.
Proof. intros [->|[->| ->]]; reflexivity. Qed.

Lemma era_year_pos y : 1 <= era_year y.
Proof. unfold era_year. destruct (Z.ltb_spec 0 y); lia. Qed.

Lemma in_order_len fo y m d c1 t : in_order fo y m d c1 c1 t -> (3 <= length t)%nat.
Proof.
  intros H. assert (exists wa a wb b wc c, three wa a c1 wb b c1 wc c t) as (wa & a & wb & b & wc & c & T)
    by (destruct fo; cbn in H; eauto 8).
  destruct (three_fuel _ _ _ _ _ _ _ _ _ T) as [k E]. lia.
Qed.

Definition era_ctx (y : Z) (c : ctx) : ctx := if 0 <? y then c else bc_ctx c.

Lemma era_fields md order y c : has (c_fmask c) (mask ADBC) = false ->
  date_time_fields md order (era_tokens y) c = Ok (era_ctx y c).
Proof.
  intros H. unfold era_tokens, era_ctx. destruct (0 <? y); [reflexivity|].
  cbn [date_time_fields]. now rewrite field_bc.
Qed.

Ltac fold_tokens F :=
  match type of F with date_time_fields _ _ ?l _ = _ =>
    match goal with |- context [decode_date_time _ _ ?l'] => change l' with l end end.

Lemma date_reread md style po ro d txt : valid_date d -> date_readable style po ro ->
  date_format md d style po = Ok txt -> date_try_from_str md txt ro = Ok d.
Proof.
  intros V R E. destruct (date_format_ok md d style po V) as ([[y m] dd] & t & E' & Vc & Nc & L & By).
  cbn [fst] in *. rewrite E' in E. injection E as <-.
  destruct (valid_ymd_bounds _ _ _ Vc) as [Bm Bd].
  pose proof (date_layout_len _ _ _ _ _ _ L ltac:(lia) ltac:(lia) ltac:(lia)) as Len.
  destruct (date_layout_order _ _ _ _ _ _ _ L R) as (fo & c1 & O & Ro & C1).
  pose proof (in_order_len _ _ _ _ _ _ O) as Len3. pose proof (era_year_pos y) as EP.
  assert (era_year y <= 5874897) as EB by (unfold era_year; destruct (Z.ltb_spec 0 y); lia).
  unfold date_try_from_str. rewrite parse_date_time_cons
    by (destruct t; [cbn in Len3; lia|discriminate]).
  destruct (length (t ++ era_suffix y)) as [|[|[|k]]] eqn:El; rewrite app_length in El; try lia.
  rewrite (tokenize_date fo (era_year y) m dd c1);
    [|easy|easy|apply era_stops, date_char_space; easy|lia|unfold blen; lia].
  rewrite tokenize_era by (unfold blen; lia). cbn [bind].
  assert (date_time_fields md ro ((Some KDate, t) :: era_tokens y) ctx_new
          = Ok (era_ctx y (date_ctx (era_year y) m dd))) as F.
  { cbn [date_time_fields]. rewrite (field_date md fo (era_year y) m dd c1 c1)
      by (auto using sep_alnum; rng; lia). cbn [bind]. now rewrite era_fields. }
  fold_tokens F. rewrite (finish_ctx md ro _ _ y m dd F); auto; try (unfold era_ctx; destruct (0 <? y); reflexivity).
  cbn [bind]. set (tm := set_year y (c_tm (era_ctx y (date_ctx (era_year y) m dd)))).
  assert (tm_year tm = y /\ tm_mon tm = m /\ tm_mday tm = dd) as (-> & -> & ->)
    by (subst tm; unfold era_ctx; destruct (0 <? y); repeat split).
  pose proof (ymd_to_date md y m dd Vc) as K.
  apply day_number_J in Nc; auto. unfold valid_date in V.
  replace ((0 <=? J (y, m, dd)) && (J (y, m, dd) <=? 2147483493)) with true in K by lia.
  destruct (negb (is_valid_julian y m)); [discriminate|].
  destruct (date2julian md y m dd) as [j| |]; [|discriminate..]. cbn [bind] in *.
  destruct (sub32 md j POSTGRES_EPOCH_JDATE) as [x| |]; [|discriminate..]. cbn [bind] in *.
  destruct (negb (is_valid_date x)); [discriminate|]. rewrite K. f_equal. lia.
Qed.

Lemma date_reread_inf md style po ro d : d = neg_inf_date \/ d = pos_inf_date ->
  exists txt, date_format md d style po = Ok txt /\ date_try_from_str md txt ro = Ok d.
Proof.
  intros [->| ->].
  - exists EARLY. split; [destruct md; reflexivity|]. destruct md, ro; vm_compute; reflexivity.
  - exists LATE. split; [destruct md; reflexivity|]. destruct md, ro; vm_compute; reflexivity.
Qed.

(** ** Time of day *)
Lemma validate_time md tm : validate_date md DTK_TIME_M false false false tm = Ok tm.
Proof. unfold validate_date. mk. reflexivity. Qed.

Lemma time_from_fields md tm us h mi s : tm_hour tm = h -> tm_min tm = mi -> tm_sec tm = s ->
  0 <= h <= 24 -> 0 <= mi < 60 -> 0 <= s <= 60 -> 0 <= us <= 1000000 ->
  time_from_pgtime md tm us = Ok (clock h mi s us).
Proof.
  intros E1 E2 E3 Hh Hm Hs Hu. unfold time_from_pgtime. rewrite E1, E2, E3. unfold MINS_PER_HOUR, SECS_PER_MINUTE, USECS_PER_SEC.
  ar. reflexivity.
Qed.

Lemma time_reread md t txt tmod ro : 0 <= t <= usecs_day -> time_format md t = Ok txt ->
  time_try_from_str md txt tmod ro = time_adjust_by_typmod md t tmod.
Proof.
  intros H E. destruct (time_format_ok md t H) as (h & mi & s & us & x & E' & C & Hh & Hm & Hs & Hu & Et & H24).
  rewrite E' in E. injection E as <-.
  pose proof (clock_len _ _ _ _ _ _ 2 C ltac:(change (10 ^ Z.of_nat 2) with 100; lia) ltac:(lia) ltac:(lia) ltac:(lia)) as L.
  unfold time_try_from_str.
  rewrite parse_date_time_cons
    by (destruct C as (th & ? & ? & P & _ & _ & ->); destruct (padded_cons _ _ _ P) as (? & ? & -> & _); discriminate).
  rewrite <- (app_nil_r x) at 2. rewrite (tokenize_time 2 h mi s us); [|easy|exact I|lia|unfold blen; lia].
  assert (exists k, length x = S k) as [k ->].
  { destruct C as (th & ? & ? & P & _ & _ & ->). destruct (padded_cons _ _ _ P) as (? & ? & -> & _). cbn. eauto. }
  rewrite tokenize_nil. cbn [bind]. unfold decode_time_only. cbn [time_only_fields].
  unfold time_only_field. cbn [fst snd read_type bind].
  rewrite (time_field_ok md 2 h mi s us) by (auto; rng; lia). cbn [bind fst snd].
  change (c_set_tmask _ _) with (mkCtx (mkTm s mi h 0 0 0 0 0 (-1)) KDate us 0 DTK_TIME_M KNumber false false false HR24 false).
  unfold merge_mask. cbn [c_fmask c_tmask]. mk.
  change (c_set_fmask _ _) with (mkCtx (mkTm s mi h 0 0 0 0 0 (-1)) KDate us DTK_TIME_M DTK_TIME_M KNumber false false false HR24 false).
  cbn [bind c_fmask c_julian c_2d c_bc c_mer c_tm c_fsec]. rewrite validate_time. cbn [bind].
  unfold apply_mer. change (HR24 =? HR24) with true. change (HR24 =? AM) with false. change (HR24 =? PM) with false.
  cbn [negb andb bind tm_hour tm_min tm_sec].
  match goal with |- context [if ?b then Err EOverflow else Ok _] => assert (b = false) as -> end.
  { unfold MINS_PER_HOUR, SECS_PER_MINUTE, HOURS_PER_DAY, USECS_PER_SEC.
    destruct (Z.eq_dec h 24); [specialize (H24 e)|]; lia. }
  cbn [bind fst snd]. rewrite (time_from_fields md _ us h mi s) by (reflexivity || lia).
  cbn [bind]. now rewrite Et.
Qed.

(** ** Timestamps *)
Lemma era_len y : blen (era_suffix y) <= 3.
Proof. unfold era_suffix. destruct (0 <? y); cbn; lia. Qed.

Definition ts_ctx_ok (c : ctx) (y m d h mi s us : Z) : Prop :=
  full_mask (c_fmask c) = true /\ c_julian c = false /\ c_2d c = false /\ c_mer c = HR24 /\
  c_dtype c = KDate /\ c_bc c = negb (0 <? y) /\ tm_year (c_tm c) = era_year y /\
  tm_mon (c_tm c) = m /\ tm_mday (c_tm c) = d /\ tm_hour (c_tm c) = h /\ tm_min (c_tm c) = mi /\
  tm_sec (c_tm c) = s /\ c_fsec c = us.

Lemma ts_finish md txt ts ro tmod c y m d h mi s us t :
  parse_date_time txt = Ok ts -> date_time_fields md ro ts ctx_new = Ok c ->
  ts_ctx_ok c y m d h mi s us -> reading (y, m, d) h mi s us t -> valid_ts t ->
  timestamp_try_from_str md txt tmod ro = timestamp_adjust_by_typmod md t tmod.
Proof.
  intros P F (K1 & K2 & K3 & K4 & K5 & K6 & K7 & K8 & K9 & K10 & K11 & K12 & K13) R V.
  pose proof (reading_year_bounds _ _ _ _ _ _ R V) as (B1 & B2 & B3 & B4 & B5).
  unfold timestamp_try_from_str. rewrite P. cbn [bind].
  rewrite (finish_ctx md ro _ _ y m d F) by (auto; lia || apply R). cbn [bind].
  destruct (to_ts_reading md (set_year y (c_tm c)) (c_fsec c) t) as [G _].
  { replace (tm_year _) with y by (destruct (c_tm c); reflexivity).
    replace (tm_mon _) with m by (rewrite <- K8; destruct (c_tm c); reflexivity).
    replace (tm_mday _) with d by (rewrite <- K9; destruct (c_tm c); reflexivity).
    replace (tm_hour _) with h by (rewrite <- K10; destruct (c_tm c); reflexivity).
    replace (tm_min _) with mi by (rewrite <- K11; destruct (c_tm c); reflexivity).
    replace (tm_sec _) with s by (rewrite <- K12; destruct (c_tm c); reflexivity).
    now rewrite K13. }
  now rewrite G.
Qed.

Lemma date_char_T c : c = 45 \/ c = 46 \/ c = 47 -> date_char c 84 = false.
Proof. intros [->|[->| ->]]; reflexivity. Qed.

(** The 'T' between date and time *)
Lemma tokenize_T fuel n room c rest : n < 25 -> 1 <= room -> is_digit c = true ->
  tokenize (S fuel) n room (84 :: c :: rest) =
  let* ts := tokenize fuel (n + 1) (room - 1) (c :: rest) in Ok ((Some KString, [116]) :: ts).
Proof.
  intros N R D. cbn [tokenize]. rewrite eat_ws_cons by reflexivity. unfold MAX_DATE_FIELDS.
  destruct (Z.leb_spec 25 n); [lia|]. change (is_digit 84) with false. change (84 =? 46) with false.
  change (is_alpha 84) with true. cbv iota. unfold alpha_begin, eat_alphabetics.
  change (84 :: c :: rest) with ([84] ++ c :: rest).
  rewrite eat_app; [|reflexivity|cbn; unfold is_digit, is_alpha, is_upper, is_lower in *; lia].
  rewrite D. replace ((c =? 45) || (c =? 47) || (c =? 46)) with false by (unfold is_digit in D; lia).
  rewrite orb_true_r. assert (exists x, search_date_token (lowers [84]) = Ok (Some x)) as [x ->] by (eexists; vm_compute; reflexivity).
  cbn [bind snd]. unfold use_buf. change (blen (lowers [84])) with 1.
  destruct (Z.leb_spec 1 room); [reflexivity|lia].
Qed.

Definition t_ctx (c : ctx) : ctx := c_set_fmask (Z.lor (c_fmask c) 0) (c_set_ptype KTime (c_set_tmask 0 c)).
Lemma field_T md order t rest c : Z.land (c_fmask c) DTK_DATE_M = DTK_DATE_M ->
  date_time_field md order (Some KString, [116]) (hd_error ((Some KTime, t) :: rest)) c = Ok (t_ctx c).
Proof.
  intros H. unfold date_time_field, decode_string_token. cbn [fst snd read_type bind hd_error].
  assert (decode_special [116] = Ok (ISOTIME, kcode KTime)) as -> by (vm_compute; reflexivity).
  cbn [bind]. change (tteq ISOTIME IgnoreDtf) with false. cbv iota.
  change (c_fmask (c_set_tmask 0 (c_set_tmask (mask ISOTIME) c))) with (c_fmask c). rewrite H.
  change (DTK_DATE_M =? DTK_DATE_M) with true. cbn [negb read_type bind].
  change (time_like KTime) with true. cbn [negb].
  assert (tfield_of (kcode KTime) = Ok KTime) as -> by (vm_compute; reflexivity). cbn [bind].
  unfold merge_mask. replace (has _ _) with false; [reflexivity|].
  unfold has. cbn [c_set_ptype c_set_tmask c_tmask]. now rewrite Z.land_0_r.
Qed.

Lemma clock_cons w h mi s us t : clock_text w h mi s us t -> exists c r, t = c :: r /\ is_digit c = true.
Proof.
  intros (th & tmi & ts & P & _ & _ & ->). destruct (padded_cons _ _ _ P) as (c & r & -> & D). cbn. eauto.
Qed.

(** Date, then time, for the numeric styles *)
Lemma ts_reread_numeric md style po ro t txt tmod y m d h mi s us td tc sep : valid_ts t ->
  date_readable style po ro -> reading (y, m, d) h mi s us t -> date_layout style po (y, m, d) td ->
  clock_text 2 h mi s us tc -> sep = 32 \/ sep = 84 ->
  txt = (td ++ sep :: tc) ++ era_suffix y ->
  timestamp_try_from_str md txt tmod ro = timestamp_adjust_by_typmod md t tmod.
Proof.
  intros V R Re L C Hsep E.
  pose proof (reading_year_bounds _ _ _ _ _ _ Re V) as (B1 & B2 & B3 & B4 & B5).
  destruct (date_layout_order _ _ _ _ _ _ _ L R) as (fo & c1 & O & Ro & C1).
  pose proof (date_layout_len _ _ _ _ _ _ L ltac:(lia) ltac:(lia) ltac:(lia)) as Len.
  pose proof (in_order_len _ _ _ _ _ _ O) as Len3.
  pose proof (era_year_pos y) as EP.
  assert (era_year y <= 5874897) as EB by (unfold era_year; destruct (Z.ltb_spec 0 y); lia).
  destruct Re as (Vc & K & Re'). pose proof K as (Kh & Km & Ks & Ku).
  assert (reading (y, m, d) h mi s us t) as Re by exact (conj Vc (conj K Re')).
  pose proof (clock_len _ _ _ _ _ _ 2 C ltac:(change (10 ^ Z.of_nat 2) with 100; lia) ltac:(lia) ltac:(lia) ltac:(lia)) as Lc.
  destruct (clock_cons _ _ _ _ _ _ C) as (c0 & r0 & Ec & D0).
  assert (exists k, S (length txt) = S (S (S (S (S k))))) as [k Ek].
  { exists (length txt - 4)%nat. subst txt. rewrite !app_length. cbn [length]. rewrite Ec. cbn [length]. lia. }
  set (ts := (Some KDate, td : bytes) :: (if sep =? 84 then [(Some KString, [116])] else [])
             ++ (Some KTime, tc : bytes) :: era_tokens y).
  assert (parse_date_time txt = Ok ts) as P.
  { rewrite parse_date_time_cons by (subst txt; destruct td; [cbn in Len3; lia|discriminate]).
    rewrite Ek, E, <- app_assoc. cbn [app].
    rewrite (tokenize_date fo (era_year y) m d c1);
      [|easy|easy|destruct Hsep as [->| ->]; [now apply date_char_space|now apply date_char_T]|lia|unfold blen; lia].
    subst ts. destruct Hsep as [->| ->].
    - rewrite tokenize_space. rewrite (tokenize_time 2 h mi s us); [|easy|apply era_stops; reflexivity|lia|unfold blen; lia].
      rewrite tokenize_era by (unfold blen; lia). reflexivity.
    - rewrite Ec. cbn [app]. rewrite tokenize_T by (unfold blen; auto; lia).
      change (c0 :: r0 ++ era_suffix y) with ((c0 :: r0) ++ era_suffix y). rewrite <- Ec.
      rewrite (tokenize_time 2 h mi s us); [|easy|apply era_stops; reflexivity|lia|unfold blen; lia].
      rewrite tokenize_era by (unfold blen; lia). reflexivity. }
  set (cd := if sep =? 84 then t_ctx (date_ctx (era_year y) m d) else date_ctx (era_year y) m d).
  assert (date_time_fields md ro ts ctx_new = Ok (era_ctx y (time_ctx h mi s us cd))) as F.
  { subst ts cd. cbn [date_time_fields]. rewrite (field_date md fo (era_year y) m d c1 c1)
      by (auto using sep_alnum; rng; lia). cbn [bind].
    destruct Hsep as [->| ->]; [change (32 =? 84) with false|change (84 =? 84) with true]; cbv iota; cbn [app date_time_fields].
    - rewrite (field_time md h mi s us) by (auto; lia). cbn [bind]. now rewrite era_fields.
    - rewrite field_T by reflexivity. cbn [bind]. rewrite (field_time md h mi s us) by (auto; lia).
      cbn [bind]. now rewrite era_fields. }
  apply (ts_finish md txt ts ro tmod _ y m d h mi s us t P F); auto.
  unfold ts_ctx_ok, era_ctx. subst cd.
  destruct Hsep as [->| ->]; destruct (0 <? y); repeat split.
Qed.

(** ** Timestamps that name the month *)
Lemma before_none c s : forallb (fun i => negb (i =? c)) s = true -> before c s = s.
Proof. intros H. unfold before. rewrite <- (app_nil_r s), eat_app by easy. cbn [fst]. now rewrite app_nil_r. Qed.

Lemma digits_no_dot ds : forallb is_digit ds = true -> before 46 ds = ds.
Proof. intros H. apply before_none. revert H. apply forallb_weaken. unfold is_digit. lia. Qed.

Lemma field_number md order ds w n c next st : padded w n ds -> c_ptype c = KNumber ->
  blen ds < 6 \/ Z.land (c_fmask c) DTK_DATE_M <> 0 /\ Z.land (c_fmask c) DTK_TIME_M <> 0 ->
  decode_number md ds false (c_fmask c) (to_nst c) order = Ok st -> has (c_fmask c) (n_tmask st) = false ->
  date_time_field md order (Some KNumber, ds) next c
  = Ok (c_set_fmask (Z.lor (c_fmask c) (n_tmask st)) (of_nst st c)).
Proof.
  intros P Hp L E H. unfold date_time_field, decode_number_token. cbn [fst snd read_type bind].
  rewrite Hp. change (is_num KNumber) with true. cbn [negb].
  rewrite digits_no_dot by eauto using padded_digits. rewrite Z.eqb_refl. cbn [negb andb].
  replace ((6 <=? blen ds) && _) with false by lia.
  unfold ctx_decode_number. rewrite E. cbn [bind]. unfold merge_mask.
  replace (has _ _) with false by (symmetry; exact H). reflexivity.
Qed.

Lemma tokenize_number w n ds rest fuel k room : padded w n ds ->
  rest = [] \/ (exists r, rest = 32 :: r) -> k < 25 -> blen ds <= room ->
  tokenize (S fuel) k room (ds ++ rest) =
  let* ts := tokenize fuel (k + 1) (room - blen ds) rest in Ok ((Some KNumber, ds) :: ts).
Proof.
  intros P R N B. rewrite (tokenize_digit fuel k room (ds ++ rest) (Some KNumber, ds) rest); [reflexivity| | |easy|exact B].
  - destruct (padded_cons _ _ _ P) as (c & r & -> & D). exact D.
  - unfold digit_begin, eat_digits. rewrite eat_app by (eauto using padded_digits; destruct R as [->|[r ->]]; easy).
    destruct R as [->|[r ->]]; reflexivity.
Qed.

Lemma wday_word w : 0 <= w < 7 -> exists v, decode_special (lowers (wday_abbr w)) = Ok (DOW, v).
Proof.
  intros H. assert (w = 0 \/ w = 1 \/ w = 2 \/ w = 3 \/ w = 4 \/ w = 5 \/ w = 6) as
    [->|[->|[->|[->|[->|[->| ->]]]]]] by lia; eexists; vm_compute; reflexivity.
Qed.
Lemma wday_alpha w : 0 <= w < 7 -> forallb is_alpha (wday_abbr w) = true /\ length (wday_abbr w) = 3%nat.
Proof.
  intros H. assert (w = 0 \/ w = 1 \/ w = 2 \/ w = 3 \/ w = 4 \/ w = 5 \/ w = 6) as
    [->|[->|[->|[->|[->|[->| ->]]]]]] by lia; vm_compute; auto.
Qed.
Lemma month_word m : 1 <= m <= 12 -> m <> 2 -> decode_special (lowers (month_abbr m)) = Ok (MONTH, m).
Proof. intros H N. month12 H; try lia; vm_compute; reflexivity. Qed.
Lemma month_alpha m : 1 <= m <= 12 -> forallb is_alpha (month_abbr m) = true /\ length (month_abbr m) = 3%nat.
Proof. intros H. month12 H; vm_compute; auto. Qed.

Lemma field_wday md order w v next : decode_special w = Ok (DOW, v) ->
  date_time_field md order (Some KString, w) next ctx_new
  = Ok (mkCtx (set_wday v tm_new) KDate 0 (mask DOW) (mask DOW) KNumber false false false HR24 false).
Proof.
  intros E. unfold date_time_field, decode_string_token. cbn [fst snd read_type bind]. rewrite E. reflexivity.
Qed.

(** A month name; [day] is set when an earlier number was taken for the month. *)
Lemma field_month md order w m next tm fm tk d2 : decode_special w = Ok (MONTH, m) -> has fm (mask MONTH) = false ->
  date_time_field md order (Some KString, w) next (mkCtx tm KDate 0 fm tk KNumber false d2 false HR24 false)
  = Ok (mkCtx (set_mon m tm) KDate 0 (Z.lor fm (mask MONTH)) (mask MONTH) KNumber false d2 false HR24 true).
Proof.
  intros E H. unfold date_time_field, decode_string_token. cbn [fst snd read_type bind]. rewrite E. cbn [bind].
  change (tteq MONTH IgnoreDtf) with false. cbv iota.
  change (c_fmask _) with fm. rewrite H. cbn [andb bind]. unfold merge_mask.
  replace (has (c_fmask _) (c_tmask _)) with false by (symmetry; exact H). reflexivity.
Qed.
Lemma field_month_swap md order w m next tm d2 tk : decode_special w = Ok (MONTH, m) -> 1 <= tm_mon tm <= 31 ->
  date_time_field md order (Some KString, w) next
    (mkCtx tm KDate 0 (Z.lor (mask DOW) (mask MONTH)) tk KNumber false d2 false HR24 false)
  = Ok (mkCtx (set_mon m (set_mday (tm_mon tm) tm)) KDate 0
          (Z.lor (Z.lor (mask DOW) (mask MONTH)) (mask DAY)) (mask DAY) KNumber false d2 false HR24 true).
Proof.
  intros E H. unfold date_time_field, decode_string_token. cbn [fst snd read_type bind]. rewrite E. cbn [bind].
  change (tteq MONTH IgnoreDtf) with false. cbv iota.
  set (c0 := c_set_tmask (mask MONTH) _).
  change (c_fmask c0) with (Z.lor (mask DOW) (mask MONTH)). change (c_tmon c0) with false. change (c_tm c0) with tm.
  mk. replace (1 <=? tm_mon tm) with true by lia. replace (tm_mon tm <=? 31) with true by lia. cbn [andb bind].
  reflexivity.
Qed.

Lemma decode_number_tmask md ds have fm k tm fs d2 order :
  decode_number md ds have fm (mkN k tm fs d2) order = decode_number md ds have fm (mkN 0 tm fs d2) order.
Proof. reflexivity. Qed.

Definition named_text (po : Base.date_order) (wd m : Z) (td tc ty : bytes) (y : Z) : bytes :=
  (wday_abbr wd ++ 32 ::
    (match po with DMY => td ++ 32 :: month_abbr m | _ => month_abbr m ++ 32 :: td end)
    ++ 32 :: tc ++ 32 :: ty) ++ era_suffix y.
Definition named_tokens (po : Base.date_order) (wd m : Z) (td tc ty : bytes) (y : Z) : list token :=
  (Some KString, lowers (wday_abbr wd)) ::
  (match po with
   | DMY => [(Some KNumber, td); (Some KString, lowers (month_abbr m))]
   | _ => [(Some KString, lowers (month_abbr m)); (Some KNumber, td)] end)
  ++ (Some KTime, tc) :: (Some KNumber, ty) :: era_tokens y.

Lemma named_parse po wd m d h mi s us td tc ty y : 0 <= wd < 7 -> 1 <= m <= 12 -> 1 <= d <= 31 ->
  clock_ok h mi s us -> clock_text 2 h mi s us tc -> padded 2 d td -> padded 4 (era_year y) ty ->
  era_year y <= 294276 ->
  parse_date_time (named_text po wd m td tc ty y) = Ok (named_tokens po wd m td tc ty y).
Proof.
  intros Bw B4 B5 K C Pd Py EB. set (txt := named_text po wd m td tc ty y).
  assert (txt = named_text po wd m td tc ty y) as E by reflexivity. unfold named_text in E.
  pose proof K as (Kh & Km & Ks & Ku).
  pose proof (clock_len _ _ _ _ _ _ 2 C ltac:(change (10 ^ Z.of_nat 2) with 100; lia) ltac:(lia) ltac:(lia) ltac:(lia)) as Lc.
  destruct (clock_cons _ _ _ _ _ _ C) as (c0 & r0 & Ec & D0).
  pose proof (padded_blen2 _ _ Pd ltac:(lia)) as Ld.
  assert (4 <= blen ty <= 6) as Ly.
  { unfold blen. pose proof (padded_len_ge _ _ _ Py).
    pose proof (padded_len _ _ _ 6 Py ltac:(change (10 ^ Z.of_nat 6) with 1000000; lia) ltac:(lia)). lia. }
  destruct (wday_alpha wd Bw) as [Aw Lw]. destruct (month_alpha m B4) as [Am Lm].
  assert (forall A (l : list A), length l = 3%nat -> l <> []) as NE by (intros A [|] ?; discriminate).
  assert (blen (wday_abbr wd) = 3 /\ blen (month_abbr m) = 3) as [Bw3 Bm3] by (unfold blen; lia).
  assert (exists k, S (length txt) = S (S (S (S (S (S (S (S k)))))))) as [k Ek].
  { exists (length txt - 7)%nat. rewrite E. rewrite !app_length. cbn [length]. rewrite !app_length. cbn [length].
    rewrite app_length, Lw. cbn [length]. unfold blen in Ly. lia. }
  assert (forall r, stops time_char (32 :: r)) as ST by reflexivity.
  rewrite parse_date_time_cons by (rewrite E; destruct (wday_abbr wd); [discriminate|discriminate]).
  rewrite Ek, E. clear Ek E txt. unfold named_tokens. rewrite <- app_assoc. cbn [app]. rewrite tokenize_word by (eauto; lia).
  rewrite tokenize_space.
  destruct po; rewrite <- !app_assoc; cbn [app].
  1,3: rewrite <- ?app_assoc; cbn [app]; rewrite tokenize_word by (eauto; lia);
    rewrite tokenize_space, (tokenize_number 2 d) by (eauto; lia).
  3: rewrite <- ?app_assoc; cbn [app]; rewrite (tokenize_number 2 d) by (eauto; lia);
    rewrite tokenize_space, tokenize_word by (eauto; lia).
  all: rewrite tokenize_space; rewrite <- ?app_assoc; cbn [app];
    rewrite (tokenize_time 2 h mi s us) by (auto; unfold blen in *; lia);
    rewrite tokenize_space, (tokenize_number 4 (era_year y))
      by (auto; try (unfold era_suffix; destruct (0 <? y); eauto); unfold blen in *; lia);
    rewrite tokenize_era by (unfold blen in *; lia); reflexivity.
Qed.

Definition wday_ctx (v : Z) : ctx :=
  mkCtx (set_wday v tm_new) KDate 0 (mask DOW) (mask DOW) KNumber false false false HR24 false.

Lemma number_first md v d td ro : padded 2 d td -> 1 <= d <= 31 ->
  exists tm fm tk d2, (forall next, date_time_field md ro (Some KNumber, td) next (wday_ctx v)
      = Ok (mkCtx tm KDate 0 fm tk KNumber false d2 false HR24 false)) /\
    match ro with
    | YMD => tm = set_year d (set_wday v tm_new) /\ d2 = true
    | DMY => tm = set_mday d (set_wday v tm_new) /\ d2 = false /\ fm = Z.lor (mask DOW) (mask DAY)
    | MDY => tm = set_mon d (set_wday v tm_new) /\ d2 = false /\ fm = Z.lor (mask DOW) (mask MONTH)
    end.
Proof.
  intros Pd B5. pose proof (padded_blen2 _ _ Pd ltac:(lia)) as Ld.
  assert (d <= i32_max) by (rng; lia).
  destruct ro; do 4 eexists.
  - split; [intros next; erewrite field_number; [|exact Pd|reflexivity|left; lia| |];
      [|unfold to_nst; rewrite decode_number_tmask; rewrite (dn_first _ _ d 2) by (auto; lia); reflexivity|reflexivity];
      reflexivity|]. repeat split.
  - split; [intros next; erewrite field_number; [|exact Pd|reflexivity|left; lia| |];
      [|unfold to_nst; rewrite decode_number_tmask; rewrite (dn_first _ _ d 2) by (auto; lia); reflexivity|reflexivity];
      reflexivity|]. repeat split.
  - split; [intros next; erewrite field_number; [|exact Pd|reflexivity|left; lia| |];
      [|unfold to_nst; rewrite decode_number_tmask; rewrite (dn_first _ _ d 2) by (auto; lia); reflexivity|reflexivity];
      reflexivity|]. repeat split.
Qed.

Lemma ts_reread_named md po ro t txt tmod y m d h mi s us td tc ty n : valid_ts t ->
  m <> 2 -> (po = DMY -> ro <> YMD) -> reading (y, m, d) h mi s us t ->
  clock_text 2 h mi s us tc -> padded 2 d td -> padded 4 (era_year y) ty ->
  txt = named_text po ((n + 6) mod 7) m td tc ty y ->
  timestamp_try_from_str md txt tmod ro = timestamp_adjust_by_typmod md t tmod.
Proof.
  intros V M2 Ho Re C Pd Py E.
  pose proof (reading_year_bounds _ _ _ _ _ _ Re V) as (B1 & B2 & B3 & B4 & B5).
  pose proof (era_year_pos y) as EP.
  assert (era_year y <= 294276) as EB by (unfold era_year; destruct (Z.ltb_spec 0 y); lia).
  destruct Re as (Vc & K & Re'). pose proof K as (Kh & Km & Ks & Ku).
  assert (reading (y, m, d) h mi s us t) as Re by exact (conj Vc (conj K Re')).
  pose proof (Z.mod_pos_bound (n + 6) 7 ltac:(lia)) as Bw. set (wd := (n + 6) mod 7) in *. clearbody wd.
  destruct (wday_word wd Bw) as [v Sw]. pose proof (month_word m B4 M2) as Sm.
  pose proof (padded_blen2 _ _ Pd ltac:(lia)) as Ld.
  assert (4 <= blen ty) as Ly by (unfold blen; pose proof (padded_len_ge _ _ _ Py); lia).
  assert (parse_date_time txt = Ok (named_tokens po wd m td tc ty y)) as P
    by (rewrite E; apply (named_parse po wd m d h mi s us); auto).
  assert (exists c, date_time_fields md ro (named_tokens po wd m td tc ty y) ctx_new = Ok c
    /\ ts_ctx_ok c y m d h mi s us) as (c & F & OKc).
  { assert (exists tk, forall rest, date_time_fields md ro ((Some KString, lowers (wday_abbr wd)) ::
               (match po with DMY => [(Some KNumber, td); (Some KString, lowers (month_abbr m))]
                | _ => [(Some KString, lowers (month_abbr m)); (Some KNumber, td)] end) ++ rest) ctx_new
             = date_time_fields md ro rest
                 (mkCtx (set_mon m (set_mday d (set_wday v tm_new))) KDate 0
                    (Z.lor (Z.lor (mask DOW) (mask MONTH)) (mask DAY)) tk KNumber false false false HR24 true)) as [tk F1].
    { destruct (match po with DMY => true | _ => false end) eqn:Epo.
      - destruct po; try discriminate. specialize (Ho eq_refl).
        destruct (number_first md v d td ro Pd B5) as (tm & fm & tk & d2 & N & Q).
        destruct ro; [easy| |]; destruct Q as (-> & -> & ->); eexists; intros rest; cbn [app date_time_fields hd_error];
          rewrite (field_wday md _ _ v) by easy; cbn [bind]; fold (wday_ctx v); rewrite N; cbn [bind].
        + rewrite (field_month md DMY _ m) by easy. cbn [bind]. reflexivity.
        + rewrite (field_month_swap md MDY _ m) by (auto; cbn; lia). cbn [bind]. reflexivity.
      - eexists. intros rest.
        replace (match po with DMY => [(Some KNumber, td); (Some KString, lowers (month_abbr m))] | _ => [(Some KString, lowers (month_abbr m)); (Some KNumber, td)] end)
          with [(Some KString, lowers (month_abbr m)); (Some KNumber, td)] by (destruct po; easy).
        cbn [app date_time_fields]. rewrite (field_wday md ro _ v) by easy. cbn [bind].
        rewrite (field_month md ro _ m) by easy. cbn [bind].
        erewrite field_number; [|exact Pd|reflexivity|left; lia| |].
        2:{ cbn [c_fmask to_nst c_tmask c_tm c_fsec c_2d]. unfold to_nst. rewrite decode_number_tmask.
            eapply (dn_m_day _ _ d 2); eauto; [lia|rng; lia]. }
        2:{ reflexivity. }
        cbn [bind]. reflexivity. }
    unfold named_tokens. rewrite F1. cbn [date_time_fields].
    rewrite (field_time md h mi s us) by (auto; lia). cbn [bind].
    erewrite field_number; [|exact Py|reflexivity|right; split; vm_compute; discriminate| |].
    2:{ unfold to_nst. rewrite decode_number_tmask. eapply (dn_md_year _ _ (era_year y) 4); eauto; [lia|rng; lia|lia]. }
    2:{ reflexivity. }
    cbn [bind]. eexists. split; [apply era_fields; reflexivity|].
    unfold ts_ctx_ok, era_ctx. destruct (0 <? y); repeat split. }
  apply (ts_finish md txt _ ro tmod c y m d h mi s us t P F OKc Re V).
Qed.

Lemma field_unknown md ro w next c : decode_special w = Ok (UnknownField, 0) ->
  date_time_field md ro (Some KString, w) next c = Err EInvalid.
Proof.
  intros E. unfold date_time_field, decode_string_token. cbn [fst snd read_type bind]. rewrite E. reflexivity.
Qed.

(** "feb" is not a keyword. *)
Lemma ts_february md po ro t txt tmod y d h mi s us : valid_ts t -> reading (y, 2, d) h mi s us t ->
  timestamp_format md t SPostgres po = Ok txt -> timestamp_try_from_str md txt tmod ro = Err EInvalid.
Proof.
  intros V Re E.
  destruct (timestamp_format_ok md t SPostgres po V) as ([[y' m'] d'] & h' & mi' & s' & us' & x & E' & Re1 & L & By).
  assert ((y', m', d') = (y, 2, d)) as Ed.
  { destruct Re as (V1 & C1 & n1 & N1 & T1), Re1 as (V2 & C2 & n2 & N2 & T2).
    pose proof (clock_bounds _ _ _ _ C1). pose proof (clock_bounds _ _ _ _ C2).
    assert (n1 = n2) by (unfold usecs_day in *; lia). subst n2.
    apply day_number_J in N1; auto. apply day_number_J in N2; auto.
    apply J_inj; auto; lia. }
  injection Ed as -> -> ->. cbn [fst] in *. rewrite E' in E. injection E as <-.
  pose proof (reading_year_bounds _ _ _ _ _ _ Re V) as (B1 & B2 & B3 & B4 & B5).
  assert (era_year y <= 294276) as EB by (unfold era_year; destruct (Z.ltb_spec 0 y); lia).
  destruct L as (tc & C & n & td & ty & Nn & Pd & Py & ->).
  pose proof (Z.mod_pos_bound (n + 6) 7 ltac:(lia)) as Bw. set (wd := (n + 6) mod 7) in *. clearbody wd.
  destruct (wday_word wd Bw) as [v Sw].
  fold (named_text po wd 2 td tc ty y).
  unfold timestamp_try_from_str. rewrite (named_parse po wd 2 d h' mi' s' us') by (auto; apply Re1). cbn [bind].
  unfold decode_date_time, named_tokens.
  assert (decode_special (lowers (month_abbr 2)) = Ok (UnknownField, 0)) as Sf by (vm_compute; reflexivity).
  destruct (match po with DMY => true | _ => false end) eqn:Epo.
  - assert (po = DMY) as -> by (clear - Epo; destruct po; easy). cbn [app date_time_fields hd_error].
    destruct (number_first md v d td ro Pd B5) as (tm & fm & tk & d2 & N & _).
    rewrite (field_wday md _ _ v) by easy. cbn [bind]. fold (wday_ctx v). rewrite N. cbn [bind]. rewrite field_unknown by exact Sf. reflexivity.
  - replace (match po with DMY => _ | _ => _ end)
      with [(Some KString, lowers (month_abbr 2)); (Some KNumber, td)] by (destruct po; easy).
    cbn [app date_time_fields]. rewrite (field_wday md ro _ v) by easy. cbn [bind].
    rewrite field_unknown by exact Sf. reflexivity.
Qed.

(** ** Postgres style dates under DMY *)
Lemma tokenize_dot fuel n room ds rest : forallb is_digit ds = true -> stops is_digit rest -> n < 25 ->
  1 + blen ds <= room ->
  tokenize (S fuel) n room (46 :: ds ++ rest) =
  let* ts := tokenize fuel (n + 1) (room - blen (46 :: ds)) rest in Ok ((Some KNumber, 46 :: ds) :: ts).
Proof.
  intros F S N B. cbn [tokenize]. rewrite eat_ws_cons by reflexivity. unfold MAX_DATE_FIELDS.
  destruct (Z.leb_spec 25 n); [lia|]. change (is_digit 46) with false. change (46 =? 46) with true. cbv iota.
  unfold dot_begin, eat_digits. rewrite eat_app by easy. cbn [snd]. unfold use_buf.
  destruct (Z.leb_spec (blen (46 :: ds)) room); [reflexivity|unfold blen in *; cbn [length] in *; lia].
Qed.

Lemma date_postgres_dmy md d txt ro : valid_date d -> date_format md d SPostgres DMY = Ok txt ->
  date_try_from_str md txt ro = Err EInvalid.
Proof.
  intros V E. destruct (date_format_ok md d SPostgres DMY V) as ([[y m] dd] & t & E' & Vc & Nc & L & By).
  cbn [fst] in *. rewrite E' in E. injection E as <-.
  destruct (valid_ymd_bounds _ _ _ Vc) as [Bm Bd].
  pose proof (date_layout_len _ _ _ _ _ _ L ltac:(lia) ltac:(lia) ltac:(lia)) as Len.
  cbn in L. destruct L as (ta & tb & tc & Pa & Pb & Pc & Et).
  pose proof (padded_blen2 _ _ Pa ltac:(lia)) as La. pose proof (padded_blen2 _ _ Pb ltac:(lia)) as Lb.
  set (f := ta ++ 45 :: tb).
  assert (t = f ++ 46 :: tc) as Ef by (subst f t; rewrite <- app_assoc; reflexivity).
  assert (blen f = 5) as Lf by (subst f; unfold blen in *; rewrite app_length; cbn [length]; lia).
  assert (length t = (length f + S (length tc))%nat) as Lt by (rewrite Ef, app_length; reflexivity).
  unfold date_try_from_str. rewrite parse_date_time_cons
    by (rewrite Ef; destruct f; [cbn in Lf; lia|discriminate]).
  assert (exists k, S (length (t ++ era_suffix y)) = S (S (S (S k)))) as [k ->].
  { exists (length (t ++ era_suffix y) - 3)%nat. rewrite app_length. unfold blen in Lf. lia. }
  assert (exists ts, tokenize (S (S (S (S k)))) 0 128 (t ++ era_suffix y) = Ok ((Some KDate, f) :: ts)) as [ts ->].
  { rewrite Ef, <- app_assoc. cbn [app].
    rewrite (tokenize_digit _ 0 128 _ (Some KDate, f) (46 :: tc ++ era_suffix y)); [| | |lia|cbn [snd]; lia].
    - rewrite tokenize_dot by (eauto using padded_digits; try (apply era_stops; reflexivity); cbn [snd]; unfold blen in *; lia).
      rewrite tokenize_era by (cbn [snd]; unfold blen in *; cbn [length]; lia). cbn [bind]. eauto.
    - subst f. destruct (padded_cons _ _ _ Pa) as (c0 & r0 & -> & D0). exact D0.
    - subst f. unfold digit_begin, eat_digits. rewrite <- app_assoc. cbn [app].
      rewrite eat_app by (eauto using padded_digits; easy).
      change (45 =? 58) with false. change ((45 =? 45) || (45 =? 47) || (45 =? 46)) with true. cbv iota.
      destruct (padded_cons _ _ _ Pb) as (c0 & r0 & Eb & D0). unfold digit_delim_begin.
      rewrite Eb at 1. cbn [app]. rewrite D0. unfold eat_digits.
      rewrite eat_app by (eauto using padded_digits; easy). reflexivity. }
  cbn [bind]. unfold decode_date_time. cbn [date_time_fields].
  assert (forall next, date_time_field md ro (Some KDate, f) next ctx_new = Err EInvalid) as ->; [|reflexivity].
  intros next. unfold date_time_field, decode_date_token, ctx_decode_date. cbn [fst snd read_type bind].
  change (tfeq (c_ptype ctx_new) KJulian) with false. change (is_num (c_ptype ctx_new)) with true.
  cbn [negb orb]. change (c_fmask ctx_new) with 0. mk. unfold decode_date.
  assert (forall w n x, padded w n x -> x <> []) as NN by (intros ? ? ? [(_ & Q & _) _]; exact Q).
  assert (date_parts (S (length f)) 0 f = Ok [ta; tb]) as ->.
  { assert (length f = 5)%nat as -> by (unfold blen in Lf; lia). subst f.
    change (ta ++ 45 :: tb) with ([] ++ ta ++ (45 :: tb)).
    rewrite date_parts_step; [|easy|eauto using padded_digits|eauto|cbn; auto|lia].
    change (45 :: tb) with ([45] ++ tb). rewrite <- (app_nil_r tb) at 1.
    rewrite date_parts_step; [|reflexivity|eauto using padded_digits|eauto|exact I|lia]. reflexivity. }
  cbn [bind]. rewrite text_month_digits by (repeat constructor; eauto using padded_digits).
  cbn [bind List.map]. assert (m <= i32_max /\ dd <= i32_max) as [] by (rng; lia).
  destruct ro.
  - erewrite number_parts_cons; [|eauto|rewrite (dn_first _ _ dd 2) by (auto; lia); reflexivity|reflexivity].
    erewrite number_parts_cons; [|eauto|eapply (dn_month _ _ _ 2); eauto; lia|reflexivity]. reflexivity.
  - erewrite number_parts_cons; [|eauto|eapply (dn_dmy _ _ _ 2); eauto; lia|reflexivity].
    erewrite number_parts_cons; [|eauto|eapply (dn_d_month _ _ _ 2); eauto; lia|reflexivity]. reflexivity.
  - erewrite number_parts_cons; [|eauto|eapply (dn_mdy _ _ _ 2); eauto; lia|reflexivity].
    erewrite number_parts_cons; [|eauto|eapply (dn_m_day _ _ _ 2); eauto; lia|reflexivity]. reflexivity.
Qed.

Lemma ts_reread md style po ro t txt tmod : valid_ts t ->
  (forall c h mi s us, reading c h mi s us t -> ts_readable style po ro c) ->
  timestamp_format md t style po = Ok txt ->
  timestamp_try_from_str md txt tmod ro = timestamp_adjust_by_typmod md t tmod.
Proof.
  intros V R E. destruct (timestamp_format_ok md t style po V) as ([[y m] d] & h & mi & s & us & x & E' & Re & L & By).
  cbn [fst] in *. rewrite E' in E. injection E as E. specialize (R _ _ _ _ _ Re).
  destruct L as (tc & C & L).
  destruct style;
    [|destruct L as (td & L & Ex); subst x; symmetry in E;
      match type of E with txt = (_ ++ ?sep :: _) ++ _ =>
        apply (ts_reread_numeric md _ po ro t txt tmod y m d h mi s us td tc sep V R Re L C); auto end..].
  destruct L as (n & td & ty & Nn & Pd & Py & Ex). destruct R as [R1 R2]. cbn in R1. subst x. symmetry in E.
  apply (ts_reread_named md po ro t txt tmod y m d h mi s us td tc ty n); auto.
Qed.

Lemma ts_reread_inf md style po ro t : t = neg_inf_ts \/ t = pos_inf_ts ->
  exists txt, timestamp_format md t style po = Ok txt /\ timestamp_try_from_str md txt (-1) ro = Ok t.
Proof.
  intros [->| ->].
  - exists EARLY. split; [destruct md; reflexivity|]. destruct md, ro; vm_compute; reflexivity.
  - exists LATE. split; [destruct md; reflexivity|]. destruct md, ro; vm_compute; reflexivity.
Qed.
