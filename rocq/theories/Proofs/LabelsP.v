(** Dates and times written as numbers with letters in front. *)
From Verif Require Import Model.Parse Spec.Calendar Spec.Ranges Spec.Clock Spec.Text Spec.DateText Spec.TimeText Spec.Keywords Spec.DateWords
  Spec.CompactTime Spec.Labels Proofs.Arith Proofs.Cal Proofs.DateP Proofs.TsP Proofs.DigitsP Proofs.LexP Proofs.ParseP Proofs.RoundTripP Proofs.NumDateP
  Proofs.ClockTextP Proofs.DateWordsP Proofs.DateTimeWordsP Proofs.CompactP.
From Coq Require Import List ZArith Bool Lia Permutation.
Import ListNotations.
Open Scope Z_scope.

(** ** Tokens *)
Definition part_tokens (p : part) : list token := [(Some KString, label_word (p_label p)); (Some KNumber, part_number p)].
Definition parts_tokens (ps : list part) : list token := flat_map part_tokens ps.

Definition after_part (rest : bytes) : Prop := rest = [] \/ exists c r, rest = c :: r /\ (c = 32 \/ is_alpha c = true).
Lemma after_stops rest : after_part rest -> stops is_digit rest.
Proof. intros [->|(c & r & -> & [->|A])]; [exact I|reflexivity|]. cbn. unfold is_digit, is_alpha, is_upper, is_lower in *. lia. Qed.

Lemma part_num_digits p : part_ok p -> forallb is_digit (p_num p) = true /\ p_num p <> [] /\ forallb is_digit (p_frac p) = true.
Proof.
  intros (_ & D & L & F & _). split; [now apply digits_forallb|]. split; [intros E; rewrite E in L; cbn in L; lia|].
  apply digits_forallb, F.
Qed.
Lemma part_len p : part_ok p -> (length (part_number p) <= 9 /\ 1 <= length (part_number p))%nat.
Proof.
  intros (_ & _ & L & [_ Lf] & Fl). unfold part_number. destruct (p_frac p) as [|c f] eqn:E.
  - rewrite app_nil_r. destruct (p_label p); lia.
  - rewrite Fl in L by discriminate. rewrite app_length. cbn [length] in *. lia.
Qed.
Lemma part_word_len p : part_ok p -> (1 <= length (p_word p) <= 2)%nat.
Proof. intros (C & _). destruct (any_case_facts _ _ C) as (_ & _ & ->). destruct (p_label p); cbn; lia. Qed.

Lemma part_digit_begin p rest : part_ok p -> after_part rest ->
  digit_begin (part_number p ++ rest) = ((Some KNumber, part_number p), rest).
Proof.
  intros P A. destruct (part_num_digits p P) as (D & N & Df). pose proof (after_stops rest A) as St.
  unfold digit_begin, eat_digits, part_number. destruct (p_frac p) as [|c f].
  - rewrite app_nil_r. rewrite eat_app by assumption. destruct A as [->|(c & r & -> & A)]; [reflexivity|].
    replace (c =? 58) with false by (unfold is_alpha, is_upper, is_lower in *; lia).
    replace ((c =? 45) || (c =? 47) || (c =? 46)) with false by (unfold is_alpha, is_upper, is_lower in *; lia). reflexivity.
  - rewrite <- app_assoc. cbn [app]. rewrite eat_app; [|exact D|reflexivity].
    change (46 =? 58) with false. change ((46 =? 45) || (46 =? 47) || (46 =? 46)) with true. cbv iota.
    unfold digit_delim_begin, eat_digits. change (46 =? 46) with true.
    assert (is_digit c = true) as -> by (cbn in Df; now apply andb_prop in Df).
    change (c :: f ++ rest) with ((c :: f) ++ rest). rewrite eat_app by assumption.
    destruct A as [->|(c1 & r & -> & A)]; [reflexivity|].
    replace (c1 =? 46) with false by (unfold is_alpha, is_upper, is_lower in *; lia). reflexivity.
Qed.

Lemma label_known l : exists t, search_date_token (label_word l) = Ok (Some t).
Proof. destruct l; vm_compute; eauto. Qed.

Lemma tokenize_part p rest fuel n room : part_ok p -> after_part rest -> n < 24 -> 11 <= room ->
  exists room', room - 11 <= room' /\
  tokenize (S (S fuel)) n room (p_word p ++ spaced_by (p_gap p) ++ part_number p ++ rest) =
  let* ts := tokenize fuel (n + 2) room' rest in Ok (part_tokens p ++ ts).
Proof.
  intros P A N R. pose proof (part_len p P) as Ln. pose proof (part_word_len p P) as Lw.
  pose proof P as (C & _). destruct (any_case_facts _ _ C) as (Al & Lo & Le).
  destruct (part_num_digits p P) as (D & Nn & _).
  exists (room - blen (label_word (p_label p)) - blen (part_number p)).
  split; [unfold blen; rewrite <- Le; lia|].
  assert (match part_number p ++ rest with c :: _ => is_digit c = true | [] => False end) as Hd.
  { unfold part_number. destruct (p_num p) as [|c r]; [easy|]. cbn in *. now apply andb_prop in D. }
  assert (forall room, 9 <= room -> tokenize (S fuel) (n + 1) room (part_number p ++ rest) =
    let* ts := tokenize fuel (n + 1 + 1) (room - blen (part_number p)) rest in Ok ((Some KNumber, part_number p) :: ts)) as T2.
  { intros r Hr. rewrite (tokenize_digit fuel (n + 1) r (part_number p ++ rest) (Some KNumber, part_number p) rest);
      [reflexivity|exact Hd|now apply part_digit_begin|lia|cbn [snd]; unfold blen; lia]. }
  destruct (p_word p) as [|c w] eqn:Ew; [cbn in Lw; lia|]. cbn [app].
  rewrite (tokenize_alpha (S fuel) n room c _ (Some KString, label_word (p_label p)) (spaced_by (p_gap p) ++ part_number p ++ rest)).
  - cbn [snd].
    assert (tokenize (S fuel) (n + 1) (room - blen (label_word (p_label p))) (spaced_by (p_gap p) ++ part_number p ++ rest)
      = tokenize (S fuel) (n + 1) (room - blen (label_word (p_label p))) (part_number p ++ rest)) as ->
      by (destruct (p_gap p); [apply tokenize_space|reflexivity]).
    rewrite T2 by (unfold blen; rewrite <- Le; lia). replace (n + 1 + 1) with (n + 2) by lia.
    destruct (tokenize fuel (n + 2) _ rest); reflexivity.
  - cbn in Al. now apply andb_prop in Al.
  - unfold alpha_begin, eat_alphabetics. change (c :: w ++ spaced_by (p_gap p) ++ part_number p ++ rest) with ((c :: w) ++ spaced_by (p_gap p) ++ part_number p ++ rest).
    rewrite eat_app; [|exact Al|].
    + rewrite Lo. destruct (p_gap p); cbn [spaced_by app]; [reflexivity|].
      destruct (part_number p ++ rest) as [|d r]; [easy|].
      assert ((d =? 45) || (d =? 47) || (d =? 46) = false) as -> by (unfold is_digit in Hd; lia). rewrite Hd, orb_true_r.
      destruct (label_known (p_label p)) as [t ->]. reflexivity.
    + destruct (p_gap p); cbn [spaced_by app]; [reflexivity|].
      destruct (part_number p ++ rest) as [|d r]; [easy|]. cbn. unfold is_digit, is_alpha, is_upper, is_lower in *. lia.
  - lia.
  - cbn [snd]. unfold blen. rewrite <- Le. lia.
Qed.

Lemma parts_after ps tl : Forall part_ok ps -> after_part tl -> after_part (parts_text ps ++ tl).
Proof.
  intros F A. destruct F as [|p ps P F]; [exact A|]. cbn [parts_text flat_map]. unfold part_text.
  destruct P as (C & _). destruct (any_case_facts _ _ C) as (Al & _ & Le).
  destruct (p_word p) as [|c w]; [destruct (p_label p); discriminate|]. right. cbn [app]. eexists; eexists; split; [reflexivity|].
  right. cbn in Al. now apply andb_prop in Al.
Qed.

Lemma tokenize_parts ts tl : after_part tl ->
  (forall fuel n room, n <= 23 -> 4 <= room -> (length tl <= fuel)%nat -> tokenize (S fuel) n room tl = Ok ts) ->
  forall ps fuel n room, Forall part_ok ps -> n + 2 * Z.of_nat (length ps) <= 23 -> 4 + 11 * Z.of_nat (length ps) <= room ->
  (length (parts_text ps ++ tl) <= fuel)%nat ->
  tokenize (S fuel) n room (parts_text ps ++ tl) = Ok (parts_tokens ps ++ ts).
Proof.
  intros A T. induction ps as [|p ps IH]; intros fuel n room F N R L.
  - apply T; [cbn in N; lia|cbn in R; lia|exact L].
  - inversion F as [|? ? P F']; subst. cbn [parts_text flat_map parts_tokens]. cbn [length] in N, R.
    fold (parts_text ps) (parts_tokens ps). pose proof (part_len p P) as Ln. pose proof (part_word_len p P) as Lw.
    cbn [parts_text flat_map] in L. fold (parts_text ps) in L. unfold part_text in *.
    rewrite !app_length in L.
    replace (((p_word p ++ spaced_by (p_gap p) ++ part_number p ++ spaced_by (p_sep p)) ++ parts_text ps) ++ tl)
      with (p_word p ++ spaced_by (p_gap p) ++ part_number p ++ (spaced_by (p_sep p) ++ parts_text ps ++ tl)) by (rewrite <- !app_assoc; reflexivity).
    destruct fuel as [|[|fuel]]; [lia|lia|].
    destruct (tokenize_part p (spaced_by (p_sep p) ++ parts_text ps ++ tl) (S fuel) n room P) as (room' & Hr & ->); [|lia|lia|].
    { destruct (p_sep p); cbn [spaced_by app]; [right; eexists; eexists; split; [reflexivity|now left]|now apply parts_after]. }
    assert (tokenize (S fuel) (n + 2) room' (spaced_by (p_sep p) ++ parts_text ps ++ tl) = tokenize (S fuel) (n + 2) room' (parts_text ps ++ tl)) as ->
      by (destruct (p_sep p); [apply tokenize_space|reflexivity]).
    rewrite IH; [cbn [bind]; now rewrite <- app_assoc|exact F'|lia|lia|rewrite app_length; lia].
Qed.

Lemma tail_after x e : after_part (half_text x ++ era_text e).
Proof.
  destruct (half_after x e) as [E|(c & r & E & H)]; [now left|right; exists c, r]. split; [exact E|].
  destruct H as [->|[->| ->]]; auto.
Qed.
Lemma tail_part_tokens x e fuel n room : n <= 23 -> 4 <= room -> (length (half_text x ++ era_text e) <= fuel)%nat ->
  tokenize (S fuel) n room (half_text x ++ era_text e) = Ok (half_tokens x ++ mark_tokens e).
Proof.
  intros N R L. rewrite app_length in L.
  assert (half_count x <= length (half_text x))%nat as Hh by (destruct x as [|[]|[]]; cbn; lia).
  replace (S fuel) with (half_count x + S (fuel - half_count x))%nat by lia.
  rewrite tokenize_half; [|lia|lia|destruct e; [now left|right; eexists; reflexivity|right; eexists; reflexivity]].
  rewrite tokenize_mark'; [reflexivity|destruct x; cbn; lia|destruct x; cbn [half_size]; lia|].
  lia.
Qed.

Lemma parts_parse ps x e : Forall part_ok ps -> (length ps <= 7)%nat -> ps <> [] ->
  parse_date_time (parts_text ps ++ half_text x ++ era_text e) = Ok (parts_tokens ps ++ half_tokens x ++ mark_tokens e).
Proof.
  intros F L N. rewrite parse_date_time_cons.
  - apply tokenize_parts; [apply tail_after|intros; now apply tail_part_tokens|exact F|lia|lia|lia].
  - destruct F as [|p ps P F]; [easy|]. pose proof (part_word_len p P). cbn [parts_text flat_map]. unfold part_text.
    destruct (p_word p); [cbn in *; lia|discriminate].
Qed.

(** ** Fields *)
Definition label_type (l : label) : tfield :=
  match l with Ly => KYear | Lm => KMonth | Ld => KDay | Lh => KHour | Lmm => KMinute | Ls => KSecond end.
Definition bit {A} (o : option A) (b : Z) : Z := match o with Some _ => b | None => 0 end.
Definition said_mask (g : said) : Z :=
  Z.lor (bit (g_year g) (mask YEAR)) (Z.lor (bit (g_month g) (mask MONTH)) (Z.lor (bit (g_day g) (mask DAY))
  (Z.lor (bit (g_hour g) (mask HOUR)) (Z.lor (bit (g_minute g) (mask MINUTE))
  match g_second g with None => 0 | Some (_, None) => mask SECOND | Some (_, Some _) => DTK_ALL_SECS_M end)))).
Definition said_tm (g : said) : pgtime :=
  mkTm (seconds g) (or_zero (g_minute g)) (or_zero (g_hour g)) (or_zero (g_day g)) (or_zero (g_month g)) (or_zero (g_year g)) 0 0 (-1).
Definition said_ctx (g : said) (tk : Z) : ctx :=
  mkCtx (said_tm g) KDate (fraction g) (said_mask g) tk KNumber false false false HR24 false.

Lemma label_special l : decode_special (label_word l) = Ok (UNITS, kcode (label_type l)).
Proof. destruct l; vm_compute; reflexivity. Qed.
Lemma label_tfield l : tfield_of (kcode (label_type l)) = Ok (label_type l).
Proof. destruct l; vm_compute; reflexivity. Qed.
Lemma has_0 m : has m 0 = false.
Proof. unfold has. now rewrite Z.land_0_r. Qed.

Lemma label_merge l g tk : merge_mask (c_set_ptype (label_type l) (c_set_tmask 0 (c_set_tmask (mask UNITS) (said_ctx g tk))))
  = Ok (c_set_ptype (label_type l) (said_ctx g 0)).
Proof.
  unfold merge_mask. cbn [c_fmask c_tmask c_set_ptype c_set_tmask said_ctx]. rewrite has_0, Z.lor_0_r. reflexivity.
Qed.
Lemma label_field md order l next g tk :
  date_time_field md order (Some KString, label_word l) next (said_ctx g tk) = Ok (c_set_ptype (label_type l) (said_ctx g 0)).
Proof.
  unfold date_time_field, decode_string_token. cbn [fst snd read_type bind]. rewrite label_special. cbn [bind].
  change (tteq UNITS IgnoreDtf) with false. cbv iota. rewrite label_tfield. cbn [bind]. apply label_merge.
Qed.
Lemma label_time_field md order id tys l next g tk :
  time_only_field md order id tys (Some KString, label_word l) next (said_ctx g tk) = Ok (c_set_ptype (label_type l) (said_ctx g 0)).
Proof.
  unfold time_only_field, time_string_token. cbn [fst snd read_type bind]. rewrite label_special. cbn [bind].
  change (tteq UNITS IgnoreDtf) with false. cbv iota. rewrite label_tfield. cbn [bind]. apply label_merge.
Qed.

Lemma part_str p : part_ok p -> str2i32 (part_number p) = Ok (digits_value (p_num p), match p_frac p with [] => [] | f => 46 :: f end).
Proof.
  intros P. pose proof P as (_ & D & L & _).
  assert (short_digits (p_num p)) as S by (split; [exact D|destruct (p_label p); lia]).
  unfold part_number. destruct (p_frac p).
  - rewrite app_nil_r. now apply sd_str0.
  - now apply sd_str.
Qed.

Lemma number_step md p g : part_ok p ->
  match say p g with
  | Some g' => exists tk, (let* c := prefixed_number md (part_number p) (c_set_ptype (label_type (p_label p)) (said_ctx g 0)) in merge_mask c) = Ok (said_ctx g' tk)
  | None => (let* c := prefixed_number md (part_number p) (c_set_ptype (label_type (p_label p)) (said_ctx g 0)) in merge_mask c) = Err EInvalid
  end.
Proof.
  intros P. unfold prefixed_number. rewrite (part_str p P). cbn [bind c_ptype c_set_ptype].
  pose proof P as (_ & _ & _ & Ff & Fl).
  destruct (p_label p) eqn:El.
  all: try (assert (p_frac p = []) as Ef by (destruct (p_frac p); [reflexivity|discriminate Fl; discriminate]); rewrite Ef).
  6:{ unfold say. rewrite El. destruct (p_frac p) as [|c f] eqn:Ef.
      - cbn [label_type bind]. destruct g as [y m d h mi [[]|]]; cbn [g_second].
        + destruct o, y, m, d, h, mi; reflexivity.
        + destruct y, m, d, h, mi; eexists; reflexivity.
      - cbn [label_type]. change (46 =? 46) with true. change (dot_prefix KSecond) with true. cbn [andb bind].
        rewrite parse_micros by exact Ff. cbn [bind].
        destruct g as [y m d h mi [[]|]]; cbn [g_second].
        + destruct o, y, m, d, h, mi; reflexivity.
        + destruct y, m, d, h, mi; eexists; reflexivity. }
  all: unfold say; rewrite El; cbn [label_type bind].
  all: destruct g as [y m d h mi s]; destruct y, m, d, h, mi, s as [[? []]|]; first [reflexivity|eexists; reflexivity].
Qed.

Lemma said_fields md order r ps : Forall part_ok ps -> forall g tk,
  match say_all ps g with
  | Some g' => exists tk', date_time_fields md order (parts_tokens ps ++ r) (said_ctx g tk) = date_time_fields md order r (said_ctx g' tk')
  | None => date_time_fields md order (parts_tokens ps ++ r) (said_ctx g tk) = Err EInvalid
  end.
Proof.
  induction 1 as [|p ps P F IH]; intros g tk; cbn [say_all parts_tokens flat_map part_tokens app]; [eauto|].
  fold (parts_tokens ps). cbn [date_time_fields]. rewrite label_field. cbn [bind].
  unfold date_time_field. cbn [fst snd read_type bind]. unfold decode_number_token.
  replace (is_num (c_ptype (c_set_ptype (label_type (p_label p)) (said_ctx g 0)))) with false by (destruct (p_label p); reflexivity).
  cbn [negb]. pose proof (number_step md p g P) as Sn. destruct (say p g) as [g'|].
  - destruct Sn as [tk' ->]. cbn [bind]. apply IH.
  - rewrite Sn. reflexivity.
Qed.
Lemma said_time_fields md order tys r ps : Forall part_ok ps -> forall id g tk,
  match say_all ps g with
  | Some g' => exists tk' id', time_only_fields md order id tys (parts_tokens ps ++ r) (said_ctx g tk) = time_only_fields md order id' tys r (said_ctx g' tk')
  | None => time_only_fields md order id tys (parts_tokens ps ++ r) (said_ctx g tk) = Err EInvalid
  end.
Proof.
  induction 1 as [|p ps P F IH]; intros id g tk; cbn [say_all parts_tokens flat_map part_tokens app]; [eauto|].
  fold (parts_tokens ps). cbn [time_only_fields]. rewrite label_time_field. cbn [bind].
  unfold time_only_field. cbn [fst snd read_type bind]. unfold time_number_token.
  replace (is_num (c_ptype (c_set_ptype (label_type (p_label p)) (said_ctx g 0)))) with false by (destruct (p_label p); reflexivity).
  cbn [negb]. pose proof (number_step md p g P) as Sn. destruct (say p g) as [g'|].
  - destruct Sn as [tk' ->]. cbn [bind]. apply IH.
  - rewrite Sn. reflexivity.
Qed.

(** ** What is said *)
Definition clock_number (o : option Z) : Prop := match o with Some v => 0 <= v <= 99 | None => True end.
Definition said_ok (g : said) : Prop :=
  (forall y, g_year g = Some y -> exists Y, Forall digit Y /\ (1 <= length Y <= 5)%nat /\ digits_value Y = y)
  /\ clock_number (g_hour g) /\ clock_number (g_minute g)
  /\ match g_second g with Some (s, o) => 0 <= s <= 99 /\ match o with Some us => 0 <= us < 1000000 | None => True end | None => True end.
Lemma nothing_ok : said_ok nothing.
Proof. repeat split. intros y [=]. Qed.
Lemma small_number t : Forall digit t -> (1 <= length t <= 2)%nat -> 0 <= digits_value t <= 99.
Proof.
  intros F L. pose proof (digits_value_bound _ F) as B. pose proof (Z.pow_le_mono_r 10 (Z.of_nat (length t)) 2 ltac:(lia) ltac:(lia)).
  change (10 ^ 2) with 100 in *. lia.
Qed.
Lemma say_ok p g g' : part_ok p -> said_ok g -> say p g = Some g' -> said_ok g'.
Proof.
  intros (_ & D & L & Ff & Fl) (O1 & O2 & O3 & O4) E. unfold say in E. destruct g as [y m d h mi s].
  cbn [g_year g_hour g_minute g_second] in *.
  destruct (p_label p).
  - destruct y; [discriminate|]. injection E as <-. split; [|auto]. cbn. intros y [= <-]. eauto.
  - pose proof (small_number _ D L). destruct m, h, mi; try discriminate; injection E as <-; split; cbn in *; auto.
  - destruct d; [discriminate|]. injection E as <-. split; cbn; auto.
  - pose proof (small_number _ D L). destruct h; [discriminate|]. injection E as <-. split; cbn; auto.
  - pose proof (small_number _ D L). destruct mi; [discriminate|]. injection E as <-. split; cbn; auto.
  - pose proof (small_number _ D L). destruct s; [discriminate|]. injection E as <-. split; cbn; auto.
    split; [exact O2|]. split; [exact O3|]. split; [assumption|]. pose proof (micros_bound _ Ff). destruct (p_frac p); [exact I|assumption].
Qed.
Lemma say_all_ok ps : Forall part_ok ps -> forall g g', said_ok g -> say_all ps g = Some g' -> said_ok g'.
Proof.
  induction 1 as [|p ps P F IH]; intros g g' O E; cbn in E; [now injection E as <-|].
  destruct (say p g) as [g1|] eqn:Es; [|discriminate]. eapply IH; [|exact E]. eapply say_ok; eauto.
Qed.
Lemma said_bounds g : said_ok g -> 0 <= or_zero (g_hour g) <= 99 /\ 0 <= or_zero (g_minute g) <= 99 /\ 0 <= seconds g <= 99 /\ 0 <= fraction g < 1000000.
Proof.
  intros (_ & A & B & C). unfold seconds, fraction. destruct g as [y m d [h|] [mi|] [[s [us|]]|]]; cbn in *; lia.
Qed.

Definition padded (Y : bytes) : bytes := 48 :: 48 :: Y.
Lemma padded_value Y : digits_value (padded Y) = digits_value Y.
Proof. reflexivity. Qed.
Lemma padded_year e Y : Forall digit Y -> (1 <= length Y)%nat -> meant_year e (padded Y) = labelled_year e (digits_value Y).
Proof.
  intros D L. pose proof (digits_value_bound _ D) as B. unfold meant_year, labelled_year. rewrite padded_value.
  replace (length (padded Y) <=? 2)%nat with false by (symmetry; apply Nat.leb_gt; cbn; lia).
  destruct (Z.leb_spec (digits_value Y) 0), (Z.eqb_spec (digits_value Y) 0); try lia; destruct e; reflexivity.
Qed.

Lemma ctx_0 : ctx_new = said_ctx nothing 0.
Proof. reflexivity. Qed.
Lemma said_free g : has (said_mask g) (mask AMPM) = false /\ has (said_mask g) (mask ADBC) = false
  /\ has (Z.lor (said_mask g) (mask AMPM)) (mask ADBC) = false /\ has (said_mask g) (mask DOY) = false.
Proof. destruct g as [[] [] [] [] [] [[? []]|]]; repeat split; reflexivity. Qed.

Lemma labels_fields md order ps x e g : Forall part_ok ps -> say_all ps nothing = Some g ->
  exists tk, date_time_fields md order (parts_tokens ps ++ half_tokens x ++ mark_tokens e) ctx_new = Ok (mark_ctx e (half_ctx x (said_ctx g tk))).
Proof.
  intros F E. pose proof (said_fields md order (half_tokens x ++ mark_tokens e) ps F nothing 0) as K. rewrite E in K. destruct K as [tk K].
  exists tk. rewrite ctx_0, K. destruct (said_free g) as (H1 & H2 & H3 & H4).
  rewrite half_fields by exact H1. apply mark_fields. destruct x; [exact H2|exact H3|exact H3].
Qed.

Lemma labels_carried md order ps x e g y m d : Forall part_ok ps -> say_all ps nothing = Some g ->
  g_year g = Some y -> g_month g = Some m -> g_day g = Some d ->
  exists Y, (forall n, meant_day e Y m d n <-> labelled_day e g n) /\
    carried md order (parts_tokens ps ++ half_tokens x ++ mark_tokens e) e Y m d (or_zero (g_minute g)) (seconds g) (fraction g)
      (carried_clock x (or_zero (g_hour g)) (or_zero (g_minute g)) (seconds g) (fraction g)).
Proof.
  intros F E Ey Em Ed. pose proof (say_all_ok ps F nothing g nothing_ok E) as Ok0. pose proof (said_bounds g Ok0) as (Bh & _).
  destruct Ok0 as (OY & _). destruct (OY y Ey) as (Y & DY & LY & VY). exists (padded Y). split.
  - intros n. unfold meant_day, labelled_day. rewrite padded_year by (assumption || lia). rewrite VY. split.
    + intros (y' & A & B & C). exists y, y', m, d. auto 8.
    + intros (y0 & y' & m0 & d0 & A1 & A2 & A3 & A4 & A5 & A6). exists y'. rewrite Ey in A1. rewrite Em in A2. rewrite Ed in A3.
      injection A1 as <-. injection A2 as <-. injection A3 as <-. auto.
  - destruct (labels_fields md order ps x e g F E) as [tk K].
    apply (carried_end md order _ e (padded Y) m d _ _ _ _ x _ K).
    + unfold end_ctx. split; [|split; [|split; [|split; [|split; [|split]]]]].
      * destruct g as [gy gm gd h mi s]. cbn in Ey, Em, Ed. subst. destruct h, mi, s as [[? []]|], x, e; reflexivity.
      * destruct x, e; reflexivity.
      * replace (length (padded Y) <=? 2)%nat with false by (symmetry; apply Nat.leb_gt; cbn; lia). destruct x, e; reflexivity.
      * destruct x, e; reflexivity.
      * destruct x, e; reflexivity.
      * destruct x, e; reflexivity.
      * rewrite padded_value, VY. destruct g; cbn in Ey; subst. destruct x, e; reflexivity.
    + split; [|cbn; lia]. repeat constructor; try exact DY; unfold digit; lia.
    + exact Bh.
    + destruct x, e; reflexivity.
    + destruct g; cbn in Em; subst. destruct x, e; reflexivity.
    + destruct g; cbn in Ed; subst. destruct x, e; reflexivity.
    + destruct x, e; reflexivity.
    + destruct x, e; reflexivity.
    + destruct x, e; reflexivity.
Qed.

Definition all_said (g : said) : Prop := g_year g <> None /\ g_month g <> None /\ g_day g <> None.

Lemma labels_ts md order ps x e g p : Forall part_ok ps -> (length ps <= 7)%nat -> say_all ps nothing = Some g -> all_said g ->
  let r := timestamp_try_from_str md (parts_text ps ++ half_text x ++ era_text e) p order in
  let c := carried_clock x (or_zero (g_hour g)) (or_zero (g_minute g)) (seconds g) (fraction g) in
  (forall n k, labelled_day e g n -> c = Some k -> valid_ts (n * usecs_day + k) -> r = timestamp_adjust_by_typmod md (n * usecs_day + k) p)
  /\ ((forall n k, labelled_day e g n -> c = Some k -> ~ valid_ts (n * usecs_day + k)) -> exists er, r = Err er).
Proof.
  intros F L E (Ny & Nm & Nd) r c.
  destruct (g_year g) as [y|] eqn:Ey; [|easy]. destruct (g_month g) as [m|] eqn:Em; [|easy]. destruct (g_day g) as [d|] eqn:Ed; [|easy].
  assert (ps <> []) as N by (intros ->; injection E as <-; discriminate).
  destruct (labels_carried md order ps x e g y m d F E Ey Em Ed) as (Y & MD & C).
  pose proof (say_all_ok ps F nothing g nothing_ok E) as Ok0. pose proof (said_bounds g Ok0) as (_ & Bm & Bs & Bu).
  destruct (carried_ts md order _ _ Y m d _ _ _ e _ p (parts_parse ps x e F L N) C Bm Bs Bu) as [H1 H2]. split.
  - intros n k Ln. apply H1, MD, Ln.
  - intros H. apply H2. intros n k Mn. apply H, MD, Mn.
Qed.
Lemma labels_date md order ps x e g : Forall part_ok ps -> (length ps <= 7)%nat -> say_all ps nothing = Some g -> all_said g ->
  let r := date_try_from_str md (parts_text ps ++ half_text x ++ era_text e) order in
  let c := carried_clock x (or_zero (g_hour g)) (or_zero (g_minute g)) (seconds g) (fraction g) in
  (forall n, labelled_day e g n -> c <> None -> valid_date n -> r = Ok n)
  /\ ((forall n, labelled_day e g n -> c <> None -> ~ valid_date n) -> exists er, r = Err er).
Proof.
  intros F L E (Ny & Nm & Nd) r c.
  destruct (g_year g) as [y|] eqn:Ey; [|easy]. destruct (g_month g) as [m|] eqn:Em; [|easy]. destruct (g_day g) as [d|] eqn:Ed; [|easy].
  assert (ps <> []) as N by (intros ->; injection E as <-; discriminate).
  destruct (labels_carried md order ps x e g y m d F E Ey Em Ed) as (Y & MD & C).
  destruct (carried_date md order _ _ Y m d _ _ _ e _ (parts_parse ps x e F L N) C) as [H1 H2]. split.
  - intros n Ln. apply H1, MD, Ln.
  - intros H. apply H2. intros n Mn. apply H, MD, Mn.
Qed.

(** ** Refused *)
Lemma labels_twice md order ps x e p : Forall part_ok ps -> (length ps <= 7)%nat -> say_all ps nothing = None ->
  timestamp_try_from_str md (parts_text ps ++ half_text x ++ era_text e) p order = Err EInvalid
  /\ date_try_from_str md (parts_text ps ++ half_text x ++ era_text e) order = Err EInvalid.
Proof.
  intros F L E. assert (ps <> []) as N by (intros ->; discriminate).
  pose proof (said_fields md order (half_tokens x ++ mark_tokens e) ps F nothing 0) as K. rewrite E in K.
  unfold timestamp_try_from_str, date_try_from_str. rewrite parts_parse by assumption. cbn [bind].
  unfold decode_date_time. rewrite ctx_0, K. auto.
Qed.

Lemma validate_tame md fm bc tm : 0 <= tm_year tm <= 99999 -> has fm (mask DOY) = false -> Z.land fm DTK_DATE_M =? DTK_DATE_M = false ->
  (exists y, validate_date md fm false false bc tm = Ok (set_year y tm)) \/ exists er, validate_date md fm false false bc tm = Err er.
Proof.
  intros B Hd Hf. unfold validate_date. rewrite Hd, Hf.
  assert (forall t, (exists y, t = set_year y tm) ->
    (exists y, (if has fm (mask MONTH) && ((tm_mon t <? 1) || (MONTHS_PER_YEAR <? tm_mon t)) then Err EOverflow
      else if has fm (mask DAY) && ((tm_mday t <? 1) || (31 <? tm_mday t)) then Err EOverflow else Ok t) = Ok (set_year y tm))
    \/ exists er, (if has fm (mask MONTH) && ((tm_mon t <? 1) || (MONTHS_PER_YEAR <? tm_mon t)) then Err EOverflow
      else if has fm (mask DAY) && ((tm_mday t <? 1) || (31 <? tm_mday t)) then Err EOverflow else Ok t) = Err er) as K.
  { intros t [y ->]. destruct (_ && _); [right; eauto|]. destruct (_ && _); [right; eauto|left; eauto]. }
  assert (exists y, tm = set_year y tm) as S0 by (exists (tm_year tm); destruct tm; reflexivity).
  destruct (has fm (mask YEAR)); [|cbn [bind]; now apply K].
  destruct bc.
  - destruct (tm_year tm <=? 0); cbn [bind]; [right; eauto|]. ar_unfold. ar1. ar_unfold. ar1. apply K. eauto.
  - destruct (tm_year tm <=? 0); cbn [bind]; [right; eauto|now apply K].
Qed.

Definition date_missing (g : said) : Prop := g_year g = None \/ g_month g = None \/ g_day g = None.
Definition clock_missing (g : said) : Prop :=
  g_hour g = None \/ g_minute g = None \/ match g_second g with Some (_, Some _) => False | _ => True end.

Lemma labels_incomplete md order ps x e g p : Forall part_ok ps -> (length ps <= 7)%nat -> ps <> [] -> say_all ps nothing = Some g ->
  date_missing g -> clock_missing g ->
  (exists er, timestamp_try_from_str md (parts_text ps ++ half_text x ++ era_text e) p order = Err er)
  /\ (exists er, date_try_from_str md (parts_text ps ++ half_text x ++ era_text e) order = Err er).
Proof.
  intros F L N E Md Mc. destruct (labels_fields md order ps x e g F E) as [tk K].
  assert (exists er, decode_date_time md order (parts_tokens ps ++ half_tokens x ++ mark_tokens e) = Err er) as [er D].
  2:{ unfold timestamp_try_from_str, date_try_from_str. rewrite parts_parse by assumption. cbn [bind]. rewrite D. cbn [bind]. split; eexists; reflexivity. }
  unfold decode_date_time. rewrite K. cbn [bind]. set (c := mark_ctx e (half_ctx x (said_ctx g tk))).
  assert (c_tm c = said_tm g /\ c_2d c = false /\ c_julian c = false /\ c_dtype c = KDate) as (-> & -> & -> & ->)
    by (subst c; destruct x, e; repeat split).
  assert (Z.land (c_fmask c) DTK_DATE_M =? DTK_DATE_M = false /\ Z.land (c_fmask c) DTK_TIME_M =? DTK_TIME_M = false
    /\ has (c_fmask c) (mask DOY) = false) as (M1 & M2 & M3).
  { assert (exists a, c_fmask c = Z.lor (said_mask g) a /\ Z.land a DTK_DATE_M = 0 /\ Z.land a DTK_TIME_M = 0 /\ has a (mask DOY) = false) as (a & -> & A1 & A2 & A3).
    { exists (Z.lor (match x with NoHalf => 0 | _ => mask AMPM end) (match e with Unmarked => 0 | _ => mask ADBC end)).
      split; [|destruct x, e; repeat split; reflexivity].
      subst c. rewrite Z.lor_assoc. destruct x, e; rewrite ?Z.lor_0_r; reflexivity. }
    rewrite !Z.land_lor_distr_l, A1, A2, !Z.lor_0_r. unfold has in A3 |- *. rewrite Z.land_lor_distr_l.
    assert (Z.land a (mask DOY) = 0) as -> by (apply negb_false_iff in A3; lia). rewrite Z.lor_0_r.
    unfold date_missing, clock_missing in *. destruct g as [y m d h mi s]. cbn [g_year g_month g_day g_hour g_minute g_second] in *.
    split; [|split].
    - destruct Md as [->|[->| ->]]; [destruct m, d|destruct y, d|destruct y, m]; destruct h, mi, s as [[? []]|]; reflexivity.
    - destruct Mc as [->|[->|Ms]]; [destruct mi, s as [[? []]|]|destruct h, s as [[? []]|]|destruct s as [[? []]|]; [easy|destruct h, mi|destruct h, mi]];
        destruct y, m, d; reflexivity.
    - destruct y, m, d, h, mi, s as [[? []]|]; reflexivity. }
  rewrite M1, M2. change (tfeq KDate KDate) with true. cbn [negb andb].
  pose proof (say_all_ok ps F nothing g nothing_ok E) as Ok0. pose proof (said_bounds g Ok0) as (Bh & _). destruct Ok0 as (OY & _).
  destruct (validate_tame md (c_fmask c) (c_bc c) (said_tm g)) as [[y ->]|[er ->]]; [|exact M3|exact M1| |cbn [bind]; eauto].
  { cbn [tm_year said_tm]. destruct (g_year g) as [y|]; cbn [or_zero]; [|lia]. destruct (OY y eq_refl) as (Y & DY & LY & <-).
    pose proof (digits_value_bound _ DY) as B. pose proof (Z.pow_le_mono_r 10 (Z.of_nat (length Y)) 5 ltac:(lia) ltac:(lia)).
    change (10 ^ 5) with 100000 in *. lia. }
  cbn [bind]. replace (c_mer c) with (half_code x) by (subst c; destruct x, e; reflexivity).
  rewrite apply_half by (cbn; rng; lia). destruct x as [|b|b]; cbn [bind]; [eauto|destruct (meant_hour _ _); cbn [bind]; eauto..].
Qed.

(** ** Times of day *)
Definition clock_label (p : part) : Prop := p_label p = Lh \/ p_label p = Lmm \/ p_label p = Ls.
Lemma say_clock p g g' : clock_label p -> g_year g = None -> g_month g = None -> g_day g = None -> say p g = Some g' ->
  g_year g' = None /\ g_month g' = None /\ g_day g' = None.
Proof.
  intros C A1 A2 A3 E. destruct g as [y m d h mi s]. cbn in A1, A2, A3. subst. unfold say in E.
  destruct C as [C|[C|C]]; rewrite C in E; [destruct h|destruct mi|destruct s]; try discriminate; injection E as <-; auto.
Qed.
Lemma say_all_clock ps : Forall clock_label ps -> forall g g', g_year g = None -> g_month g = None -> g_day g = None -> say_all ps g = Some g' ->
  g_year g' = None /\ g_month g' = None /\ g_day g' = None.
Proof.
  induction 1 as [|p ps P F IH]; intros g g' A1 A2 A3 E; cbn in E; [injection E as <-; auto|].
  destruct (say p g) as [g1|] eqn:Es; [|discriminate]. destruct (say_clock p g g1 P A1 A2 A3 Es) as (B1 & B2 & B3). eapply IH; eauto.
Qed.

Lemma parts_parse_time ps x : Forall part_ok ps -> (length ps <= 7)%nat -> ps <> [] ->
  parse_date_time (parts_text ps ++ half_text x) = Ok (parts_tokens ps ++ half_tokens x).
Proof.
  intros F L N. pose proof (parts_parse ps x Unmarked F L N) as P. cbn [era_text mark_tokens] in P. now rewrite !app_nil_r in P.
Qed.

Lemma labels_time md order ps x p g : Forall part_ok ps -> Forall clock_label ps -> (length ps <= 7)%nat -> ps <> [] ->
  say_all ps nothing = Some g ->
  time_try_from_str md (parts_text ps ++ half_text x) p order =
  match meant_clock x (or_zero (g_hour g)) (or_zero (g_minute g)) (seconds g) (fraction g) with
  | Some k => time_adjust_by_typmod md k p | None => Err EOverflow end.
Proof.
  intros F C L N E. unfold time_try_from_str. rewrite parts_parse_time by assumption. cbn [bind]. unfold decode_time_only.
  pose proof (said_time_fields md order (List.map fst (parts_tokens ps ++ half_tokens x)) (half_tokens x) ps F 0%nat nothing 0) as K.
  rewrite E in K. destruct K as (tk & id & K). rewrite <- ctx_0 in K. rewrite K. destruct (said_free g) as (H1 & _).
  rewrite half_time_only by exact H1. cbn [bind].
  destruct (say_all_clock ps C nothing g eq_refl eq_refl eq_refl E) as (A1 & A2 & A3).
  pose proof (said_bounds g (say_all_ok ps F nothing g nothing_ok E)) as (Bh & Bm & Bs & Bu).
  assert (said_ctx g tk = mkCtx (mkTm (seconds g) (or_zero (g_minute g)) (or_zero (g_hour g)) 0 0 0 0 0 (-1)) KDate (fraction g) (said_mask g) tk KNumber false false false HR24 false) as ->
    by (unfold said_ctx, said_tm; now rewrite A1, A2, A3).
  apply time_finish; try lia.
  destruct g as [y m d h mi s]. cbn in A1, A2, A3. subst. destruct x, h, mi, s as [[? []]|]; reflexivity.
Qed.
Lemma labels_time_twice md order ps x p : Forall part_ok ps -> (length ps <= 7)%nat -> say_all ps nothing = None ->
  time_try_from_str md (parts_text ps ++ half_text x) p order = Err EInvalid.
Proof.
  intros F L E. assert (ps <> []) as N by (intros ->; discriminate).
  unfold time_try_from_str. rewrite parts_parse_time by assumption. cbn [bind]. unfold decode_time_only.
  pose proof (said_time_fields md order (List.map fst (parts_tokens ps ++ half_tokens x)) (half_tokens x) ps F 0%nat nothing 0) as K.
  rewrite E in K. rewrite <- ctx_0 in K. rewrite K. reflexivity.
Qed.

(** ** The order of the parts *)
Definition is_m (p : part) : bool := match p_label p with Lm => true | _ => false end.
Definition ms (ps : list part) : nat := length (filter is_m ps).
Lemma ms_perm ps qs : Permutation ps qs -> ms ps = ms qs.
Proof.
  unfold ms. induction 1 as [|p ps qs _ IH|p q ps|ps qs rs _ IH1 _ IH2]; cbn; [reflexivity| | |congruence].
  - destruct (is_m p); cbn; lia.
  - destruct (is_m p), (is_m q); reflexivity.
Qed.
Lemma say_month p g g' : is_m p = false -> say p g = Some g' -> g_month g' = g_month g.
Proof.
  unfold is_m, say. intros N E. destruct g as [y m d h mi s]. destruct (p_label p); [|discriminate| | | |];
    [destruct y|destruct d|destruct h|destruct mi|destruct s]; try discriminate; injection E as <-; reflexivity.
Qed.
Lemma say_swap p q g : (is_m p = true -> is_m q = true -> False) -> (is_m p = true \/ is_m q = true -> g_month g = None) ->
  match say p g with Some g' => say q g' | None => None end = match say q g with Some g' => say p g' | None => None end.
Proof.
  unfold is_m, say. intros A B. destruct g as [y m d h mi s]. cbn [g_month] in B.
  destruct (p_label p), (p_label q); try (now destruct A); try (rewrite B by auto);
    destruct y, d, h, mi, s; try reflexivity; destruct m; reflexivity.
Qed.
Lemma say_all_perm ps qs : Permutation ps qs -> forall g, (ms ps <= 1)%nat -> (ms ps = 0%nat \/ g_month g = None) -> say_all ps g = say_all qs g.
Proof.
  induction 1 as [|p ps qs Pm IH|p q ps|ps qs rs P1 IH1 P2 IH2]; intros g L A; [reflexivity| | |].
  - cbn [say_all]. destruct (say p g) as [g'|] eqn:E; [|reflexivity]. unfold ms in *. cbn in L, A. destruct (is_m p) eqn:Em; cbn in L, A.
    + apply IH; lia.
    + apply IH; [exact L|]. destruct A as [A|A]; [now left|right]. now rewrite (say_month p g g').
  - assert (match say q g with Some g' => say p g' | None => None end = match say p g with Some g' => say q g' | None => None end) as K.
    { unfold ms in *. cbn in L, A. apply say_swap.
      - intros E1 E2. rewrite E1, E2 in L. cbn in L. lia.
      - intros H. destruct A as [A|A]; [|exact A]. destruct (is_m p), (is_m q); try discriminate. destruct H; discriminate. }
    cbn [say_all]. destruct (say q g) as [g1|], (say p g) as [g2|]; [rewrite K|rewrite K|rewrite <- K|]; reflexivity.
  - rewrite IH1 by assumption. apply IH2; rewrite <- (ms_perm _ _ P1); assumption.
Qed.

Lemma ms_le_perm ps qs : Permutation ps qs -> (ms ps <= 1)%nat -> say_all ps nothing = say_all qs nothing.
Proof. intros P L. apply say_all_perm; [exact P|exact L|now right]. Qed.

Lemma labels_order md order ps qs x e : Forall part_ok ps -> Permutation ps qs -> (ms ps <= 1)%nat ->
  decode_date_time md order (parts_tokens ps ++ half_tokens x ++ mark_tokens e)
  = decode_date_time md order (parts_tokens qs ++ half_tokens x ++ mark_tokens e).
Proof.
  intros F P L. pose proof (ms_le_perm ps qs P L) as E. assert (Forall part_ok qs) as F' by (eapply Permutation_Forall; eauto).
  unfold decode_date_time. destruct (say_all ps nothing) as [g|] eqn:Eg.
  - destruct (labels_fields md order ps x e g F Eg) as [tk ->]. destruct (labels_fields md order qs x e g F' (eq_sym E)) as [tk' ->].
    destruct x, e; reflexivity.
  - pose proof (said_fields md order (half_tokens x ++ mark_tokens e) ps F nothing 0) as K. rewrite Eg in K.
    pose proof (said_fields md order (half_tokens x ++ mark_tokens e) qs F' nothing 0) as K'. rewrite <- E in K'.
    now rewrite ctx_0, K, K'.
Qed.
Lemma labels_time_order md order ps qs x : Forall part_ok ps -> Permutation ps qs -> (ms ps <= 1)%nat ->
  decode_time_only md order (parts_tokens ps ++ half_tokens x) = decode_time_only md order (parts_tokens qs ++ half_tokens x).
Proof.
  intros F P L. pose proof (ms_le_perm ps qs P L) as E. assert (Forall part_ok qs) as F' by (eapply Permutation_Forall; eauto).
  unfold decode_time_only.
  pose proof (said_time_fields md order (List.map fst (parts_tokens ps ++ half_tokens x)) (half_tokens x) ps F 0%nat nothing 0) as K.
  pose proof (said_time_fields md order (List.map fst (parts_tokens qs ++ half_tokens x)) (half_tokens x) qs F' 0%nat nothing 0) as K'.
  rewrite <- E in K'. destruct (say_all ps nothing) as [g|].
  - destruct K as (tk & id & K), K' as (tk' & id' & K'). rewrite ctx_0, K, K'. destruct (said_free g) as (H1 & _).
    rewrite !half_time_only by exact H1. destruct x; reflexivity.
  - now rewrite ctx_0, K, K'.
Qed.
Lemma parts_order_parse ps qs : Forall part_ok ps -> (length ps <= 7)%nat -> ps <> [] -> Permutation ps qs ->
  Forall part_ok qs /\ (length qs <= 7)%nat /\ qs <> [].
Proof.
  intros F L N P. split; [eapply Permutation_Forall; eauto|]. split; [now rewrite <- (Permutation_length P)|].
  intros ->. apply Permutation_sym, Permutation_nil in P. contradiction.
Qed.
