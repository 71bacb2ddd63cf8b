(** Weekdays and fillers at the end of a text: lemmas for C64. *)
From Verif Require Import Model.Parse Spec.Calendar Spec.Ranges Spec.Clock Spec.Text Spec.DateText Spec.TimeText Spec.Keywords Spec.Lexing Spec.DateWords Spec.Weekday
  Proofs.Arith Proofs.DigitsP Proofs.TokenP Proofs.LexP Proofs.FieldsP Proofs.SpaceP Proofs.CutP Proofs.ParseP Proofs.RoundTripP Proofs.NumDateP Proofs.ClockTextP
  Proofs.DateWordsP Proofs.DateTimeWordsP Proofs.OneWordP Proofs.ZoneP.
From Coq Require Import List ZArith Bool Lia.
Import ListNotations.
Open Scope Z_scope.

(** ** Fields *)
Lemma next_word md o (u t : token) c c' : fst t = Some KString ->
  date_time_field md o u (Some t) c = Ok c' <-> date_time_field md o u None c = Ok c'.
Proof.
  intros T. destruct t as [k f]. cbn in T. subst k. unfold date_time_field. destruct (read_type (fst u)) as [k| |]; try reflexivity. cbn [bind].
  destruct k; try reflexivity.
  all: unfold decode_string_token; destruct (decode_special (snd u)) as [[ty v]| |]; try reflexivity; cbn [bind];
    destruct (tteq ty IgnoreDtf); try reflexivity; cbv zeta; destruct ty; try reflexivity; cbn [read_type bind];
    destruct (negb (Z.land _ _ =? _)); try reflexivity; cbn; split; discriminate.
Qed.

Lemma fields_snoc md o (t : token) (ts : list token) : fst t = Some KString -> forall c c',
  date_time_fields md o (ts ++ [t]) c = Ok c' <-> exists c1, date_time_fields md o ts c = Ok c1 /\ date_time_field md o t None c1 = Ok c'.
Proof.
  intros T. induction ts as [|u ts IH]; intros c c'.
  - cbn [app date_time_fields hd_error]. split.
    + destruct (date_time_field md o t None c) as [x| |] eqn:E; try discriminate. cbn [bind]. intros [= <-]. eauto.
    + intros (c1 & [= <-] & ->). reflexivity.
  - cbn [app date_time_fields].
    assert (forall x, date_time_field md o u (hd_error (ts ++ [t])) c = Ok x <-> date_time_field md o u (hd_error ts) c = Ok x) as H.
    { intros x. destruct ts as [|v ts]; [|reflexivity]. cbn [app hd_error]. now apply next_word. }
    destruct (date_time_field md o u (hd_error (ts ++ [t])) c) as [x| |] eqn:E.
    + rewrite (proj1 (H x) eq_refl). cbn [bind]. apply IH.
    + destruct (date_time_field md o u (hd_error ts) c) as [y| |] eqn:E'; [discriminate (proj2 (H y) eq_refl)|..]; cbn [bind]; (split; [discriminate|intros (? & ? & _); discriminate]).
    + destruct (date_time_field md o u (hd_error ts) c) as [y| |] eqn:E'; [discriminate (proj2 (H y) eq_refl)|..]; cbn [bind]; (split; [discriminate|intros (? & ? & _); discriminate]).
Qed.

Lemma fields_typed_ok md o (ts : list token) : forall c c', date_time_fields md o ts c = Ok c' -> typed ts.
Proof.
  induction ts as [|[[k|] f] ts IH]; intros c c' E; [constructor| |discriminate]. cbn [date_time_fields] in E.
  destruct (date_time_field md o _ _ c) as [x| |]; try discriminate. constructor; [discriminate|]. now apply (IH x c').
Qed.

(** ** The words *)
Lemma filler_field md o u next c : filler u -> date_time_field md o (Some KString, lowers u) next c = Ok c.
Proof. intros [H|H]; rewrite (case_lowers _ _ H); reflexivity. Qed.

Definition weekday_ctx (v : Z) (c : ctx) : ctx :=
  c_set_fmask (Z.lor (c_fmask c) (mask DOW)) (c_set_tm (set_wday v (c_tm c)) (c_set_tmask (mask DOW) c)).
Lemma weekday_meaning : forallb (fun p => match decode_special (fst p) with Ok (DOW, v) => v =? snd p | _ => false end) weekday_words = true.
Proof. vm_compute. reflexivity. Qed.
Lemma weekday_field md o u : weekday_name u -> exists v, forall next c,
  date_time_field md o (Some KString, lowers u) next c = if has (c_fmask c) (mask DOW) then Err EInvalid else Ok (weekday_ctx v c).
Proof.
  intros (word & v & I & C). exists v. intros next c. rewrite (case_lowers _ _ C).
  pose proof weekday_meaning as M. rewrite forallb_forall in M. specialize (M _ I). cbn [fst snd] in M.
  unfold date_time_field. cbn [fst snd read_type bind]. unfold decode_string_token.
  destruct (decode_special word) as [[ty v']| |]; try discriminate. destruct ty; try discriminate. apply Z.eqb_eq in M. subst v'. cbn [bind].
  change (tteq DOW IgnoreDtf) with false. cbv iota zeta. cbn [bind]. unfold merge_mask. cbn [c_set_tm c_set_tmask c_set_fmask]. reflexivity.
Qed.

(** ** Finishing *)
Definition finish (md : mode) (c : ctx) : res (pgtime * tfield * Z) :=
  let* tm := validate_date md (c_fmask c) (c_julian c) (c_2d c) (c_bc c) (c_tm c) in
  let* tm := apply_mer md (c_mer c) tm in
  if tfeq (c_dtype c) KDate && negb (Z.land (c_fmask c) DTK_DATE_M =? DTK_DATE_M) then
    if Z.land (c_fmask c) DTK_TIME_M =? DTK_TIME_M then Ok (tm, c_dtype c, c_fsec c)
    else Err EInvalid
  else Ok (tm, c_dtype c, c_fsec c).
Lemma decode_finish md o ts : decode_date_time md o ts = let* c := date_time_fields md o ts ctx_new in finish md c.
Proof. reflexivity. Qed.

Lemma land_dow fm k : Z.land (mask DOW) k = 0 -> Z.land (Z.lor fm (mask DOW)) k = Z.land fm k.
Proof. intros E. rewrite Z.land_lor_distr_l, E. apply Z.lor_0_r. Qed.
Lemma validate_dow md fm j d2 bc tm v :
  validate_date md (Z.lor fm (mask DOW)) j d2 bc (set_wday v tm) = let* t := validate_date md fm j d2 bc tm in Ok (set_wday v t).
Proof.
  unfold validate_date, has. rewrite !land_dow by reflexivity.
  change (tm_year (set_wday v tm)) with (tm_year tm).
  set (Y := Z.land fm (mask YEAR)). set (D := Z.land fm (mask DOY)). set (M := Z.land fm (mask MONTH)). set (A := Z.land fm (mask DAY)). set (Dm := Z.land fm DTK_DATE_M).
  assert (forall (f : pgtime -> res pgtime) (g : pgtime -> res pgtime) (x : res pgtime) (y : res pgtime),
    y = (let* t := x in Ok (set_wday v t)) -> (forall t, g (set_wday v t) = let* t' := f t in Ok (set_wday v t')) ->
    bind y g = let* t := bind x f in Ok (set_wday v t)) as B.
  { intros f g x y -> H. destruct x; cbn [bind]; [apply H|reflexivity..]. }
  apply B.
  - repeat match goal with |- context [if ?b then _ else _] => destruct b; try reflexivity end.
    + destruct (sub32 md (tm_year tm) 1); cbn [bind]; try reflexivity. destruct (neg32 md _); reflexivity.
    + destruct (add32 md (tm_year tm) 2000); reflexivity.
    + destruct (add32 md (tm_year tm) 1900); reflexivity.
  - intros t. apply B.
    + destruct (negb (D =? 0)); [|reflexivity]. change (tm_year (set_wday v t)) with (tm_year t). change (tm_yday (set_wday v t)) with (tm_yday t).
      destruct (date2julian md _ 1 1); cbn [bind]; try reflexivity. destruct (add32 md _ _); cbn [bind]; try reflexivity.
      destruct (sub32 md _ _); cbn [bind]; try reflexivity. destruct (julian2date md _) as [[[y m] d]| |]; reflexivity.
    + intros t'. change (tm_mon (set_wday v t')) with (tm_mon t'). change (tm_mday (set_wday v t')) with (tm_mday t'). change (tm_year (set_wday v t')) with (tm_year t').
      destruct (negb (M =? 0) && _); [reflexivity|]. destruct (negb (A =? 0) && _); [reflexivity|]. destruct (Dm =? _); [|reflexivity].
      destruct (days_of_month md _ _); cbn [bind]; try reflexivity. destruct (_ <? _); reflexivity.
Qed.
Lemma finish_dow md v c : finish md (weekday_ctx v c) = let* q := finish md c in let '(tm, k, f) := q in Ok (set_wday v tm, k, f).
Proof.
  change (finish md (weekday_ctx v c)) with (
    let* tm := validate_date md (Z.lor (c_fmask c) (mask DOW)) (c_julian c) (c_2d c) (c_bc c) (set_wday v (c_tm c)) in
    let* tm := apply_mer md (c_mer c) tm in
    if tfeq (c_dtype c) KDate && negb (Z.land (Z.lor (c_fmask c) (mask DOW)) DTK_DATE_M =? DTK_DATE_M) then
      if Z.land (Z.lor (c_fmask c) (mask DOW)) DTK_TIME_M =? DTK_TIME_M then Ok (tm, c_dtype c, c_fsec c) else Err EInvalid
    else Ok (tm, c_dtype c, c_fsec c)).
  unfold finish. rewrite validate_dow, !land_dow by reflexivity. destruct (validate_date _ _ _ _ _ _) as [tm| |]; cbn [bind]; try reflexivity.
  assert (apply_mer md (c_mer c) (set_wday v tm) = let* t := apply_mer md (c_mer c) tm in Ok (set_wday v t)) as ->.
  { unfold apply_mer. change (tm_hour (set_wday v tm)) with (tm_hour tm).
    repeat match goal with |- context [if ?b then _ else _] => destruct b; try reflexivity end. destruct (add32 _ _ _); reflexivity. }
  destruct (apply_mer _ _ tm); cbn [bind]; try reflexivity.
  repeat match goal with |- context [if ?b then _ else _] => destruct b; try reflexivity end.
Qed.

(** ** Values *)
Definition date_value (md : mode) (q : pgtime * tfield * Z) : res Z :=
  let '(tm, k, _) := q in
  match k with
  | KDate =>
      if negb (is_valid_julian (tm_year tm) (tm_mon tm)) then Err EInvalid
      else
        let* j := date2julian md (tm_year tm) (tm_mon tm) (tm_mday tm) in
        let* d := sub32 md j POSTGRES_EPOCH_JDATE in
        if negb (is_valid_date d) then Err EInvalid else Ok d
  | KLate => Ok i32_max
  | KEarly => Ok i32_min
  | _ => Err EInvalid
  end.
Definition ts_value (md : mode) (p : Z) (q : pgtime * tfield * Z) : res Z :=
  let '(tm, k, fsec) := q in
  let* v :=
    match k with
    | KDate => to_timestamp md tm fsec
    | KLate => Ok i64_max
    | KEarly => Ok i64_min
    | _ => Err EInvalid
    end in
  timestamp_adjust_by_typmod md v p.

(** A word that leaves the value as it is, or is refused. *)
Definition harmless (u : bytes) : Prop := forall md o c,
  let f := date_time_field md o (Some KString, lowers u) None c in
  (forall c', f = Ok c' -> forall (val : pgtime * tfield * Z -> res Z), (forall v tm k x, val (set_wday v tm, k, x) = val (tm, k, x)) ->
     (let* q := finish md c' in val q) = let* q := finish md c in val q)
  /\ (has (c_fmask c) (mask DOW) = false -> exists c', f = Ok c').
Lemma word_harmless u : weekday_name u \/ filler u -> harmless u.
Proof.
  intros H md o c f. subst f. destruct H as [H|H].
  - destruct (weekday_field md o u H) as (v & E). rewrite E. split.
    + intros c'. destruct (has _ _); [discriminate|]. intros [= <-] val V. rewrite finish_dow.
      destruct (finish md c) as [[[tm k] x]| |]; cbn [bind]; auto.
    + intros ->. eauto.
  - rewrite (filler_field md o u None c H). split; [now intros c' [= <-]|eauto].
Qed.
Lemma word_letters u : weekday_name u \/ filler u -> forallb is_alpha u = true /\ u <> [] /\ blen u <= 10.
Proof.
  assert (forall k, any_case u k -> (1 <= length k <= 10)%nat -> forallb is_alpha u = true /\ u <> [] /\ blen u <= 10) as A.
  { intros k C L. destruct (any_case_facts _ _ C) as (A & El & Lk).
    unfold blen. rewrite Lk. split; [exact A|]. split; [destruct u; [cbn in Lk; lia|discriminate]|lia]. }
  assert (forallb (fun p : bytes * Z => (1 <=? length (fst p))%nat && (length (fst p) <=? 10)%nat) weekday_words = true) as W by reflexivity.
  intros [(k & v & I & C)|[C|C]]; (apply (A _ C)); [|cbn; lia..]. rewrite forallb_forall in W. specialize (W _ I). cbn [fst] in W. lia.
Qed.

(** Splitting a text with a word added *)
Lemma parse_trail s w : s <> [] -> last s 0 <> 46 -> white w -> parse_date_time (s ++ [w]) = parse_date_time s.
Proof.
  intros N L W. symmetry. apply parse_respaced; [exact N|now destruct s|]. clear N. apply respaced_sim.
  induction s as [|c s IH]; [apply rs_end; [apply Forall_nil|apply Forall_cons; [exact W|apply Forall_nil]]|]. cbn [app]. destruct s as [|d s].
  - apply rs_byte; [apply rs_end; [apply Forall_nil|apply Forall_cons; [exact W|apply Forall_nil]]|]. cbn in L. lia.
  - apply rs_byte; [now apply IH|]. intros _. split; discriminate.
Qed.

Lemma word_room u n room : forallb is_alpha u = true -> u <> [] -> forall r, tokenize (S (length u)) n room u = Ok r -> r = [(Some KString, lowers u)].
Proof.
  intros A N r E. rewrite tokenize_eq in E. destruct u as [|c u]; [easy|]. pose proof A as A0. cbn [forallb] in A. apply andb_prop in A as [Ac _].
  rewrite eat_ws_cons in E by now apply alpha_solid. destruct (_ <=? n); [discriminate|]. cbv zeta in E.
  rewrite (alpha_not_digit c Ac), Ac in E. replace (c =? 46) with false in E by (unfold is_alpha, is_upper, is_lower in Ac; lia).
  unfold alpha_begin, eat_alphabetics in E. 
  assert (eat is_alpha (c :: u) = (c :: u, [])) as Ea by (pose proof (stop_app is_alpha (c :: u) [] A0 I) as Q; now rewrite app_nil_r in Q).
  rewrite Ea in E. cbn [bind] in E.
  destruct (use_buf _ _) as [room'| |]; try discriminate. cbn [length bind] in E. rewrite tokenize_eq in E. cbn in E. injection E as <-. reflexivity.
Qed.

Lemma parse_added s w u ts' : s <> [] -> last s 0 <> 46 -> ~ ends_with_sign s -> white w -> forallb is_alpha u = true -> u <> [] ->
  parse_date_time (s ++ w :: u) = Ok ts' -> exists ts, parse_date_time s = Ok ts /\ ts' = ts ++ [(Some KString, lowers u)].
Proof.
  intros N L Ns W A Nu P. rewrite <- (parse_trail s w N L W).
  destruct (parse_date_time (s ++ [w])) as [ts| |] eqn:E.
  - assert (typed ts) as Ty by (apply (typed_sign s); [exact Ns|]; now rewrite <- (parse_trail s w N L W)).
    rewrite (parse_cut s w u ts) in P by (now apply white_iff || assumption). destruct (tokenize _ _ _ u) as [r| |] eqn:Er; try discriminate.
    cbn in P. apply word_room in Er; [|assumption..]. subst r. exists ts. split; [reflexivity|congruence].
  - rewrite parse_cut_bad in P; [congruence|now apply white_iff|congruence].
  - rewrite parse_cut_bad in P; [congruence|now apply white_iff|congruence].
Qed.

Lemma fields_added md o u (ts : list token) (val : pgtime * tfield * Z -> res Z) n : harmless u -> (forall v tm k x, val (set_wday v tm, k, x) = val (tm, k, x)) ->
  (let* q := decode_date_time md o (ts ++ [(Some KString, lowers u)]) in val q) = Ok n -> (let* q := decode_date_time md o ts in val q) = Ok n.
Proof.
  intros H V. rewrite !decode_finish.
  destruct (date_time_fields md o (ts ++ _) ctx_new) as [c'| |] eqn:E; try discriminate. cbn [bind].
  apply fields_snoc in E as (c1 & E1 & E2); [|reflexivity]. rewrite E1. cbn [bind].
  destruct (H md o c1) as [H1 _]. now rewrite (H1 c' E2 val V).
Qed.
Lemma value_dates md v tm k x : date_value md (set_wday v tm, k, x) = date_value md (tm, k, x).
Proof. reflexivity. Qed.
Lemma value_ts md p v tm k x : ts_value md p (set_wday v tm, k, x) = ts_value md p (tm, k, x).
Proof. reflexivity. Qed.
Lemma date_eq md s o : date_try_from_str md s o = let* ts := parse_date_time s in let* q := decode_date_time md o ts in date_value md q.
Proof. reflexivity. Qed.
Lemma ts_eq md s p o : timestamp_try_from_str md s p o = let* ts := parse_date_time s in let* q := decode_date_time md o ts in ts_value md p q.
Proof. reflexivity. Qed.

Lemma added_value md o p s w u n : s <> [] -> last s 0 <> 46 -> ~ ends_with_sign s -> white w -> weekday_name u \/ filler u ->
  (date_try_from_str md (s ++ w :: u) o = Ok n -> date_try_from_str md s o = Ok n)
  /\ (timestamp_try_from_str md (s ++ w :: u) p o = Ok n -> timestamp_try_from_str md s p o = Ok n).
Proof.
  intros N L Ns W H. destruct (word_letters u H) as (A & Nu & _). pose proof (word_harmless u H) as Hu. rewrite !date_eq, !ts_eq.
  destruct (parse_date_time (s ++ w :: u)) as [ts'| |] eqn:P; [|split; discriminate..].
  apply parse_added in P as (ts & -> & ->); try assumption. cbn [bind].
  split; apply fields_added; auto using value_dates, value_ts.
Qed.

(** ** Acceptance *)
Definition ones (k : nat) : bytes := concat (repeat [32; 49] k).
Lemma ones_tokens k : forall fuel n room, (2 * k < fuel)%nat -> n + Z.of_nat k <= 25 -> Z.of_nat k <= room ->
  tokenize fuel n room (ones k) = Ok (repeat (Some KNumber, [49]) k).
Proof.
  induction k as [|k IH]; intros fuel n room F N R; (destruct fuel; [lia|]); [reflexivity|].
  change (ones (S k)) with (32 :: [49] ++ ones k). rewrite tokenize_space.
  rewrite (tok_number [49] true); [|reflexivity|discriminate| |lia|cbn; lia].
  - change (blen [49]) with 1. rewrite IH by lia. reflexivity.
  - destruct k; [now left|right; left; eexists; reflexivity].
Qed.
Lemma tokenize_count fuel : forall n room s ts, tokenize fuel n room s = Ok ts -> ts = [] \/ n + Z.of_nat (length ts) <= 25.
Proof.
  induction fuel as [|fuel IH]; intros n room s ts; [discriminate|]. rewrite tokenize_eq.
  destruct (eat_whitespaces s) as [|c r]; [intros [= <-]; now left|]. unfold MAX_DATE_FIELDS. destruct (Z.leb_spec 25 n); [discriminate|]. cbv zeta.
  assert (forall (t : token) rest, (let* room' := use_buf room (snd t) in
      let* ts := tokenize fuel (n + 1) room' rest in Ok (t :: ts)) = Ok ts -> ts = [] \/ n + Z.of_nat (length ts) <= 25) as Add.
  { intros t rest. destruct (use_buf room (snd t)) as [room'| |]; try discriminate. cbn [bind].
    destruct (tokenize fuel (n + 1) room' rest) as [ts'| |] eqn:E; try discriminate. cbn [bind].
    intros Q. injection Q as <-. apply IH in E as [-> |E]; right; cbn [length] in *; lia. }
  destruct (is_digit c); [destruct (digit_begin _); apply Add|].
  destruct (c =? 46); [destruct (dot_begin _); apply Add|].
  destruct (is_alpha c); [destruct (alpha_begin _) as [[t rest]| |]; try discriminate; apply Add|].
  destruct (_ || _).
  { destruct (use_buf room [c]); try discriminate. cbn [bind].
    destruct (sign_begin c r) as [[t rest]| |]; try discriminate; apply Add. }
  destruct (is_punct c); [|discriminate]. apply IH.
Qed.
Lemma total_used ts : Z.of_nat (total_len ts) = used ts.
Proof.
  induction ts as [|t ts IH]; [reflexivity|]. change (total_len (t :: ts)) with (length (snd t) + total_len ts)%nat.
  change (used (t :: ts)) with (blen (snd t) + used ts). unfold blen. lia.
Qed.
Lemma used_app a b : used (a ++ b) = used a + used b.
Proof. induction a as [|t a IH]; [reflexivity|]. cbn [app]. change (used (t :: a ++ b)) with (blen (snd t) + used (a ++ b)). change (used (t :: a)) with (blen (snd t) + used a). lia. Qed.

(** A date takes at most three fields of thirty bytes. *)
Lemma date_tokens_few order glue td ts : date_tokens_ok order glue td ts -> (length ts <= 3)%nat /\ used ts <= 30.
Proof.
  intros (k & n & room & Hk & Hn & Hr & T). split.
  - specialize (T 50%nat (ones 22) ltac:(right; left; eexists; reflexivity)). rewrite ones_tokens in T by lia. cbn [bind] in T.
    apply tokenize_count in T as [T|T]; [destruct ts; [cbn; lia|discriminate]|]. rewrite app_length, repeat_length in T. lia.
  - set (ds := repeat 49 98). assert (forallb is_digit ds = true) as Dd by reflexivity.
    specialize (T 3%nat (32 :: ds ++ []) ltac:(right; left; eexists; reflexivity)). rewrite tokenize_space in T.
    rewrite (tok_number ds true) in T by (exact Dd || discriminate || (now left) || lia || (change (blen ds) with 98; lia)).
    cbn [tokenize] in T. change (eat_whitespaces []) with (@nil Z) in T. cbn [bind] in T.
    apply tokenize_room in T; [|lia]. rewrite total_used, used_app in T. change (used [(Some KNumber, ds)]) with 98 in T. lia.
Qed.

Lemma words_fields md order glue td Y m d tt c e : date_words order glue td Y m d -> DateWords.time_part glue tt c ->
  exists all, parse_date_time (td ++ tt ++ era_text e) = Ok all /\ count all <= 7 /\ used all <= 80
    /\ forall c', date_time_fields md order all ctx_new = Ok c' -> has (c_fmask c') (mask DOW) = false.
Proof.
  intros Dw Tp. destruct (date_case md _ _ _ _ _ _ Dw) as (ts & Dt & Fo). destruct (date_tokens_few _ _ _ _ Dt) as [Lt Ut].
  destruct Dt as (k & n & room & Hk & Hn & Hr & T).
  assert (parse_date_time (td ++ tt ++ era_text e)
    = let* r := tokenize (S (length td - k + length (tt ++ era_text e))) n room (tt ++ era_text e) in Ok (ts ++ r)) as P.
  { rewrite parse_date_time_cons by (destruct td; [cbn in Hk; lia|discriminate]). rewrite <- T by eauto using time_rest_ok.
    f_equal. rewrite app_length. lia. }
  assert (count (mark_tokens e) <= 1 /\ used (mark_tokens e) <= 2) as [M1 M2] by (destruct e; cbn; lia).
  destruct Tp as [g|g sep t h mi s us x Hs W].
  - cbn [app] in P |- *. rewrite tokenize_mark' in P by lia. cbn [bind] in P.
    exists (ts ++ mark_tokens e). split; [exact P|]. rewrite used_app. split; [unfold count in *; rewrite app_length; lia|]. split; [lia|].
    intros c'. destruct Fo as [(c0 & S0 & F)|[N F]]; rewrite F; [|discriminate].
    destruct S0 as (_ & _ & S3 & _). rewrite mark_fields by (rewrite S3; reflexivity). intros [= <-].
    destruct e; cbn; rewrite S3; reflexivity.
  - assert ((sep :: t ++ half_text x) ++ era_text e = sep :: t ++ half_text x ++ era_text e) as Q by (cbn [app]; now rewrite <- app_assoc).
    rewrite Q in *. rewrite (tail_tokens sep t h mi s us) in P by (tauto || exact W || lia). cbn [bind] in P.
    eexists. split; [exact P|]. pose proof (words_len _ _ _ _ _ W) as Lw.
    assert (count (half_tokens x) <= 1 /\ used (half_tokens x) <= 2) as [X1 X2] by (destruct x; cbn; lia).
    assert (count (gap_tokens sep) <= 1 /\ used (gap_tokens sep) <= 1) as [G1 G2] by (unfold gap_tokens; destruct (sep =? 84); cbn; lia).
    split; [unfold count in *; rewrite !app_length; cbn [length]; rewrite app_length; lia|].
    split. { rewrite !used_app. change (used ((Some KTime, t) :: half_tokens x ++ mark_tokens e)) with (blen t + used (half_tokens x ++ mark_tokens e)).
             rewrite used_app. unfold blen. lia. }
    intros c'. destruct Fo as [(c0 & S0 & F)|[N F]]; rewrite F; [|discriminate].
    destruct S0 as (S1 & S2 & S3 & S4 & _).
    set (cg := if sep =? 84 then t_ctx c0 else c0).
    assert (c_fmask cg = DTK_DATE_M) as Gm by (subst cg; destruct (sep =? 84); [cbn; rewrite S3; reflexivity|exact S3]).
    assert (date_time_fields md order (gap_tokens sep ++ (Some KTime, t) :: half_tokens x ++ mark_tokens e) c0
      = date_time_fields md order ((Some KTime, t) :: half_tokens x ++ mark_tokens e) cg) as ->.
    { unfold gap_tokens, cg. destruct (sep =? 84); [|reflexivity]. cbn [app date_time_fields].
      rewrite field_T by (rewrite S3; reflexivity). reflexivity. }
    cbn [date_time_fields]. rewrite (field_words md order t h mi s us).
    + destruct (_ && _); [|discriminate]. destruct (hour_ok h mi s us); [|discriminate]. cbn [bind].
      rewrite half_fields by (cbn; rewrite Gm; reflexivity). rewrite mark_fields by (destruct x; cbn; rewrite Gm; reflexivity).
      intros [= <-]. destruct e, x; cbn; rewrite Gm; reflexivity.
    + exact W.
    + subst cg. destruct (sep =? 84); [right; reflexivity|left; exact S4].
    + rewrite Gm. reflexivity.
Qed.

Lemma words_some order glue td Y m d : date_words order glue td Y m d -> td <> [].
Proof. intros Dw. destruct (date_case Debug _ _ _ _ _ _ Dw) as (ts & (k & n & room & Hk & _) & _). destruct td; [cbn in Hk; lia|discriminate]. Qed.

Lemma accepted_value md o p glue td Y m d tt c e w u n : date_words o glue td Y m d -> DateWords.time_part glue tt c -> white w -> weekday_name u \/ filler u ->
  last (td ++ tt ++ era_text e) 0 <> 46 -> let s := td ++ tt ++ era_text e in
  (date_try_from_str md s o = Ok n -> date_try_from_str md (s ++ w :: u) o = Ok n)
  /\ (timestamp_try_from_str md s p o = Ok n -> timestamp_try_from_str md (s ++ w :: u) p o = Ok n).
Proof.
  intros Dw Tp W H Ls s. destruct (word_letters u H) as (A & Nu & Bu). pose proof (word_harmless u H) as Hu.
  destruct (words_fields md o glue td Y m d tt c e Dw Tp) as (all & P & Ca & Ua & Fd). fold s in P.
  assert (s <> []) as Ns by (pose proof (words_some _ _ _ _ _ _ Dw); subst s; destruct td; [easy|discriminate]).
  assert (forall val : pgtime * tfield * Z -> res Z, (forall v tm k x, val (set_wday v tm, k, x) = val (tm, k, x)) ->
    (let* ts := parse_date_time s in let* q := decode_date_time md o ts in val q) = Ok n ->
    (let* ts := parse_date_time (s ++ w :: u) in let* q := decode_date_time md o ts in val q) = Ok n) as K.
  2:{ rewrite !date_eq, !ts_eq. split; apply K; auto using value_dates, value_ts. }
  intros val V. rewrite P. cbn [bind]. rewrite decode_finish. destruct (date_time_fields md o all ctx_new) as [c1| |] eqn:E; try discriminate. cbn [bind].
  intros F. assert (typed all) as Ty by exact (fields_typed_ok md o all _ _ E).
  assert (parse_date_time (s ++ [w]) = Ok all) as P1 by (rewrite parse_trail; assumption).
  rewrite (parse_cut s w u all) by (now apply white_iff || assumption).
  assert (tokenize (S (length u)) (count all) (128 - used all) u = Ok [(Some KString, lowers u)]) as ->.
  { pose proof (tokenize_word (length u) (count all) (128 - used all) u [] A Nu ltac:(now left) ltac:(lia) ltac:(lia)) as T.
    rewrite app_nil_r in T. rewrite T. destruct u; [easy|]. reflexivity. }
  cbn [bind]. rewrite decode_finish. destruct (Hu md o c1) as [H1 H2]. destruct (H2 (Fd c1 eq_refl)) as (c2 & E2).
  assert (date_time_fields md o (all ++ [(Some KString, lowers u)]) ctx_new = Ok c2) as -> by (apply fields_snoc; [reflexivity|eauto]).
  cbn [bind]. now rewrite (H1 c2 E2 val V).
Qed.
