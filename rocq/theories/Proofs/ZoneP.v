(** Zones are never accepted: lemmas for C63. *)
From Verif Require Import Model.Parse Spec.Text Spec.DateText Spec.Lexing Spec.DateWords Spec.Zone
  Proofs.DigitsP Proofs.TokenP Proofs.LexP Proofs.FieldsP Proofs.SpaceP Proofs.SafeP Proofs.CutP Proofs.OneWordP Proofs.ParseP Proofs.DateWordsP.
From Coq Require Import List ZArith Bool Lia.
Import ListNotations.
Open Scope Z_scope.

(** The last of the fields [ts] are those of [b]. *)
Definition ends (b : bytes) (ts : list token) : Prop :=
  exists fuel n room ts0 r, ts = ts0 ++ r /\ tokenize fuel n room b = Ok r.

Lemma typed_sign s ts : ~ ends_with_sign s -> parse_date_time s = Ok ts -> typed ts.
Proof. intros N P. apply (typed_text s); [|exact P]. now apply sign_end. Qed.

Lemma ends_start b ts : parse_date_time b = Ok ts -> ends b ts.
Proof.
  unfold parse_date_time. destruct b as [|c b]; [discriminate|]. intros P. exists (S (length (c :: b))), 0, MAX_DATE_LEN, [], ts. auto.
Qed.
Lemma ends_white a w b ts : white w -> ~ ends_with_sign a -> parse_date_time (a ++ w :: b) = Ok ts -> ends b ts.
Proof.
  intros W N P. apply white_iff in W. destruct (parse_date_time (a ++ [w])) as [ts0|e|f] eqn:E.
  - assert (typed ts0) as Ty.
    { apply (typed_sign (a ++ [w])); [|exact E]. intros (p & c & q & Q & C & Q'). apply N.
      destruct (@exists_last _ (c :: q) ltac:(discriminate)) as (q1 & z & Eq). rewrite Eq, app_assoc in Q. apply app_inj_tail in Q as [Q ->].
      destruct q1 as [|c1 q1]; cbn in Eq; injection Eq as -> Eq.
      - subst. apply white_iff in W. destruct C as [-> | ->]; cbv in W; lia.
      - exists p, c1, q1. split; [exact Q|]. split; [exact C|]. subst q. now apply Forall_app in Q' as [Q' _]. }
    rewrite (parse_cut a w b ts0 W E Ty) in P. destruct (tokenize _ _ _ b) as [r| |] eqn:Er; try discriminate. cbn in P. injection P as <-.
    exists (S (length b)), (count ts0), (128 - used ts0), ts0, r. auto.
  - rewrite parse_cut_bad in P; [congruence|exact W|congruence].
  - rewrite parse_cut_bad in P; [congruence|exact W|congruence].
Qed.

(** One field further *)
Lemma ends_digit c s t rest ts : is_digit c = true -> digit_begin (c :: s) = (t, rest) -> ends (c :: s) ts -> ends rest ts.
Proof.
  intros D E (fuel & n & room & ts0 & r & -> & T). destruct fuel; [discriminate|]. rewrite tokenize_eq in T. rewrite eat_ws_cons in T by now apply digit_solid.
  destruct (_ <=? n); [discriminate|]. cbv zeta in T. rewrite D, E in T.
  destruct (use_buf room (snd t)) as [room'| |]; try discriminate. cbn [bind] in T.
  destruct (tokenize fuel (n + 1) room' rest) as [r'| |] eqn:Er; try discriminate. cbn [bind] in T. injection T as <-.
  exists fuel, (n + 1), room', (ts0 ++ [t]), r'. split; [now rewrite <- app_assoc|exact Er].
Qed.
Lemma ends_alpha c s t rest ts : is_alpha c = true -> alpha_begin (c :: s) = Ok (t, rest) -> ends (c :: s) ts -> In t ts /\ ends rest ts.
Proof.
  intros D E (fuel & n & room & ts0 & r & -> & T). destruct fuel; [discriminate|]. rewrite tokenize_eq in T. rewrite eat_ws_cons in T by now apply alpha_solid.
  destruct (_ <=? n); [discriminate|]. cbv zeta in T. rewrite (alpha_not_digit c D), D, E in T.
  replace (c =? 46) with false in T by (unfold is_alpha, is_upper, is_lower in D; lia). cbn [bind] in T.
  destruct (use_buf room (snd t)) as [room'| |]; try discriminate. cbn [bind] in T.
  destruct (tokenize fuel (n + 1) room' rest) as [r'| |] eqn:Er; try discriminate. cbn [bind] in T. injection T as <-.
  split; [apply in_app_iff; right; now left|].
  exists fuel, (n + 1), room', (ts0 ++ [t]), r'. split; [now rewrite <- app_assoc|exact Er].
Qed.

Lemma stop_app f p q : forallb f p = true -> match q with c :: _ => f c = false | [] => True end -> eat f (p ++ q) = (p, q).
Proof. intros. apply eat_app; auto. Qed.

Lemma ends_clock t b ts : clock_text t -> match b with c :: _ => ~ digit c /\ c <> 58 /\ c <> 46 | [] => True end ->
  ends (t ++ b) ts -> ends b ts.
Proof.
  intros (ds & r & -> & N & D & R) B H. destruct ds as [|d ds]; [easy|]. rewrite <- app_assoc in H. cbn [app] in H.
  apply (ends_digit d (ds ++ 58 :: r ++ b) (Some KTime, (d :: ds) ++ 58 :: r) b); [|clear H|exact H].
  { inversion D as [|? ? Hd _]; subst. unfold digit in Hd. unfold is_digit. lia. }
  unfold digit_begin, eat_digits. change (d :: ds ++ 58 :: r ++ b) with ((d :: ds) ++ 58 :: r ++ b).
  rewrite stop_app; [|now apply forall_digit|reflexivity]. cbn [Z.eqb Pos.eqb].
  change (58 :: r ++ b) with ((58 :: r) ++ b). rewrite stop_app; [reflexivity| |].
  - cbn [forallb]. apply andb_true_intro. split; [reflexivity|]. apply forallb_forall. intros x I. rewrite Forall_forall in R. specialize (R x I).
    unfold digit in R. unfold is_digit. lia.
  - destruct b as [|c b]; [exact I|]. unfold digit in B. unfold is_digit. lia.
Qed.

Lemma ends_date t T d b ts : numeric_date t -> T = 84 \/ T = 116 -> digit d -> ends (t ++ T :: d :: b) ts -> ends (d :: b) ts.
Proof.
  intros (A & B & C & sep & -> & Sp & NA & NB & DA & DB & DC) HT Hd H. destruct A as [|a A]; [easy|]. rewrite <- app_assoc in H. cbn [app] in H. rewrite <- app_assoc in H. cbn [app] in H.
  assert (is_digit a = true) as Da by (inversion DA as [|? ? Ha _]; subst; unfold digit in Ha; unfold is_digit; lia).
  assert (is_digit d = true) as Dd by (unfold digit in Hd; unfold is_digit; lia).
  apply (ends_digit a (A ++ sep :: B ++ sep :: C ++ T :: d :: b) (Some KDate, (a :: A) ++ sep :: B ++ sep :: C) (T :: d :: b)) in H; [|exact Da|clear H].
  - destruct (ends_alpha T (d :: b) (Some KString, [116]) (d :: b) ts) as [_ K]; [destruct HT as [-> | ->]; reflexivity| |exact H|exact K].
    unfold alpha_begin, eat_alphabetics. change (T :: d :: b) with ([T] ++ d :: b). rewrite stop_app.
    2:{ destruct HT as [-> | ->]; reflexivity. } 2:{ destruct (is_alpha d) eqn:Ad; [|reflexivity]. apply alpha_not_digit in Ad. congruence. }
    assert (lowers [T] = [116]) as -> by (destruct HT as [-> | ->]; reflexivity).
    replace ((d =? 45) || (d =? 47) || (d =? 46)) with false by (unfold is_digit in Dd; lia). rewrite Dd, orb_true_r.
    change (search_date_token [116]) with (search_date_token [116]). vm_compute (search_date_token [116]). reflexivity.
  - unfold digit_begin, eat_digits. change (a :: A ++ sep :: B ++ sep :: C ++ T :: d :: b) with ((a :: A) ++ sep :: B ++ sep :: C ++ T :: d :: b).
    rewrite stop_app; [|now apply forall_digit|destruct Sp as [-> | [-> | ->]]; reflexivity].
    replace (sep =? 58) with false by (destruct Sp as [-> | [-> | ->]]; reflexivity).
    replace ((sep =? 45) || (sep =? 47) || (sep =? 46)) with true by (destruct Sp as [-> | [-> | ->]]; reflexivity).
    unfold digit_delim_begin. destruct B as [|b0 B]; [easy|]. cbn [app].
    assert (is_digit b0 = true) as -> by (inversion DB as [|? ? Hb _]; subst; unfold digit in Hb; unfold is_digit; lia).
    unfold eat_digits. change (b0 :: B ++ sep :: C ++ T :: d :: b) with ((b0 :: B) ++ sep :: C ++ T :: d :: b).
    rewrite stop_app; [|now apply forall_digit|destruct Sp as [-> | [-> | ->]]; reflexivity]. rewrite Z.eqb_refl.
    change (sep :: C ++ T :: d :: b) with ((sep :: C) ++ T :: d :: b). rewrite stop_app; [reflexivity| |].
    + cbn [forallb]. rewrite Z.eqb_refl. cbn [orb andb]. apply forall_digit in DC. rewrite forallb_forall in *. intros x I. rewrite (DC x I). apply orb_true_r.
    + destruct Sp as [-> | [-> | ->]]; destruct HT as [-> | ->]; reflexivity.
Qed.

Lemma field_ends a b : field_at a b -> forall ts, parse_date_time (a ++ b) = Ok ts -> ends b ts.
Proof.
  induction 1 as [b|a w b W N|a t b F IH C B|a t T d b F IH D HT Hd]; intros ts P.
  - now apply ends_start.
  - rewrite <- app_assoc in P. now apply (ends_white a w b).
  - rewrite <- app_assoc in P. apply (ends_clock t b); auto.
  - rewrite <- !app_assoc in P. cbn [app] in P. apply (ends_date t T d b); auto.
Qed.

(** ** A field that is refused in every state *)
Definition refused (t : token) : Prop := forall md o id types next c c',
  date_time_field md o t next c <> Ok c' /\ time_only_field md o id types t next c <> Ok c'.

Lemma fields_refused md o t ts : refused t -> In t ts -> forall c c', date_time_fields md o ts c <> Ok c'.
Proof.
  intros R. induction ts as [|u ts IH]; intros I; [destruct I|]. intros c c'. cbn [date_time_fields].
  destruct (date_time_field md o u (hd_error ts) c) as [c1| |] eqn:E; try discriminate. cbn [bind]. destruct I as [-> |I]; [|now apply IH].
  destruct (R md o 0%nat [] (hd_error ts) c c1) as [K _]. congruence.
Qed.
Lemma time_fields_refused md o types t ts : refused t -> In t ts -> forall id c c', time_only_fields md o id types ts c <> Ok c'.
Proof.
  intros R. induction ts as [|u ts IH]; intros I; [destruct I|]. intros id c c'. cbn [time_only_fields].
  destruct (time_only_field md o id types u (hd_error ts) c) as [c1| |] eqn:E; try discriminate. cbn [bind]. destruct I as [-> |I]; [|now apply IH].
  destruct (R md o id types (hd_error ts) c c1) as [_ K]. congruence.
Qed.

Definition never (s : bytes) : Prop := forall md order p n,
  date_try_from_str md s order <> Ok n /\ timestamp_try_from_str md s p order <> Ok n /\ time_try_from_str md s p order <> Ok n.
Lemma never_by s : (forall ts, parse_date_time s = Ok ts -> exists t, refused t /\ In t ts) -> never s.
Proof.
  intros H md order p n. unfold date_try_from_str, timestamp_try_from_str, time_try_from_str.
  destruct (parse_date_time s) as [ts| |]; cbn [bind]; try (repeat split; discriminate).
  destruct (H ts eq_refl) as (t & R & I). unfold decode_date_time, decode_time_only.
  pose proof (fields_refused md order t ts R I ctx_new) as K1. pose proof (time_fields_refused md order (List.map fst ts) t ts R I 0%nat ctx_new) as K2.
  destruct (date_time_fields md order ts ctx_new) as [c1| |]; [now destruct (K1 c1)|..];
    (destruct (time_only_fields md order 0 (List.map fst ts) ts ctx_new) as [c2| |]; [now destruct (K2 c2)|..]); repeat split; discriminate.
Qed.

Lemma typed_dec (ts : list token) : {typed ts} + {~ typed ts}.
Proof. apply Forall_dec. intros [[k|] f]; cbn; [left; discriminate|right; intros H; now apply H]. Qed.

(** ** Offsets *)
Lemma tz_refused f : refused (Some KTz, f).
Proof. intros md o id types next c c'. split; cbn; discriminate. Qed.

Lemma ends_offset b ts : offset_text b -> ends b ts -> exists f, In (Some KTz, f) ts.
Proof.
  intros (sg & bl & d & r & -> & Sg & Bl & Hd) (fuel & n & room & ts0 & q & -> & T). destruct fuel; [discriminate|]. rewrite tokenize_eq in T.
  assert (is_space sg = false) as Ss by (destruct Sg as [-> | ->]; reflexivity). rewrite eat_ws_cons in T by exact Ss.
  destruct (_ <=? n); [discriminate|]. cbv zeta in T.
  assert (is_digit sg = false /\ (sg =? 46) = false /\ is_alpha sg = false /\ ((sg =? 43) || (sg =? 45)) = true) as (E1 & E2 & E3 & E4) by (destruct Sg as [-> | ->]; repeat split; reflexivity).
  rewrite E1, E2, E3, E4 in T. destruct (use_buf room [sg]); try discriminate. cbn [bind] in T.
  assert (is_digit d = true) as Dd by (unfold digit in Hd; unfold is_digit; lia).
  unfold sign_begin in T. rewrite eat_ws_app in T by now apply forall_white. rewrite eat_ws_cons in T by now apply digit_solid.
  rewrite Dd in T. destruct (eat _ (d :: r)) as [f s1]. cbn [bind] in T.
  destruct (use_buf room _); try discriminate. cbn [bind] in T. destruct (tokenize fuel _ _ s1); try discriminate. injection T as <-.
  exists (sg :: f). apply in_app_iff. right. now left.
Qed.
Lemma offset_never a b : field_at a b -> offset_text b -> never (a ++ b).
Proof.
  intros F O. apply never_by. intros ts P. destruct (ends_offset b ts O) as (f & I); [now apply (field_ends a)|]. exists (Some KTz, f). split; [apply tz_refused|exact I].
Qed.
Lemma offset_white_never a w b : white w -> offset_text b -> never (a ++ w :: b).
Proof.
  intros W O. apply white_iff in W. apply never_by. intros ts P. destruct (parse_date_time (a ++ [w])) as [ts0|e|f] eqn:E.
  - destruct (typed_dec ts0) as [Ty|Ty].
    + rewrite (parse_cut a w b ts0 W E Ty) in P. destruct (tokenize _ _ _ b) as [r| |] eqn:Er; try discriminate. cbn in P. injection P as <-.
      destruct (ends_offset b r O) as (f & I); [exists (S (length b)), (count ts0), (128 - used ts0), [], r; auto|].
      exists (Some KTz, f). split; [apply tz_refused|]. apply in_app_iff. now right.
    + rewrite (parse_cut_sign a w b ts0 W E Ty) in P; [discriminate|]. destruct O as (sg & bl & d & r & -> & Sg & _).
      rewrite eat_ws_cons by (destruct Sg as [-> | ->]; reflexivity). destruct Sg as [-> | ->]; reflexivity.
  - rewrite parse_cut_bad in P; [congruence|exact W|congruence].
  - rewrite parse_cut_bad in P; [congruence|exact W|congruence].
Qed.

(** ** Unknown words *)
Lemma any_case_lowers k : forallb is_lower k = true -> forall u, Forall letter u -> lowers u = k -> any_case u k.
Proof.
  induction k as [|b k IH]; intros Hk u L E; destruct u as [|a u]; try discriminate; [constructor|]. cbn in E. injection E as E1 E2.
  cbn in Hk. apply andb_prop in Hk as [Hb Hk]. inversion L as [|? ? La Lu]; subst. constructor; [|now apply IH].
  unfold is_lower in Hb. unfold letter in La. unfold lower in *. destruct (is_upper a) eqn:U; unfold is_upper in U; lia.
Qed.

(** What a word must mean for a field to be accepted *)
Definition usable (x : res (token_type * Z)) : bool :=
  match x with
  | Ok (ty, v) => match ty with
      | IgnoreDtf | MONTH | AMPM | ADBC | DOW | UNITS | ISOTIME => true
      | RESERV => match tfield_of v with Ok (KCurrent | KNow | KYesterday | KToday | KTomorrow) => false | _ => true end
      | _ => false
      end
  | _ => false
  end.
Definition table_check (table : list date_token) (t : date_token) : bool :=
  negb (usable (decode_nocache table (dt_token t)))
  || (length (dt_token t) <? 10)%nat && (existsb (beq (dt_token t)) known_words || negb (forallb is_lower (dt_token t))).
Lemma table_checked : forallb (table_check DATE_TOKEN_TABLE) DATE_TOKEN_TABLE = true.
Proof. vm_compute. reflexivity. Qed.

Lemma unknown_in table u : sorted table -> forallb (table_check table) table = true -> unknown_word u -> usable (decode_nocache table (lowers u)) = false.
Proof.
  intros S T (N & L & K). destruct (meaning_of table (lowers u) S) as [(t & It & Kt & Et)|[_ En]]; [|now rewrite En].
  rewrite Et. rewrite forallb_forall in T. specialize (T t It). unfold table_check in T.
  destruct (usable (decode_nocache table (dt_token t))); [|reflexivity]. cbn [negb orb] in T. apply andb_prop in T as [Lt T]. apply Nat.ltb_lt in Lt.
  assert (dt_token t = lowers u) as Eq.
  { rewrite Kt. apply firstn_all2. rewrite Kt in Lt. rewrite firstn_length in Lt. lia. }
  assert (forallb is_lower (dt_token t) = true) as Lw by (rewrite Eq; apply lowers_alpha; now apply forall_letter).
  rewrite Lw, orb_false_r in T. apply existsb_exists in T as (k & Ik & Ek). apply beq_eq in Ek. subst k.
  exfalso. apply (K _ Ik). apply any_case_lowers; [exact Lw|exact L|now symmetry].
Qed.
Lemma unknown_meaning u : unknown_word u -> usable (decode_special (lowers u)) = false.
Proof. exact (unknown_in DATE_TOKEN_TABLE u date_table_sorted table_checked). Qed.

Lemma string_refused f : usable (decode_special f) = false -> refused (Some KString, f).
Proof.
  intros U md o id types next c c'. unfold date_time_field, time_only_field. cbn [fst snd read_type bind]. unfold decode_string_token, time_string_token.
  destruct (decode_special f) as [[ty v]|e|x]; cbn [bind] in *; try (split; discriminate).
  destruct ty; cbn in U; try discriminate U; try (split; cbn; discriminate).
  cbn [tteq tt_eq_dec]. unfold tteq. destruct (tt_eq_dec RESERV IgnoreDtf); [discriminate|].
  destruct (tfield_of v) as [k| |]; cbn [bind]; try discriminate U. destruct k; try discriminate U; split; cbn; discriminate.
Qed.

Lemma text_date_refused u f1 : u <> [] -> forallb is_alpha u = true -> usable (decode_special u) = false ->
  match f1 with c :: _ => is_alpha c = false | [] => True end -> refused (Some KDate, u ++ f1).
Proof.
  intros N A U F. destruct u as [|ch u]; [easy|]. assert (is_alpha ch = true) as Ac by (cbn in A; now apply andb_prop in A as [A _]).
  assert (forall md f_mask d2 tm o x, decode_date md ((ch :: u) ++ f1) f_mask d2 tm o <> Ok x) as D.
  { intros md f_mask d2 tm o x. unfold decode_date. generalize (length ((ch :: u) ++ f1)). intros fu. cbn [date_parts app]. change (MAX_DATE_FIELDS <=? 0) with false. cbv iota.
    cbn [eat]. assert (is_alnum ch = true) as -> by (unfold is_alnum; now rewrite Ac). cbn [negb snd]. rewrite (alpha_not_digit ch Ac).
    unfold eat_alphabetics. change (ch :: u ++ f1) with ((ch :: u) ++ f1). rewrite stop_app by (exact A || exact F).
    destruct (date_parts fu (0 + 1) f1) as [fs| |]; cbn [bind]; try discriminate. cbn [text_month]. rewrite Ac.
    destruct (decode_special (ch :: u)) as [[ty v]| |]; cbn [bind]; try discriminate. destruct ty; cbn in U; try discriminate U; cbn; discriminate. }
  assert (forall md o c x, ctx_decode_date md ((ch :: u) ++ f1) o c <> Ok x) as D'.
  { intros md o c x. unfold ctx_decode_date. specialize (D md (c_fmask c) (c_2d c) (c_tm c) o).
    destruct (decode_date _ _ _ _ _ _) as [y| |]; [now destruct (D y)|discriminate..]. }
  intros md o id types next c c'. unfold date_time_field, time_only_field. cbn [fst snd read_type bind]. split.
  - unfold decode_date_token. destruct (tfeq (c_ptype c) KJulian).
    { destruct (str2i32 _) as [q| |]; try discriminate. cbn [bind]. destruct (julian2date md (fst q)); cbn [bind decode_timezone]; discriminate. }
    destruct (negb (is_num (c_ptype c)) || _) eqn:Q.
    + cbn [app]. rewrite (alpha_not_digit ch Ac). cbn [orb]. destruct (negb (is_num (c_ptype c))); [|discriminate].
      cbv zeta. repeat (match goal with |- context [if ?b then Err _ else _] => destruct b end; cbn [bind decode_timezone]; try discriminate).
    + specialize (D' md o c). destruct (ctx_decode_date _ _ _ _) as [y| |]; [now destruct (D' y)|discriminate..].
  - unfold time_date_token. destruct (Nat.eqb id 0 && Nat.leb 2 (length types)); [|discriminate].
    destruct (read_type _) as [k| |]; cbn [bind]; try discriminate.
    specialize (D' md o c).
    destruct (if tfeq k KDate then Ok true else _) as [[]| |]; cbn [bind]; try discriminate.
    destruct (ctx_decode_date _ _ _ _) as [y| |]; [now destruct (D' y)|discriminate..].
Qed.

Lemma unknown_never a u r : field_at a (u ++ r) -> unknown_word u -> match r with c :: _ => ~ letter c | [] => True end -> never (a ++ u ++ r).
Proof.
  intros F H R. apply never_by. intros ts P. apply (field_ends a _ F) in P. pose proof (unknown_meaning u H) as U. destruct H as (N & L & _).
  apply forall_letter in L. assert (match r with c :: _ => is_alpha c = false | [] => True end) as R'.
  { destruct r as [|c r]; [exact I|]. destruct (is_alpha c) eqn:A; [|reflexivity]. apply letter_iff in A. easy. }
  destruct u as [|ch u]; [easy|]. assert (is_alpha ch = true) as Ac by (cbn in L; now apply andb_prop in L as [L _]).
  assert (lowers (ch :: u) <> []) as Nl by discriminate.
  assert (forallb is_alpha (lowers (ch :: u)) = true) as La.
  { apply lowers_alpha in L. rewrite forallb_forall in *. intros x I. specialize (L x I). unfold is_alpha. rewrite L. apply orb_true_r. }
  assert (exists t rest, alpha_begin ((ch :: u) ++ r) = Ok (t, rest) /\ refused t) as (t & rest & E & Rt).
  { unfold alpha_begin, eat_alphabetics. rewrite stop_app by (exact L || exact R').
    assert (forall f1, match f1 with c :: _ => is_alpha c = false | [] => True end -> refused (Some KDate, lowers (ch :: u) ++ f1)) as D
      by (intros f1 Hf; now apply text_date_refused).
    assert (refused (Some KString, lowers (ch :: u))) as Sr by now apply string_refused.
    assert (forall f1 s2, eat date_word_char r = (f1, s2) -> match f1 with c :: _ => is_alpha c = false | [] => True end) as He.
    { intros f1 s2 He. destruct r as [|c r]; [cbn in He; now injection He as <- <-|]. cbn in He. destruct (date_word_char c).
      - destruct (eat date_word_char r). injection He as <- <-. exact R'.
      - injection He as <- <-. exact I. }
    generalize dependent (lowers (ch :: u)). intros f. intros _ _ _ D Sr.
    destruct r as [|c r]; [cbn [bind]; eauto|]. destruct ((c =? 45) || _ || _); cbn [bind].
    { destruct (eat date_word_char (c :: r)) as [f1 s2] eqn:E2. do 2 eexists. split; [reflexivity|]. exact (D f1 (He f1 s2 eq_refl)). }
    destruct ((c =? 43) || is_digit c); cbn [bind]; [|eauto].
    destruct (search_date_total f) as (o & Eo). rewrite Eo. cbn [bind]. destruct o; [eauto|].
    destruct (eat date_word_char (c :: r)) as [f1 s2] eqn:E2. do 2 eexists. split; [reflexivity|]. exact (D f1 (He f1 s2 eq_refl)). }
  exists t. split; [exact Rt|]. apply (ends_alpha ch (u ++ r) t rest ts Ac E P).
Qed.
