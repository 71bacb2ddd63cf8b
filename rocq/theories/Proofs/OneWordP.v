(** Texts of a single word: lemmas for C60. *)
From Verif Require Import Model.Parse Spec.Text Spec.Lexing Proofs.TokenP Proofs.LexP Proofs.DigitsP Proofs.FieldsP Proofs.SpaceP
  Spec.DateWords Spec.OneWord Proofs.DateWordsP.
From Coq Require Import List ZArith Bool Lia.
Import ListNotations.
Open Scope Z_scope.

(** The answer to a one-word text depends on the word only through its meaning, and every meaning is
    that of a keyword or of no keyword. *)
Lemma date_same md o k k' ty : ty = KString \/ ty = KSpecial -> decode_special k = decode_special k' ->
  decode_date_time md o [(Some ty, k)] = decode_date_time md o [(Some ty, k')].
Proof.
  intros T H. unfold decode_date_time. cbn [date_time_fields hd_error]. unfold date_time_field. cbn [fst snd read_type bind].
  destruct T as [-> | ->]; unfold decode_string_token; now rewrite H.
Qed.
Lemma time_same md o k k' ty : ty = KString \/ ty = KSpecial -> decode_special k = decode_special k' ->
  decode_time_only md o [(Some ty, k)] = decode_time_only md o [(Some ty, k')].
Proof.
  intros T H. unfold decode_time_only. cbn [time_only_fields hd_error]. unfold time_only_field. cbn [fst snd read_type bind].
  destruct T as [-> | ->]; unfold time_string_token; now rewrite H.
Qed.

Lemma meaning_of table k : sorted table ->
  (exists t, In t table /\ dt_token t = firstn 10 k /\ decode_nocache table k = decode_nocache table (dt_token t))
  \/ ((forall t, In t table -> dt_token t <> firstn 10 k) /\ decode_nocache table k = Ok (UnknownField, 0)).
Proof.
  intros S. unfold decode_nocache at 1 3. destruct (token_search_ok table (token_key k) S) as (o & E & H). rewrite E. cbn [bind].
  rewrite token_key_idem in H. change (token_key k) with (firstn 10 k) in H. destruct o as [t|].
  - left. exists t. destruct H as [I K]. split; [exact I|split; [exact K|]]. unfold decode_nocache.
    assert (token_key (dt_token t) = dt_token t) as -> by (rewrite K; apply token_key_idem).
    rewrite (token_search_found table (dt_token t) t S I); [reflexivity|]. rewrite K. symmetry. apply token_key_idem.
  - right. auto.
Qed.

(** Tokens of the texts *)
Lemma word_tokens w s : Forall letter w -> w <> [] -> (length w <= 128)%nat -> spaced [w] s ->
  parse_date_time s = Ok [(Some KString, lowers w)].
Proof.
  intros L N B S. rewrite (parse_spaced [w]); [|inversion S as [|b w' ws u Hb Pw Su Su2]; subst; destruct b; [|discriminate]; destruct w; [easy|discriminate]|exact S|cbn; lia|unfold total_length; cbn; lia].
  cbn [List.map]. unfold word_field. destruct w as [|c w]; [easy|]. inversion L as [|? ? Hc _]; subst. apply letter_iff in Hc.
  now rewrite (ParseP.alpha_not_digit c Hc).
Qed.

Lemma tokenize_eq fuel n room s : tokenize (S fuel) n room s =
  match eat_whitespaces s with
  | [] => Ok []
  | c :: r =>
      let s := c :: r in
      if MAX_DATE_FIELDS <=? n then Err EInvalid
      else
        let add (x : token * bytes) :=
          let '(t, rest) := x in
          let* room' := use_buf room (snd t) in
          let* ts := tokenize fuel (n + 1) room' rest in
          Ok (t :: ts) in
        if is_digit c then add (digit_begin s)
        else if c =? 46 then add (dot_begin r)
        else if is_alpha c then let* x := alpha_begin s in add x
        else if (c =? 43) || (c =? 45) then
          let* _ := use_buf room [c] in
          let* x := sign_begin c r in add x
        else if is_punct c then tokenize fuel n room (snd (eat is_punct s))
        else Err EInvalid
  end.
Proof. reflexivity. Qed.

Lemma signed_tokens b1 c b2 w b3 : Forall white b1 -> c = 43 \/ c = 45 -> Forall white b2 -> Forall letter w -> w <> [] -> Forall white b3 ->
  (length w <= 127)%nat -> parse_date_time (b1 ++ c :: b2 ++ w ++ b3) = Ok [(Some KSpecial, c :: lowers w)].
Proof.
  intros W1 C W2 L N W3 B. rewrite parse_leading by (exact W1 || discriminate).
  unfold parse_date_time. cbn [length]. generalize (length (b2 ++ w ++ b3)) as f. intros f.
  assert (is_space c = false) as Sc by (destruct C as [-> | ->]; reflexivity).
  rewrite tokenize_eq, eat_ws_cons by exact Sc. change (MAX_DATE_FIELDS <=? 0) with false. cbv iota zeta.
  assert (is_digit c = false /\ (c =? 46) = false /\ is_alpha c = false /\ ((c =? 43) || (c =? 45)) = true) as (-> & -> & -> & ->) by (destruct C as [-> | ->]; repeat split; reflexivity).
  unfold use_buf at 1. change (blen [c] <=? MAX_DATE_LEN) with true. cbn [bind].
  unfold sign_begin.
  assert (eat_whitespaces (b2 ++ w ++ b3) = w ++ b3) as ->.
  { rewrite eat_ws_app by now apply forall_white. destruct w as [|d w]; [easy|]. cbn [app]. apply eat_ws_cons. inversion L; subst. apply alpha_solid. now apply letter_iff. }
  destruct w as [|d w]; [easy|]. cbn [app]. inversion L as [|? ? Hd Hw]; subst. apply letter_iff in Hd.
  rewrite (ParseP.alpha_not_digit d Hd), Hd. change (d :: w ++ b3) with ((d :: w) ++ b3). unfold eat_alphabetics.
  rewrite eat_app; [|now apply forall_letter|].
  2:{ destruct W3 as [|e b3 He _]; [exact I|]. cbn. destruct (is_alpha e) eqn:A; [|reflexivity]. apply alpha_solid in A. apply white_iff in He. congruence. }
  cbn [bind snd]. unfold use_buf.
  assert (blen (c :: lowers (d :: w)) <=? MAX_DATE_LEN = true) as ->.
  { unfold blen. cbn [length]. rewrite lower_len. cbn [length] in *. unfold MAX_DATE_LEN. lia. }
  cbn [bind]. rewrite tokenize_white by now apply forall_white. reflexivity.
Qed.

(** ** The answers *)
Definition eqr (a b : res Z) : bool :=
  match a, b with Ok x, Ok y => x =? y | Err EInvalid, Err EInvalid => true | _, _ => false end.
Lemma eqr_eq a b : eqr a b = true -> a = b.
Proof. destruct a as [x|[]|], b as [y|[]|]; cbn; try easy. intros E. apply Z.eqb_eq in E. now subst. Qed.

(** Answers listed by word; any other word is an error. *)
Fixpoint listed (l : list (bytes * Z)) (k : bytes) : res Z :=
  match l with [] => Err EInvalid | (x, v) :: l => if beq k x then Ok v else listed l k end.

Lemma short_prefix (k x : bytes) : firstn 10 k = x -> (length x < 10)%nat -> k = x.
Proof. intros <- L. rewrite firstn_length in L. symmetry. apply firstn_all2. lia. Qed.

Lemma listed_prefix l t k : (forall x v, In (x, v) l -> (length x < 10)%nat) -> t = firstn 10 k -> listed l t = listed l k.
Proof.
  intros H ->. induction l as [|[x v] l IH]; [reflexivity|]. cbn [listed]. rewrite IH by (intros; eapply H; right; eauto).
  pose proof (H x v (or_introl eq_refl)) as L. destruct (beq (firstn 10 k) x) eqn:E.
  - apply beq_eq in E. apply short_prefix in E; [|exact L]. subst k. now rewrite (proj2 (beq_eq x x) eq_refl).
  - destruct (beq k x) eqn:E2; [|reflexivity]. apply beq_eq in E2. subst k. rewrite firstn_all2 in E by lia. now rewrite (proj2 (beq_eq x x) eq_refl) in E.
Qed.
Lemma listed_none l k : (forall x v, In (x, v) l -> k <> x) -> listed l k = Err EInvalid.
Proof.
  intros H. induction l as [|[x v] l IH]; [reflexivity|]. cbn [listed]. destruct (beq k x) eqn:E; [|apply IH; intros; eapply H; right; eauto].
  apply beq_eq in E. exfalso. now apply (H x v (or_introl eq_refl)).
Qed.

(** A parser [f] whose answer to a word depends only on the meaning *)
Lemma words_by_table (table : list date_token) (f : bytes -> res Z) l u :
  sorted table -> (forall k k', decode_nocache table k = decode_nocache table k' -> f k = f k') ->
  forallb (fun t => eqr (f (dt_token t)) (listed l (dt_token t))) table = true ->
  forallb (fun p => (length (fst p) <? 10)%nat && existsb (fun t => beq (dt_token t) (fst p)) table) l = true ->
  decode_nocache table u = Ok (UnknownField, 0) -> f u = Err EInvalid -> forall k, f k = listed l k.
Proof.
  intros S F T L U E k. rewrite forallb_forall in T, L.
  assert (forall x v, In (x, v) l -> (length x < 10)%nat /\ exists t, In t table /\ dt_token t = x) as L'.
  { intros x v I. specialize (L _ I). apply andb_prop in L as [L1 L2]. cbn [fst] in *. split; [now apply Nat.ltb_lt|].
    apply existsb_exists in L2 as (t & It & Et). exists t. split; [exact It|now apply beq_eq]. }
  destruct (meaning_of table k S) as [(t & It & Kt & Et)|[N En]].
  - rewrite (F k (dt_token t) Et), (eqr_eq _ _ (T t It)). apply listed_prefix; [|exact Kt]. intros. now apply (L' x v).
  - rewrite (F k u) by congruence. rewrite E. symmetry. apply listed_none. intros x v I ->. destruct (L' x v I) as (Lx & t & It & Et).
    apply (N t It). rewrite firstn_all2; [exact Et|lia].
Qed.

Definition date_answers : list (bytes * Z) := [(bs "infinity", i32_max); (bs "-infinity", i32_min); (bs "allballs", -730517)].
Definition timestamp_answers : list (bytes * Z) := [(bs "infinity", i64_max); (bs "-infinity", i64_min); (bs "allballs", -63116668800000000)].
Definition time_answers : list (bytes * Z) :=
  (bs "pm", 43200000000) :: List.map (fun x => (bs x, 0))
    ["ad"; "allballs"; "am"; "at"; "bc"; "d"; "dow"; "doy"; "h"; "isodow"; "j"; "jd"; "julian"; "m"; "mm"; "on"; "s"; "y"]%string.

Definition date_ts (md : mode) (o : Base.date_order) (ty : tfield) (k : bytes) : res Z :=
  let* q := decode_date_time md o [(Some ty, k)] in
  let '(tm, k, _) := q in
  match k with
  | KDate =>
      if negb (is_valid_julian (tm_year tm) (tm_mon tm)) then Err EInvalid
      else
        let* j := date2julian md (tm_year tm) (tm_mon tm) (tm_mday tm) in
        let* d := sub32 md j POSTGRES_EPOCH_JDATE in
        if negb (is_valid_date d) then Err EInvalid else Ok d
  | KLate => Ok i32_max
  | KEarly => Ok i32_min
  | _ => Err EInvalid
  end.
Definition timestamp_ts (md : mode) (o : Base.date_order) (ty : tfield) (k : bytes) : res Z :=
  let* q := decode_date_time md o [(Some ty, k)] in
  let '(tm, k, fsec) := q in
  match k with KDate => to_timestamp md tm fsec | KLate => Ok i64_max | KEarly => Ok i64_min | _ => Err EInvalid end.
Definition time_ts (md : mode) (o : Base.date_order) (ty : tfield) (k : bytes) : res Z :=
  let* x := decode_time_only md o [(Some ty, k)] in time_from_pgtime md (fst x) (snd x).

Lemma date_word md o ty : ty = KString \/ ty = KSpecial -> forall k, date_ts md o ty k = listed date_answers k.
Proof.
  destruct md, o; intros [-> | ->]; (apply (words_by_table DATE_TOKEN_TABLE) with (u := [113]);
    [exact date_table_sorted|intros k k' E; unfold date_ts; rewrite (date_same _ _ k k') by auto; reflexivity|vm_compute; reflexivity..]).
Qed.
Lemma timestamp_word md o ty : ty = KString \/ ty = KSpecial -> forall k, timestamp_ts md o ty k = listed timestamp_answers k.
Proof.
  destruct md, o; intros [-> | ->]; (apply (words_by_table DATE_TOKEN_TABLE) with (u := [113]);
    [exact date_table_sorted|intros k k' E; unfold timestamp_ts; rewrite (date_same _ _ k k') by auto; reflexivity|vm_compute; reflexivity..]).
Qed.
Lemma time_word md o ty : ty = KString \/ ty = KSpecial -> forall k, time_ts md o ty k = listed time_answers k.
Proof.
  destruct md, o; intros [-> | ->]; (apply (words_by_table DATE_TOKEN_TABLE) with (u := [113]);
    [exact date_table_sorted|intros k k' E; unfold time_ts; rewrite (time_same _ _ k k') by auto; reflexivity|vm_compute; reflexivity..]).
Qed.

(** Intervals *)
Lemma unit_meaning k : In (decode_units k) (Ok (UnknownField, 0) :: List.map (fun t => decode_units (dt_token t)) DELTA_TOKEN_TABLE).
Proof.
  destruct (meaning_of DELTA_TOKEN_TABLE k delta_table_sorted) as [(t & I & _ & E)|[_ E]].
  - right. apply in_map_iff. exists t. split; [symmetry; exact E|exact I].
  - left. symmetry. exact E.
Qed.

Lemma interval_word_field md range k x ty : ty = KString \/ ty = KSpecial ->
  exists r, interval_field md range (Some ty, k) (mkI (tt_code IgnoreDtf) 0 false KDelta) x = (x, r)
    /\ (r = Err EInvalid \/ exists i, r = Ok i /\ (i_fmask i = 0 \/ i_before i = false /\ i_dtype i = KInvalid)).
Proof.
  intros T. pose proof (unit_meaning k) as H. revert H. unfold interval_field.
  destruct T as [-> | ->]; cbn [fst snd read_type bind]; generalize (decode_units k); intros u H;
  match goal with H : In u ?l |- _ => let l' := eval vm_compute in l in change (In u l') in H end;
  repeat (destruct H as [<- | H]; [eexists; split; [reflexivity|first [left; reflexivity|right; eexists; split; [reflexivity|first [left; reflexivity|right; split; reflexivity]]]]|]); destruct H.
Qed.

Lemma interval_word md range st (k : bytes) ty : ty = KString \/ ty = KSpecial -> k <> [] ->
  exists x r, decode_interval md [(Some ty, k)] range st (tm_new, 0) = (x, r) /\ (r = Err EInvalid \/ r = Ok KInvalid).
Proof.
  intros T M. unfold decode_interval. cbn [rev app fst interval_fields].
  destruct (interval_word_field md range k (tm_new, 0) ty T) as (r & E & [-> |(i & -> & F)]); rewrite E; cbn [step_bind].
  - eauto.
  - destruct (i_fmask i =? 0) eqn:Z0; [eauto|]. destruct F as [F|[B D]]; [rewrite F in Z0; discriminate|].
    change (carry_fsec md (tm_new, 0)) with ((tm_new, 0), @Ok unit tt). cbn [step_bind snd]. rewrite B, D.
    destruct k as [|c k]; [easy|]. cbn [starts_minus]. destruct st, (c =? 45); cbn; eauto.
Qed.

Lemma one_word_tokens (sg w s : bytes) : one_word sg w s ->
  exists ty, (ty = KString \/ ty = KSpecial) /\ parse_date_time s = Ok [(Some ty, sg ++ lowers w)].
Proof.
  intros (L & B & [-> |G] & b1 & b2 & b3 & W1 & W2 & W3 & ->).
  - exists KString. split; [auto|]. assert (w <> []) by (intros ->; cbn in B; lia). apply word_tokens; [assumption..|lia|].
    cbn [app]. rewrite (app_assoc b1 b2). apply sp_cons; [now apply Forall_app|split; auto|now apply sp_nil|now left].
  - assert (w <> []) by (intros ->; cbn in B; lia).
    exists KSpecial. split; [auto|]. destruct G as [-> | ->]; cbn [app]; apply signed_tokens; auto; lia.
Qed.

Lemma date_one md o sg w s : one_word sg w s -> date_try_from_str md s o = listed date_answers (sg ++ lowers w).
Proof. intros H. destruct (one_word_tokens _ _ _ H) as (ty & T & E). unfold date_try_from_str. rewrite E. exact (date_word md o ty T _). Qed.
Lemma timestamp_one md o sg w s p : one_word sg w s ->
  timestamp_try_from_str md s p o = let* v := listed timestamp_answers (sg ++ lowers w) in timestamp_adjust_by_typmod md v p.
Proof.
  intros H. destruct (one_word_tokens _ _ _ H) as (ty & T & E). unfold timestamp_try_from_str. rewrite E, <- (timestamp_word md o ty T).
  unfold timestamp_ts. cbn [bind]. destruct (decode_date_time md o _) as [[[tm k] f]| |]; reflexivity.
Qed.
Lemma time_one md o sg w s p : one_word sg w s ->
  time_try_from_str md s p o = let* v := listed time_answers (sg ++ lowers w) in time_adjust_by_typmod md v p.
Proof.
  intros H. destruct (one_word_tokens _ _ _ H) as (ty & T & E). unfold time_try_from_str. rewrite E, <- (time_word md o ty T).
  unfold time_ts. cbn [bind]. destruct (decode_time_only md o _) as [x| |]; reflexivity.
Qed.
Lemma interval_one md st p sg w s : one_word sg w s -> hd 0 s <> 80 -> interval_try_from_str md s p st = Err EInvalid.
Proof.
  intros H P. destruct (one_word_tokens _ _ _ H) as (ty & T & E).
  assert (exists k : bytes, k = sg ++ lowers w) as [k K] by eauto.
  assert (parse_date_time s = Ok [(Some ty, k)]) as E' by (rewrite K; exact E). unfold interval_try_from_str. rewrite E'. cbn [bind].
  assert (k <> []) as M.
  { destruct H as (_ & B & _). subst k. destruct w; [cbn in B; lia|]. destruct sg; discriminate. }
  destruct (interval_word md (if 0 <=? p then interval_range p else INTERVAL_FULL_RANGE) st k ty T M) as (x & r & -> & [-> | ->]); [|reflexivity].
  unfold decode_iso8601_interval. destruct s as [|c [|d s]]; [reflexivity..|]. cbn [hd] in P. destruct (Z.eqb_spec c 80); [easy|reflexivity].
Qed.

(** Words in any letter case *)
Lemma lowers_case w : Forall letter w -> any_case w (lowers w).
Proof.
  induction 1 as [|c w H _ IH]; constructor; [|exact IH]. unfold lower. destruct (is_upper c) eqn:U; unfold is_upper in U; unfold letter in H; lia.
Qed.
Lemma case_lowers w word : any_case w word -> lowers w = word.
Proof. intros H. now destruct (any_case_facts _ _ H) as (_ & -> & _). Qed.
Lemma listed_refused l sg w : Forall letter w -> (forall x v, In (x, v) l -> forall y, x = sg ++ y -> ~ any_case w y) ->
  listed l (sg ++ lowers w) = Err EInvalid.
Proof. intros L H. apply listed_none. intros x v I <-. exact (H _ v I _ eq_refl (lowers_case w L)). Qed.
