(** Parsing never goes out of bounds, reads uninitialised memory or makes an invalid enum value,
    under conditions on how the text ends; the only other panic is arithmetic overflow in debug
    builds. *)
From Verif Require Import Model.Parse Proofs.Arith Proofs.DigitsP Proofs.TokenP Proofs.LexP.
From Coq Require Import Lia.
Open Scope Z_scope.

(** No fault but arithmetic overflow, and that only in debug builds *)
Definition sf {A} (md : mode) (r : res A) : Prop :=
  match r with
  | Fault FArith => md = Debug
  | Fault _ => False
  | _ => True
  end.

Lemma sf_bind {A B} md (m : res A) (k : A -> res B) :
  sf md m -> (forall a, m = Ok a -> sf md (k a)) -> sf md (bind m k).
Proof. destruct m as [a|e|f]; cbn; auto. Qed.

Create HintDb sf discriminated.
Global Hint Extern 0 (sf _ (Ok _)) => exact I : sf.
Global Hint Extern 0 (sf _ (Err _)) => exact I : sf.

Ltac sfs := intros; repeat (
  match goal with
  | |- sf _ (Ok _) => exact I
  | |- sf _ (Err _) => exact I
  | |- sf _ (bind _ _) => apply sf_bind; [|intros ? ?]
  | |- sf _ (match ?x with _ => _ end) => destruct x eqn:?
  | |- _ => solve [eauto with sf]
  end; cbv beta iota zeta).

Lemma sf_ar32 md z : sf md (ar32 md z).
Proof. unfold ar32. destruct (in32b z); [exact I|]. destruct md; [reflexivity|exact I]. Qed.
Lemma sf_ar64 md z : sf md (ar64 md z).
Proof. unfold ar64. destruct (in64b z); [exact I|]. destruct md; [reflexivity|exact I]. Qed.
Lemma sf_aru32 md z : sf md (aru32 md z).
Proof. unfold aru32. destruct (inu32b z); [exact I|]. destruct md; [reflexivity|exact I]. Qed.
Lemma sf_add32 md a b : sf md (add32 md a b). Proof. apply sf_ar32. Qed.
Lemma sf_sub32 md a b : sf md (sub32 md a b). Proof. apply sf_ar32. Qed.
Lemma sf_mul32 md a b : sf md (mul32 md a b). Proof. apply sf_ar32. Qed.
Lemma sf_neg32 md a : sf md (neg32 md a). Proof. apply sf_ar32. Qed.
Lemma sf_add64 md a b : sf md (add64 md a b). Proof. apply sf_ar64. Qed.
Lemma sf_sub64 md a b : sf md (sub64 md a b). Proof. apply sf_ar64. Qed.
Lemma sf_mul64 md a b : sf md (mul64 md a b). Proof. apply sf_ar64. Qed.
Lemma sf_neg64 md a : sf md (neg64 md a). Proof. apply sf_ar64. Qed.
Lemma sf_addu32 md a b : sf md (addu32 md a b). Proof. apply sf_aru32. Qed.
Lemma sf_subu32 md a b : sf md (subu32 md a b). Proof. apply sf_aru32. Qed.
Lemma sf_mulu32 md a b : sf md (mulu32 md a b). Proof. apply sf_aru32. Qed.
Lemma sf_ok_or {A} md (o : option A) e : sf md (ok_or o e).
Proof. destruct o; exact I. Qed.
Global Hint Resolve sf_add32 sf_sub32 sf_mul32 sf_neg32 sf_add64 sf_sub64 sf_mul64 sf_neg64
  sf_addu32 sf_subu32 sf_mulu32 sf_ok_or : sf.

(** ** Dates and times *)
Lemma sf_date2julian md y m d : sf md (date2julian md y m d).
Proof. unfold date2julian. sfs. Qed.
Lemma sf_julian2date md j : sf md (julian2date md j).
Proof. unfold julian2date. sfs. Qed.
Lemma sf_date2time md j : sf md (date2time md j).
Proof. unfold date2time. sfs. Qed.
Lemma sf_time2t md h m s f : sf md (time2t md h m s f).
Proof. unfold time2t. sfs. Qed.
Global Hint Resolve sf_date2julian sf_julian2date sf_date2time sf_time2t : sf.
Lemma sf_to_timestamp md tm fs : sf md (to_timestamp md tm fs).
Proof. unfold to_timestamp. sfs. Qed.
Lemma sf_index {A} md (l : list A) i : 0 <= i < Z.of_nat (length l) -> sf md (index l i).
Proof.
  intros H. unfold index. destruct (Z.ltb_spec i 0); [lia|]. destruct (nth_error l (Z.to_nat i)) eqn:E; [exact I|].
  apply nth_error_None in E. lia.
Qed.
Lemma sf_round_scale md v p : 0 <= p <= 6 -> sf md (round_scale md v p).
Proof.
  intros P. unfold round_scale. apply sf_bind; [apply sf_index; cbn; lia|]. intros off _.
  apply sf_bind; [apply sf_index; cbn; lia|]. intros sc _. sfs.
Qed.
Lemma sf_timestamp_adjust md t m : sf md (timestamp_adjust_by_typmod md t m).
Proof.
  unfold timestamp_adjust_by_typmod. destruct (_ && _); [|exact I]. destruct (_ || _) eqn:E; [exact I|].
  apply sf_round_scale. lia.
Qed.
Lemma sf_time_adjust md t m : sf md (time_adjust_by_typmod md t m).
Proof. unfold time_adjust_by_typmod. destruct (_ && _) eqn:E; [|exact I]. apply sf_round_scale. lia. Qed.
Lemma sf_time_from_pgtime md tm fs : sf md (time_from_pgtime md tm fs).
Proof. unfold time_from_pgtime. sfs. Qed.
Lemma sf_interval_from_pgtime md tm fs : sf md (interval_from_pgtime md tm fs).
Proof. unfold interval_from_pgtime. sfs. Qed.
Lemma sf_interval_adjust md a m : sf md (interval_adjust_by_typmod md a m).
Proof.
  unfold interval_adjust_by_typmod. destruct (0 <=? m); [|exact I]. apply sf_bind; [sfs|]. intros b _.
  destruct (negb _); [|exact I]. destruct (_ || _) eqn:E; [exact I|]. apply sf_bind; [|sfs]. apply sf_round_scale. lia.
Qed.
Global Hint Resolve sf_to_timestamp sf_timestamp_adjust sf_time_adjust sf_time_from_pgtime
  sf_interval_from_pgtime sf_interval_adjust : sf.

Lemma sf_days_of_month md y m : 1 <= m <= 12 -> sf md (days_of_month md y m).
Proof.
  intros M. unfold days_of_month, index_minus1, index.
  destruct (Z.eqb_spec m 0) as [Q|_]; [lia|]. destruct (Z.ltb_spec (m - 1) 0); [lia|].
  destruct (nth_error _ _) eqn:E; [exact I|]. apply nth_error_None in E.
  assert (length (DAY_TABLE (year_is_leap y)) = 13%nat) as L by (destruct (year_is_leap y); reflexivity). lia.
Qed.

Lemma sf_validate_date md fm j d2 bc tm : sf md (validate_date md fm j d2 bc tm).
Proof.
  unfold validate_date. apply sf_bind; [sfs|]. intros tm1 _. apply sf_bind; [sfs|]. intros tm2 _.
  destruct (has fm (mask MONTH) && ((tm_mon tm2 <? 1) || (MONTHS_PER_YEAR <? tm_mon tm2))) eqn:M; [exact I|].
  destruct (has fm (mask DAY) && ((tm_mday tm2 <? 1) || (31 <? tm_mday tm2))); [exact I|].
  destruct (Z.eqb_spec (Z.land fm DTK_DATE_M) DTK_DATE_M) as [D|_]; [|exact I].
  assert (has fm (mask MONTH) = true) as Hm.
  { unfold has. change (mask MONTH) with (Z.land DTK_DATE_M (mask MONTH)).
    rewrite Z.land_assoc, D. reflexivity. }
  rewrite Hm in M. cbn [andb] in M. unfold MONTHS_PER_YEAR in M.
  apply sf_bind; [apply sf_days_of_month; lia|]. intros dom _. destruct (dom <? tm_mday tm2); exact I.
Qed.
Global Hint Resolve sf_validate_date : sf.

(** ** Numbers *)
Lemma sf_str2i32 md s : sf md (str2i32 s).
Proof. unfold str2i32. sfs. Qed.
Lemma sf_str2d md s : sf md (str2d s).
Proof. unfold str2d. sfs. Qed.
Global Hint Resolve sf_str2i32 sf_str2d : sf.
Lemma sf_fraction md s : sf md (parse_fractional_second md (46 :: s)).
Proof. unfold parse_fractional_second. change (46 =? 46) with true. destruct md; cbn [debug_assert bind]; sfs. Qed.

Lemma sf_of_eq {A} md (r : res A) f : sf md r -> r = Fault f -> sf (A := unit) md (Fault f).
Proof. now intros H ->. Qed.

Lemma sf_decode_number_field md str fm st : sf md (snd (decode_number_field str fm st)).
Proof.
  assert (forall s f, str2i32 s = Fault f -> False) as N1.
  { intros s f E. pose proof (sf_str2i32 Release s) as H. rewrite E in H. destruct f; easy. }
  assert (forall s f, str2d s = Fault f -> False) as N2.
  { intros s f E. pose proof (sf_str2d Release s) as H. rewrite E in H. destruct f; easy. }
  unfold decode_number_field. cbv zeta.
  repeat match goal with
  | |- sf _ (snd (match ?x with _ => _ end)) => destruct x eqn:?
  | |- _ => exact I
  | H : str2i32 _ = Fault _ |- _ => exfalso; exact (N1 _ _ H)
  | H : str2d _ = Fault _ |- _ => exfalso; exact (N2 _ _ H)
  end.
Qed.
Lemma sf_number_field md str fm st : sf md (number_field str fm st).
Proof.
  unfold number_field. pose proof (sf_decode_number_field md str fm st) as H.
  destruct (decode_number_field str fm st) as [st' r]. cbn [snd] in H. apply sf_bind; [exact H|]. intros; exact I.
Qed.
Global Hint Resolve sf_number_field sf_fraction : sf.

Lemma sf_decode_number md str ht fm st o : sf md (decode_number md str ht fm st o).
Proof.
  unfold decode_number. cbv zeta. apply sf_bind; [apply sf_str2i32|]. intros [val s] _.
  destruct (beq s str); [exact I|]. destruct s as [|c s]; [sfs|].
  destruct (Z.eqb_spec c 46) as [->|_]; [|exact I]. destruct (2 <? _).
  - pose proof (sf_decode_number_field md str (Z.lor fm DTK_DATE_M) (mkN 0 (n_tm st) (n_fsec st) (n_2d st))) as H.
    destruct (decode_number_field _ _ _) as [st' r]. cbn [snd] in H. destruct r as [a|e|f]; [exact I|exact I|].
    destruct f; try exact H.
  - sfs.
Qed.
Global Hint Resolve sf_decode_number : sf.

(** ** Keywords *)
Lemma decode_special_in w ty v : decode_special w = Ok (ty, v) ->
  (ty, v) = (UnknownField, 0) \/ exists t, In t DATE_TOKEN_TABLE /\ dt_ty t = ty /\ dt_value t = v.
Proof.
  unfold decode_special, decode_nocache. destruct (token_search_ok DATE_TOKEN_TABLE (token_key w) date_table_sorted) as ([t|] & E & H).
  all: rewrite E; cbn [bind]; intros Q; injection Q as <- <-; eauto.
  destruct H as [I _]. eauto.
Qed.
Lemma decode_units_in w ty v : decode_units w = Ok (ty, v) ->
  (ty, v) = (UnknownField, 0) \/ exists t, In t DELTA_TOKEN_TABLE /\ dt_ty t = ty /\ dt_value t = v.
Proof.
  unfold decode_units, decode_nocache. destruct (token_search_ok DELTA_TOKEN_TABLE (token_key w) delta_table_sorted) as ([t|] & E & H).
  all: rewrite E; cbn [bind]; intros Q; injection Q as <- <-; eauto.
  destruct H as [I _]. eauto.
Qed.
Lemma sf_decode_special md w : sf md (decode_special w).
Proof.
  unfold decode_special, decode_nocache. destruct (token_search_ok DATE_TOKEN_TABLE (token_key w) date_table_sorted) as ([t|] & E & H).
  all: rewrite E; exact I.
Qed.
Lemma sf_decode_units md w : sf md (decode_units w).
Proof.
  unfold decode_units, decode_nocache. destruct (token_search_ok DELTA_TOKEN_TABLE (token_key w) delta_table_sorted) as ([t|] & E & H).
  all: rewrite E; exact I.
Qed.
Global Hint Resolve sf_decode_special sf_decode_units : sf.

(** Values of reserved words and units are field codes. *)
Definition is_code (v : Z) : bool := match tfield_of v with Ok _ => true | _ => false end.
Definition coded (ty : token_type) : bool :=
  match ty with RESERV | UNITS | ISOTIME | AGO => true | _ => false end.
Lemma date_codes : forallb (fun t => negb (coded (dt_ty t)) || is_code (dt_value t)) DATE_TOKEN_TABLE = true.
Proof. vm_compute. reflexivity. Qed.
Lemma delta_codes : forallb (fun t => negb (coded (dt_ty t)) || is_code (dt_value t)) DELTA_TOKEN_TABLE = true.
Proof. vm_compute. reflexivity. Qed.
Lemma special_code w ty v : decode_special w = Ok (ty, v) -> coded ty = true -> exists k, tfield_of v = Ok k.
Proof.
  intros E C. destruct (decode_special_in w ty v E) as [Q|(t & I & <- & <-)]; [injection Q as -> ->; discriminate|].
  pose proof (proj1 (forallb_forall _ _) date_codes t I) as H. cbn beta in H. rewrite C in H. cbn [negb orb] in H.
  unfold is_code in H. destruct (tfield_of (dt_value t)); try discriminate. eauto.
Qed.
Lemma units_code w ty v : decode_units w = Ok (ty, v) -> coded ty = true -> exists k, tfield_of v = Ok k.
Proof.
  intros E C. destruct (decode_units_in w ty v E) as [Q|(t & I & <- & <-)]; [injection Q as -> ->; discriminate|].
  pose proof (proj1 (forallb_forall _ _) delta_codes t I) as H. cbn beta in H. rewrite C in H. cbn [negb orb] in H.
  unfold is_code in H. destruct (tfield_of (dt_value t)); try discriminate. eauto.
Qed.

(** ** Dates *)
Lemma eat_length f s : (length (snd (eat f s)) <= length s)%nat.
Proof.
  pose proof (eat_split f s) as H. destruct (eat f s) as [a b]. destruct H as (-> & _). cbn [snd]. rewrite app_length. lia.
Qed.
Lemma eat_first f c r : f c = true -> (length (snd (eat f (c :: r))) <= length r)%nat.
Proof.
  intros F. cbn [eat]. rewrite F. pose proof (eat_length f r). destruct (eat f r). exact H.
Qed.

Lemma sf_date_parts md fuel : forall nf s, (length s < fuel)%nat -> sf md (date_parts fuel nf s).
Proof.
  induction fuel as [|fuel IH]; intros nf s L; [lia|]. cbn [date_parts]. destruct s as [|c0 s]; [exact I|].
  destruct (_ <=? nf); [exact I|].
  pose proof (eat_length (fun i => negb (is_alnum i)) (c0 :: s)) as Le.
  pose proof (eat_split (fun i => negb (is_alnum i)) (c0 :: s)) as Sp.
  destruct (eat _ (c0 :: s)) as [a b]. cbn [snd] in *. destruct Sp as (_ & _ & St).
  destruct b as [|c r]; [exact I|]. cbn [stops] in St. apply negb_false_iff in St.
  assert (length (snd (if is_digit c then eat_digits (c :: r) else eat_alphabetics (c :: r))) <= length r)%nat as Lp.
  { destruct (is_digit c) eqn:D; [now apply eat_first|]. apply eat_first. unfold is_alnum in St. rewrite D in St.
    now rewrite orb_false_r in St. }
  destruct (if is_digit c then _ else _) as [f p]. cbn [snd length] in *.
  apply sf_bind; [apply IH; lia|]. intros; exact I.
Qed.
Lemma sf_text_month md parts : forall fm t tm h, sf md (text_month parts fm t tm h).
Proof. induction parts as [|f parts IH]; intros fm t tm h; cbn [text_month]; sfs. Qed.
Lemma sf_number_parts md parts : forall h o fm t tm d2 fs, sf md (number_parts md parts h o fm t tm d2 fs).
Proof. induction parts as [|f parts IH]; intros h o fm t tm d2 fs; cbn [number_parts]; sfs. Qed.
Lemma sf_decode_date md str fm d2 tm o : sf md (decode_date md str fm d2 tm o).
Proof.
  unfold decode_date. apply sf_bind; [apply sf_date_parts; lia|]. intros parts _.
  apply sf_bind; [apply sf_text_month|]. intros [[[[p f] t] tm'] h] _.
  apply sf_bind; [apply sf_number_parts|]. intros [[[f' t'] tm2] d2'] _. destruct (negb _); exact I.
Qed.
Global Hint Resolve sf_decode_date : sf.

Lemma sf_decode_time md field range x : sf md (snd (decode_time md field range x)).
Proof.
  assert (forall s f, str2i32 s = Fault f -> False) as N1.
  { intros s f E. pose proof (sf_str2i32 Release s) as H. rewrite E in H. destruct f; easy. }
  unfold decode_time. cbv zeta.
  repeat match goal with
  | |- _ => exact I
  | |- sf _ (snd (if ?c =? 46 then match parse_fractional_second _ _ with _ => _ end else _)) =>
      destruct (Z.eqb_spec c 46) as [->|_]
  | |- sf _ (snd (match parse_fractional_second ?m (46 :: ?s) with _ => _ end)) =>
      let H := fresh in pose proof (sf_fraction m s) as H; destruct (parse_fractional_second m (46 :: s)); cbn [snd]
  | |- sf _ (snd (match ?x with _ => _ end)) => destruct x eqn:?; cbn [snd]
  | H : str2i32 _ = Fault _ |- _ => exfalso; exact (N1 _ _ H)
  | H : sf _ (Fault ?f) |- sf _ (Fault ?f) => destruct f; exact H
  end.
Qed.
Lemma sf_time_field md field x : sf md (time_field md field x).
Proof.
  unfold time_field. pose proof (sf_decode_time md field INTERVAL_FULL_RANGE x) as H.
  destruct (decode_time _ _ _ _) as [x' r]. cbn [snd] in H. apply sf_bind; [exact H|]. intros; exact I.
Qed.
Lemma sf_ctx_decode_date md s o c : sf md (ctx_decode_date md s o c).
Proof. unfold ctx_decode_date. sfs. Qed.
Lemma sf_ctx_number_field md s f c : sf md (ctx_number_field s f c).
Proof. unfold ctx_number_field. sfs. Qed.
Lemma sf_ctx_decode_number md s f o c : sf md (ctx_decode_number md s f o c).
Proof. unfold ctx_decode_number. sfs. Qed.
Lemma sf_merge_mask md c : sf md (merge_mask c).
Proof. unfold merge_mask. sfs. Qed.
Global Hint Resolve sf_time_field sf_ctx_decode_date sf_ctx_number_field sf_ctx_decode_number sf_merge_mask : sf.

Lemma sf_decode_date_token md f o c : sf md (decode_date_token md f o c).
Proof. unfold decode_date_token, decode_timezone. sfs. Qed.
Lemma sf_prefixed_number md s c : sf md (prefixed_number md s c).
Proof.
  unfold prefixed_number. apply sf_bind; [sfs|]. intros [val r] _. cbv zeta. apply sf_bind; [sfs|]. intros ? _.
  apply sf_bind; [|sfs]. destruct (c_ptype c); sfs. all: destruct r as [|c0 r]; try discriminate.
  apply Z.eqb_eq in Heqb. subst c0. sfs.
Qed.
Global Hint Resolve sf_decode_date_token sf_prefixed_number : sf.
Lemma sf_decode_number_token md s o c : sf md (decode_number_token md s o c).
Proof. unfold decode_number_token. cbv zeta. sfs. Qed.
Global Hint Resolve sf_decode_number_token : sf.

(** "t" at the end of the text is the one keyword that goes wrong. *)
Lemma isotime_table : forallb (fun t => negb (tteq (dt_ty t) ISOTIME) || beq (dt_token t) [116]) DATE_TOKEN_TABLE = true.
Proof. vm_compute. reflexivity. Qed.
Lemma isotime_word w v : decode_special w = Ok (ISOTIME, v) -> w = [116].
Proof.
  unfold decode_special, decode_nocache. destruct (token_search_ok DATE_TOKEN_TABLE (token_key w) date_table_sorted) as ([t|] & E & H).
  all: rewrite E; cbn [bind]. 2: discriminate. intros Q. injection Q as Ty _.
  destruct H as [I K]. pose proof (proj1 (forallb_forall _ _) isotime_table t I) as B. cbn beta in B.
  rewrite Ty in B. cbn [negb orb] in B. change (tteq ISOTIME ISOTIME) with true in B. cbn [negb orb] in B.
  apply beq_eq in B. rewrite B in K. clear - K. unfold token_key in K. change MAX_TOKEN_LEN with 10%nat in K.
  destruct w as [|a [|b w]]; cbn in K; congruence.
Qed.

Definition typed_next (next : option token) : Prop :=
  match next with Some (None, _) => False | _ => True end.
Lemma sf_decode_string_token md field next c : typed_next next ->
  (next = None -> field <> [116]) -> sf md (decode_string_token field next c).
Proof.
  intros T N. unfold decode_string_token. apply sf_bind; [sfs|]. intros [ty v] E. cbv beta iota zeta.
  destruct (tteq ty IgnoreDtf); [exact I|]. apply sf_bind; [|sfs].
  destruct ty; try exact I.
  - destruct (special_code field _ v E eq_refl) as (k & ->). cbn [bind]. destruct k; exact I.
  - destruct (special_code field _ v E eq_refl) as (k & ->). exact I.
  - destruct (special_code field _ v E eq_refl) as (k & ->). destruct (negb _); [exact I|].
    destruct next as [[[k'|] f]|]; [|easy|].
    + cbn [read_type bind]. destruct (negb _); exact I.
    + apply isotime_word in E. now destruct (N eq_refl).
Qed.

Lemma sf_date_time_field md o t next c : fst t <> None -> typed_next next ->
  (next = None -> t <> (Some KString, [116])) -> (fst t = Some KSpecial -> snd t <> [116]) ->
  sf md (date_time_field md o t next c).
Proof.
  intros T Tn N Sp. unfold date_time_field. destruct t as [[k|] f]; [|easy]. cbn [fst snd read_type bind] in *.
  destruct k; sfs.
  - apply sf_decode_string_token; auto. intros Q Q2. subst. now apply (N eq_refl).
  - apply sf_decode_string_token; auto.
Qed.

(** The last field is not a bare "t". *)
Definition ends_well (ts : list token) : Prop := forall ts', ts <> ts' ++ [(Some KString, [116])].
Definition all_typed (ts : list token) : Prop := Forall (fun t => fst t <> None) ts.

Lemma special_not_t t : shape t -> fst t = Some KSpecial -> snd t <> [116].
Proof.
  unfold shape. intros S E. rewrite E in S. destruct S as (c & r & -> & C & _). intros Q. injection Q as -> _. lia.
Qed.
Lemma typed_hd ts : all_typed ts -> typed_next (hd_error ts).
Proof. intros H. destruct H as [|[[k|] f] ts N H]; cbn; auto. Qed.

Lemma sf_date_time_fields md o ts : forall c, Forall shape ts -> all_typed ts -> ends_well ts ->
  sf md (date_time_fields md o ts c).
Proof.
  induction ts as [|t ts IH]; intros c S T E; [exact I|]. cbn [date_time_fields].
  inversion S as [|t' ts' St Sts]; subst. inversion T as [|t' ts' Tt Tts]; subst.
  apply sf_bind; [|intros c' _; apply IH; auto; intros ts' Q; apply (E (t :: ts')); now rewrite Q].
  apply sf_date_time_field; auto; [now apply typed_hd| |now apply special_not_t].
  intros Q. destruct ts; [|discriminate]. intros ->. now apply (E []).
Qed.

Lemma sf_apply_mer md mer tm : sf md (apply_mer md mer tm).
Proof. unfold apply_mer. sfs. Qed.
Global Hint Resolve sf_apply_mer : sf.

Lemma sf_decode_date_time md o ts : Forall shape ts -> all_typed ts -> ends_well ts -> sf md (decode_date_time md o ts).
Proof.
  intros S T E. unfold decode_date_time. apply sf_bind; [now apply sf_date_time_fields|]. intros c _. sfs.
Qed.

(** ** Times of day *)
Lemma sf_nth_type md (types : list (option tfield)) i : Forall (fun t => t <> None) types -> (i < length types)%nat ->
  sf md (read_type (nth i types None)).
Proof.
  intros F L. rewrite Forall_forall in F. specialize (F (nth i types None) (nth_In _ _ L)).
  destruct (nth i types None); [exact I|easy].
Qed.

Lemma sf_time_date_token md id types f o c : Forall (fun t => t <> None) types -> sf md (time_date_token md id types f o c).
Proof.
  intros F. unfold time_date_token. cbv zeta. destruct (Nat.eqb id 0 && Nat.leb 2 (length types)) eqn:E; [|exact I].
  apply andb_prop in E as [_ E]. apply Nat.leb_le in E.
  apply sf_bind; [apply sf_nth_type; auto; lia|]. intros last _. apply sf_bind; [|sfs].
  destruct (tfeq last KDate); [exact I|]. apply sf_bind; [apply sf_nth_type; auto; lia|]. intros; exact I.
Qed.
Lemma sf_time_number_token md id types f o c : Forall (fun t => t <> None) types -> sf md (time_number_token md id types f o c).
Proof.
  intros F. unfold time_number_token. cbv zeta. destruct (negb _); [apply sf_prefixed_number|].
  destruct (negb _); [|sfs].
  apply sf_bind; [|sfs]. destruct (Nat.eqb id 0 && Nat.leb 2 (length types)) eqn:E; [|exact I].
  apply andb_prop in E as [_ E]. apply Nat.leb_le in E.
  apply sf_bind; [apply sf_nth_type; auto; lia|]. intros; exact I.
Qed.
Lemma sf_time_string_token md field next c : typed_next next -> sf md (time_string_token field next c).
Proof.
  intros T. unfold time_string_token. apply sf_bind; [sfs|]. intros [ty v] E. cbv beta iota zeta.
  destruct (tteq ty IgnoreDtf); [exact I|]. apply sf_bind; [|sfs].
  destruct ty; try exact I.
  - destruct (special_code field _ v E eq_refl) as (k & ->). cbn [bind]. destruct k; exact I.
  - destruct (special_code field _ v E eq_refl) as (k & ->). exact I.
  - destruct (special_code field _ v E eq_refl) as (k & ->).
    destruct next as [[[k'|] f]|]; [|easy|exact I].
    cbn [read_type bind]. destruct (negb _); exact I.
Qed.
Lemma sf_time_only_field md o id types t next c : Forall (fun t => t <> None) types -> fst t <> None ->
  typed_next next -> sf md (time_only_field md o id types t next c).
Proof.
  intros F T Tn. unfold time_only_field. destruct t as [[k|] f]; [|easy]. cbn [fst snd read_type bind] in *.
  unfold decode_timezone. destruct k; sfs.
  - now apply sf_time_number_token.
  - now apply sf_time_string_token.
  - now apply sf_time_date_token.
  - now apply sf_time_string_token.
Qed.
Lemma sf_time_only_fields md o types ts : forall id c, Forall (fun t => t <> None) types -> all_typed ts ->
  sf md (time_only_fields md o id types ts c).
Proof.
  induction ts as [|t ts IH]; intros id c F T; [exact I|]. cbn [time_only_fields].
  inversion T as [|t' ts' Tt Tts]; subst.
  apply sf_bind; [|intros c' _; now apply IH]. apply sf_time_only_field; auto. now apply typed_hd.
Qed.
Lemma sf_decode_time_only md o ts : all_typed ts -> sf md (decode_time_only md o ts).
Proof.
  intros T. unfold decode_time_only. apply sf_bind.
  - apply sf_time_only_fields; auto. rewrite Forall_map. exact T.
  - intros c _. sfs.
Qed.

(** ** Intervals *)
Definition sfx {A} md (m : tm_step A) : Prop := sf md (snd m).
Lemma sfx_bind {A B} md (m : tm_step A) (k : tmf -> A -> tm_step B) :
  sfx md m -> (forall x a, m = (x, Ok a) -> sfx md (k x a)) -> sfx md (step_bind m k).
Proof. destruct m as [x [a|e|f]]; cbn; auto. Qed.
Lemma sfx_set md x r set : sf md r -> sfx md (step_set x r set).
Proof. destruct r as [a|e|f]; cbn; auto. Qed.
Lemma sfx_decode_time md f r x : sfx md (decode_time md f r x).
Proof. apply sf_decode_time. Qed.

Ltac sfxs := repeat (
  match goal with
  | |- sfx _ (_, Ok _) => exact I
  | |- sfx _ (_, Err _) => exact I
  | |- sfx _ (step_bind _ _) => apply sfx_bind; [|intros ? ? _]
  | |- sfx _ (step_set _ _ _) => apply sfx_set; sfs
  | |- sfx _ (decode_time _ _ _ _) => apply sfx_decode_time
  | |- sfx _ (match ?x with _ => _ end) => destruct x eqn:?
  end; cbv beta iota zeta).

Lemma sfx_adjust_seconds md fr sc x : sfx md (adjust_fract_seconds md fr sc x).
Proof. unfold adjust_fract_seconds. sfxs. Qed.
Lemma sfx_adjust_days md fr sc x : sfx md (adjust_fract_days md fr sc x).
Proof. unfold adjust_fract_days. sfxs. apply sfx_adjust_seconds. Qed.
Lemma sfx_add_years md v k f m x : sfx md (add_years md v k f m x).
Proof. unfold add_years. sfxs. Qed.
Lemma sfx_negate_clock md x : sfx md (negate_clock md x).
Proof. unfold negate_clock. sfxs. Qed.
Lemma sfx_negate_all md x : sfx md (negate_all md x).
Proof. unfold negate_all. sfxs. Qed.
Lemma sfx_carry md x : sfx md (carry_fsec md x).
Proof. unfold carry_fsec. sfxs. Qed.

(** The unit in force is a field code. *)
Definition unit_ok (ty : Z) : Prop := ty = tt_code IgnoreDtf \/ exists k, tfield_of ty = Ok k.
Lemma default_unit_ok ty range : unit_ok ty -> exists k, tfield_of (default_unit ty range) = Ok k.
Proof.
  intros U. unfold default_unit. destruct (Z.eqb_spec ty (tt_code IgnoreDtf)) as [_|N].
  - repeat match goal with |- context [if ?b then _ else _] => destruct b end; eexists; reflexivity.
  - destruct U as [U|U]; [easy|exact U].
Qed.
Lemma interval_number_ok md f ty : f <> [] -> sf md (interval_number md f ty) /\
  forall ty' v fv, interval_number md f ty = Ok (ty', v, fv) -> ty' = ty \/ ty' = kcode KMonth.
Proof.
  intros N. assert (exists b, starts_minus f = Ok b) as (b & Eb) by (destruct f; [easy|cbn; eauto]).
  unfold interval_number. rewrite Eb. split.
  - sfs.
  - destruct (str2i32 f) as [[val s]| |]; cbn [bind]; try discriminate.
    destruct s as [|c r]; [intros ty' v fv Q; injection Q; auto|].
    destruct (c =? 45).
    + destruct (str2i32 r) as [[v2 s2]| |]; cbn [bind]; try discriminate. destruct (_ || _); [discriminate|].
      destruct s2; [|discriminate]. intros ty' v fv Q.
      apply bind_inv in Q as (q1 & _ & Q). destruct (_ || _); [discriminate|].
      apply bind_inv in Q as (q2 & _ & Q). apply bind_inv in Q as (q3 & _ & Q). injection Q; auto.
    + destruct (c =? 46); [|discriminate]. destruct (str2d (c :: r)) as [[v2 s2]| |]; cbn [bind]; try discriminate.
      destruct s2; [|discriminate]. intros ty' v fv Q. injection Q; auto.
Qed.

Lemma sfx_interval_number_field md f ty range x : f <> [] -> unit_ok ty ->
  sfx md (interval_number_field md f ty range x)
  /\ forall x' r, interval_number_field md f ty range x = (x', Ok r) -> unit_ok (fst r).
Proof.
  intros N U. unfold interval_number_field. destruct (default_unit_ok ty range U) as (k0 & Ek0).
  destruct (interval_number_ok md f (default_unit ty range) N) as [S P].
  destruct (interval_number md f (default_unit ty range)) as [[[ty' v] fv]|e|f']; [|split; [exact I|discriminate]|].
  2:{ split; [exact S|discriminate]. }
  assert (exists k, tfield_of ty' = Ok k) as (k & Ek).
  { destruct (P ty' v fv eq_refl) as [->| ->]; [eauto|]. eexists; reflexivity. }
  rewrite Ek. cbv zeta.
  assert (forall (m : tm_step unit) t' tm', sfx md m -> unit_ok t' ->
    sfx md (step_bind m (fun x _ => (x, Ok (t', tm'))))
    /\ forall x' r, step_bind m (fun x _ => (x, Ok (t', tm'))) = (x', @Ok (Z * Z) r) -> unit_ok (fst r)) as Ret.
  { intros m t' tm' Sm Ut. split; [apply sfx_bind; [exact Sm|intros; exact I]|].
    destruct m as [xm [a|e|f0]]; cbn; try discriminate. intros x' r Q. injection Q as <- <-. exact Ut. }
  assert (unit_ok ty') as U' by (right; eauto).
  assert (unit_ok (kcode KDay)) as Ud by (right; eexists; reflexivity).
  destruct k; try (apply Ret; [|assumption]); try (split; [exact I|discriminate]); sfxs;
    try apply sfx_adjust_seconds; try apply sfx_adjust_days; try apply sfx_add_years.
Qed.

Lemma sfx_interval_field md range t i x : shape t -> fst t <> None -> unit_ok (i_ty i) ->
  sfx md (interval_field md range t i x)
  /\ forall x' i', interval_field md range t i x = (x', Ok i') -> unit_ok (i_ty i').
Proof.
  intros S T U. pose proof (shape_nonempty t S) as N. unfold interval_field. destruct t as [[k|] f]; [|easy].
  cbn [fst snd] in *.
  assert (forall m j y, unit_ok (i_ty j) -> sfx md (merge_i m j y) /\
    forall x' i', merge_i m j y = (x', Ok i') -> unit_ok (i_ty i')) as Mg.
  { intros m j y Uj. unfold merge_i. destruct (has _ _); (split; [exact I|]); [discriminate|].
    intros x' i' Q. injection Q as _ <-. exact Uj. }
  assert (sfx md (step_bind (interval_number_field md f (i_ty i) range x)
      (fun x r => merge_i (snd r) (i_set_ty (fst r) i) x)) /\
    forall x' i', step_bind (interval_number_field md f (i_ty i) range x)
      (fun x r => merge_i (snd r) (i_set_ty (fst r) i) x) = (x', Ok i') -> unit_ok (i_ty i')) as Num.
  { destruct (sfx_interval_number_field md f (i_ty i) range x N U) as [Sn Un].
    destruct (interval_number_field md f (i_ty i) range x) as [x1 [r|e|f1]]; cbn [step_bind];
      [|split; [exact I|discriminate]|split; [exact Sn|discriminate]].
    apply Mg. cbn. now apply (Un x1 r). }
  assert (unit_ok (kcode KDay)) as Ud by (right; eexists; reflexivity).
  assert (sfx md (match decode_units f with Err e => (x, Err e) | Fault f => (x, Fault f) | Ok (ty, val) =>
      match ty with
      | IgnoreDtf => (x, Ok i)
      | UNITS => merge_i 0 (i_set_ty val i) x
      | AGO => merge_i 0 (mkI val (i_fmask i) true (i_dtype i)) x
      | RESERV =>
          match tfield_of val with
          | Ok k => merge_i (Z.lor DTK_DATE_M DTK_TIME_M) (mkI (i_ty i) (i_fmask i) (i_before i) k) x
          | Err e => (x, Err e)
          | Fault f => (x, Fault f)
          end
      | _ => (x, Err EInvalid)
      end end) /\ forall x' i', (match decode_units f with Err e => (x, Err e) | Fault f => (x, Fault f) | Ok (ty, val) =>
      match ty with
      | IgnoreDtf => (x, Ok i)
      | UNITS => merge_i 0 (i_set_ty val i) x
      | AGO => merge_i 0 (mkI val (i_fmask i) true (i_dtype i)) x
      | RESERV =>
          match tfield_of val with
          | Ok k => merge_i (Z.lor DTK_DATE_M DTK_TIME_M) (mkI (i_ty i) (i_fmask i) (i_before i) k) x
          | Err e => (x, Err e)
          | Fault f => (x, Fault f)
          end
      | _ => (x, Err EInvalid)
      end end) = (x', Ok i') -> unit_ok (i_ty i')) as Str.
  { pose proof (sf_decode_units md f) as Su. destruct (decode_units f) as [[ty v]|e|f1] eqn:E; [|split; [exact I|discriminate]|split; [exact Su|discriminate]].
    destruct ty; try (split; [exact I|discriminate]).
    all: try (destruct (units_code f _ v E eq_refl) as (k1 & Ek)).
    all: try (apply Mg; right; eauto).
    all: try (rewrite Ek; apply Mg; exact U).
    all: split; [exact I|]; intros x' i' Q; injection Q as _ <-; exact U. }
  destruct k; try (split; [exact I|discriminate]); try exact Num; try exact Str.
  - (* Time *)
    pose proof (sfx_decode_time md f range x) as Sd. destruct (decode_time md f range x) as [x1 [r|e|f1]]; cbn [step_bind];
      [|split; [exact I|discriminate]|split; [exact Sd|discriminate]]. now apply Mg.
  - (* Tz *)
    destruct S as (c & r & Ef & C & _). cbn [snd] in Ef. subst f.
    assert (debug_assert md ((c =? 45) || (c =? 43)) = Ok tt) as ->.
    { destruct md; [|reflexivity]. destruct C as [-> | ->]; reflexivity. }
    destruct (existsb _ _); [|exact Num].
    pose proof (sfx_decode_time md r range x) as Sd. destruct (decode_time md r range x) as [x1 [r1|e|f1]]; cbn [step_bind];
      [|split; [exact I|discriminate]|split; [exact Sd|discriminate]].
    destruct (c =? 45).
    + pose proof (sfx_negate_clock md x1) as Sn. destruct (negate_clock md x1) as [x2 [r2|e|f2]]; cbn [step_bind];
      [|split; [exact I|discriminate]|split; [exact Sn|discriminate]]. now apply Mg.
    + cbn [step_bind]. now apply Mg.
Qed.

Lemma sfx_interval_fields md range ts : forall i x, Forall shape ts -> all_typed ts -> unit_ok (i_ty i) ->
  sfx md (interval_fields md range ts i x).
Proof.
  induction ts as [|t ts IH]; intros i x S T U; [exact I|]. cbn [interval_fields].
  inversion S as [|t' ts' St Sts]; subst. inversion T as [|t' ts' Tt Tts]; subst.
  destruct (sfx_interval_field md range t i x St Tt U) as [Sf Uf].
  apply sfx_bind; [exact Sf|]. intros x' i' E. apply IH; auto. now apply (Uf x').
Qed.
Lemma sfx_decode_interval md ts range style x : Forall shape ts -> all_typed ts -> sfx md (decode_interval md ts range style x).
Proof.
  intros S T. unfold decode_interval. cbv zeta. apply sfx_bind.
  - apply sfx_interval_fields; [now apply Forall_rev|now apply Forall_rev|now left].
  - intros x1 i E. destruct (i_fmask i =? 0) eqn:Fm; [exact I|]. apply sfx_bind; [apply sfx_carry|]. intros x2 _ _.
    destruct ts as [|t ts]; [cbn in E; injection E as _ <-; discriminate|].
    assert (snd t <> []) as N by (inversion S; subst; now apply shape_nonempty).
    assert (exists b, starts_minus (snd t) = Ok b) as (b & ->) by (destruct (snd t); [easy|cbn; eauto]).
    apply sfx_bind; [|intros; exact I]. destruct (i_before i); [apply sfx_negate_all|exact I].
Qed.

Lemma sf_done {A} md (m : tm_step A) : sfx md m -> sf md (done m).
Proof. destruct m as [x r]. intros H. unfold done. apply sf_bind; [exact H|]. intros; exact I. Qed.
Lemma sf_upd md x r set : sf md r -> sf md (upd x r set).
Proof. intros H. unfold upd. sfs. Qed.
Lemma sf_fract_secs md f sc x : sf md (fract_secs md f sc x).
Proof. unfold fract_secs. apply sf_bind; [apply sf_done, sfx_adjust_seconds|intros; exact I]. Qed.
Lemma sf_fract_days md f sc x : sf md (fract_days md f sc x).
Proof. unfold fract_days. apply sf_bind; [apply sf_done, sfx_adjust_days|intros; exact I]. Qed.
Lemma sf_add_year md v x : sf md (add_year md v x). Proof. apply sf_upd, sf_add32. Qed.
Lemma sf_add_mon md v x : sf md (add_mon md v x). Proof. apply sf_upd, sf_add32. Qed.
Lemma sf_add_mday md v x : sf md (add_mday md v x). Proof. apply sf_upd, sf_add32. Qed.
Lemma sf_add_hour md v x : sf md (add_hour md v x). Proof. apply sf_upd, sf_add32. Qed.
Lemma sf_add_min md v x : sf md (add_min md v x). Proof. apply sf_upd, sf_add32. Qed.
Lemma sf_add_sec md v x : sf md (add_sec md v x). Proof. apply sf_upd, sf_add32. Qed.
Lemma sf_iso_number md s : sf md (parse_iso8601_number s).
Proof. unfold parse_iso8601_number. sfs. Qed.
Global Hint Resolve sf_fract_secs sf_fract_days sf_add_year sf_add_mon sf_add_mday sf_add_hour sf_add_min sf_add_sec
  sf_iso_number : sf.

Lemma sf_date_left md s u h v f x : sf md (decode_date_part_left md s u h v f x).
Proof. unfold decode_date_part_left. sfs. Qed.
Lemma sf_time_left md s u h v f x : sf md (decode_time_part_left md s u h v f x).
Proof. unfold decode_time_part_left. sfs. Qed.
Global Hint Resolve sf_date_left sf_time_left : sf.

Lemma str2d_rest s v r : str2d s = Ok (v, r) -> (length r <= length s)%nat.
Proof.
  unfold str2d. pose proof (eat_length is_space s) as Lw. unfold eat_whitespaces.
  destruct (snd (eat is_space s)) as [|c w]; [intros H; injection H as _ <-; cbn; lia|].
  assert (length (snd (extract_sign (c :: w))) <= length (c :: w))%nat as Ls.
  { unfold extract_sign. repeat match goal with |- context [if ?b then _ else _] => destruct b end; cbn [snd length]; lia. }
  destruct (extract_sign (c :: w)) as [sg s1]. cbn [snd] in Ls. unfold eat_digits.
  pose proof (eat_length is_digit s1) as Ld. destruct (eat is_digit s1) as [ig s2]. cbn [snd] in Ld.
  destruct (_ <? blen ig); [discriminate|].
  set (q := match s2 with [] => _ | c :: r => _ end).
  assert (length (snd q) <= length s2)%nat as Lq.
  { unfold q. destruct s2 as [|c2 s3]; [cbn; lia|]. destruct (c2 =? 46); [|cbn; lia].
    cbn [length]. apply le_S, (eat_length is_digit s3). }
  destruct q as [fr s4]. cbn [snd] in Lq. destruct (_ <? blen fr); [discriminate|]. cbv zeta.
  intros H. injection H as _ <-. lia.
Qed.
Lemma iso_number_rest s v f r : parse_iso8601_number s = Ok (v, f, r) -> (length r < length s)%nat.
Proof.
  unfold parse_iso8601_number. destruct s as [|c s]; [discriminate|]. destruct (negb _); [discriminate|].
  destruct (str2d (c :: s)) as [[v1 r1]| |] eqn:E; cbn [bind]; try discriminate.
  apply str2d_rest in E. destruct (Nat.eqb (length r1) (length (c :: s))) eqn:Q; [discriminate|].
  apply Nat.eqb_neq in Q. destruct (_ || _); [discriminate|]. cbv zeta. intros H. injection H as _ _ <-. lia.
Qed.
Lemma date_left_rest md s u h v f x x' s' : decode_date_part_left md s u h v f x = Ok (x', Some s') ->
  (length s' <= length s)%nat.
Proof.
  unfold decode_date_part_left. destruct h; [discriminate|]. intros H.
  apply bind_inv in H as (x1 & _ & H). apply bind_inv in H as (x2 & _ & H).
  destruct (u =? 0); [discriminate|]. destruct (u =? 84); [injection H as _ <-; lia|].
  apply bind_inv in H as ([[v1 f1] r1] & E & H). apply iso_number_rest in E.
  apply bind_inv in H as (x3 & _ & H). apply bind_inv in H as (x4 & _ & H).
  destruct r1 as [|c r1]; [discriminate|]. destruct (c =? 84); [injection H as _ <-; lia|].
  destruct (negb _); [discriminate|]. apply bind_inv in H as ([[v2 f2] r2] & E2 & H). apply iso_number_rest in E2.
  apply bind_inv in H as (x5 & _ & H). apply bind_inv in H as (x6 & _ & H).
  destruct r2 as [|c2 r2]; [discriminate|]. cbn [length] in *. destruct (c2 =? 84); [|discriminate].
  injection H as _ <-. cbn [length] in *. lia.
Qed.

Lemma sf_iso_loop md fuel : forall s d h x, (length s < fuel)%nat -> sf md (iso_loop md fuel s d h x).
Proof.
  induction fuel as [|fuel IH]; intros s d h x L; [lia|]. cbn [iso_loop]. destruct s as [|c s]; [exact I|].
  cbn [length] in L. destruct (c =? 84); [apply IH; lia|]. cbv zeta.
  apply sf_bind; [sfs|]. intros [[v f] r] E. apply iso_number_rest in E. cbn [length] in E.
  set (p := match r with [] => (0, []) | c :: r => (c, r) end).
  assert (length (snd p) < fuel)%nat as Lp by (unfold p; destruct r; cbn [snd length] in *; lia).
  destruct p as [u s2]. cbn [snd] in Lp.
  assert (forall x' s', decode_date_part_left md s2 u h v f x = Ok (x', Some s') -> (length s' < fuel)%nat) as Ll.
  { intros x' s' Q. apply date_left_rest in Q. lia. }
  assert (forall d h x, sf md (iso_loop md fuel s2 d h x)) as Nx by (intros; apply IH; lia).
  assert (sf md (let* q := decode_date_part_left md s2 u h v f x in
    match q with (x0, None) => Ok x0 | (x0, Some s0) => iso_loop md fuel s0 false false x0 end)) as Lf.
  { apply sf_bind; [sfs|]. intros [x' [s'|]] Q; [|exact I]. apply IH. now apply (Ll x'). }
  clear Lf. sfs; auto. all: eapply IH, Ll; subst; eauto.
Qed.
Lemma sf_iso md s x : sf md (decode_iso8601_interval md s x).
Proof.
  unfold decode_iso8601_interval. cbv zeta. destruct s as [|c [|c2 s]]; try exact I. destruct (c =? 80); [|exact I].
  apply sf_iso_loop. lia.
Qed.

(** ** The parsers *)
Lemma sf_parse md s : (sig s <= 128)%nat -> sf md (parse_date_time s).
Proof.
  intros L. destruct s as [|c s]; [exact I|]. destruct (parse_ok (c :: s)) as [(ts & -> & _)| ->]; easy.
Qed.
Lemma parse_shape s ts : parse_date_time s = Ok ts -> Forall shape ts.
Proof. intros E. apply (lexed_shape s), parse_lexed, E. Qed.

Definition fields_typed (s : bytes) : Prop := forall ts, parse_date_time s = Ok ts -> all_typed ts.
Definition fields_end_well (s : bytes) : Prop := forall ts, parse_date_time s = Ok ts -> ends_well ts.

Lemma sf_date_from_str md s o : (sig s <= 128)%nat -> fields_typed s -> fields_end_well s ->
  sf md (date_try_from_str md s o).
Proof.
  intros L T W. unfold date_try_from_str. apply sf_bind; [now apply sf_parse|]. intros ts E.
  apply sf_bind; [apply sf_decode_date_time; [exact (parse_shape s ts E)|auto|auto]|].
  intros [[tm k] fs] _. sfs.
Qed.
Lemma sf_timestamp_from_str md s m o : (sig s <= 128)%nat -> fields_typed s -> fields_end_well s ->
  sf md (timestamp_try_from_str md s m o).
Proof.
  intros L T W. unfold timestamp_try_from_str. apply sf_bind; [now apply sf_parse|]. intros ts E.
  apply sf_bind; [apply sf_decode_date_time; [exact (parse_shape s ts E)|auto|auto]|].
  intros [[tm k] fs] _. sfs.
Qed.
Lemma sf_time_from_str md s m o : (sig s <= 128)%nat -> fields_typed s -> sf md (time_try_from_str md s m o).
Proof.
  intros L T. unfold time_try_from_str. apply sf_bind; [now apply sf_parse|]. intros ts E.
  apply sf_bind; [apply sf_decode_time_only; auto|]. intros x _. sfs.
Qed.
Lemma sf_interval_from_str md s m st : (sig s <= 128)%nat -> fields_typed s -> sf md (interval_try_from_str md s m st).
Proof.
  intros L T. unfold interval_try_from_str. cbv zeta. apply sf_bind; [now apply sf_parse|]. intros ts E.
  set (range := if 0 <=? m then _ else _).
  pose proof (sfx_decode_interval md ts range st (tm_new, 0) (parse_shape s ts E) (T ts E)) as S.
  destruct (decode_interval md ts range st (tm_new, 0)) as [x r]. unfold sfx in S. cbn [snd] in S.
  apply sf_bind.
  - destruct r as [k|e|f]; [exact I| |exact S]. destruct e; try exact I. apply sf_bind; [apply sf_iso|]. intros; exact I.
  - intros [x' k] _. sfs.
Qed.

(** How a text must end *)
Lemma typed_text s : (forall a c w, s = a ++ c :: w -> forallb is_space w = true -> c <> 43 /\ c <> 45) -> fields_typed s.
Proof.
  intros H ts E. apply Forall_forall. intros t I N.
  destruct (lexed_untyped s ts (parse_lexed s ts E) (ex_intro _ t (conj I N))) as (a & c & w & Q & C & W).
  destruct (H a c w Q W). lia.
Qed.
Lemma end_text s : (forall a c w, s = a ++ c :: w -> forallb blank w = true ->
  (a = [] \/ is_alpha (last a 0) = false) -> c <> 84 /\ c <> 116) -> fields_end_well s.
Proof.
  intros H ts E ts' ->. destruct (lexed_last_t s ts' (parse_lexed s _ E)) as (a & c & w & Q & C & W & A).
  destruct (H a c w Q W A). lia.
Qed.
