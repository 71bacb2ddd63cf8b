(** The keyword caches never change the result of a parse. *)
From Verif Require Import Model.ParseCached Proofs.TokenP.
From Coq Require Import Lia Arith.
Open Scope Z_scope.

(** Every remembered entry is an entry of the table. *)
Definition caches_ok (k : caches) : Prop :=
  cache_ok DATE_TOKEN_TABLE (k_date k) /\ cache_ok DELTA_TOKEN_TABLE (k_delta k).

Lemma caches_new_ok : caches_ok caches_new.
Proof. split; apply cache_new_ok. Qed.

(** [m] returns [r] whatever the caches hold. *)
Definition sound {A} (m : cst A) (r : res A) : Prop :=
  forall k, caches_ok k -> exists k', m k = (k', r) /\ caches_ok k'.

Lemma sound_lift {A} (r : res A) : sound (liftc r) r.
Proof. intros k H. now exists k. Qed.
Lemma sound_bind {A B} (m : cst A) r (f : A -> cst B) g :
  sound m r -> (forall a, r = Ok a -> sound (f a) (g a)) -> sound (bindc m f) (bind r g).
Proof.
  intros M F k H. destruct (M k H) as (k1 & E & H1). unfold bindc. rewrite E.
  destruct r as [a|e|x]; cbn [bind].
  - now apply F.
  - now exists k1.
  - now exists k1.
Qed.
Lemma sound_bind_r {A B} (m : cst A) r (f : A -> cst B) g :
  sound m r -> (forall a, sound (f a) (g a)) -> sound (bindc m f) (bind r g).
Proof. intros M F. apply sound_bind; auto. Qed.
Lemma special_sound field w : (field < 25)%nat -> sound (special_c field w) (decode_special w).
Proof.
  intros F k [D E]. destruct (decode_cached_ok _ _ field w date_table_sorted D F) as (r & c & R & C & O).
  unfold special_c, decode_special. rewrite C, R. eexists. split; [reflexivity|]. now split.
Qed.
Lemma units_sound field w : (field < 25)%nat -> sound (units_c field w) (decode_units w).
Proof.
  intros F k [D E]. destruct (decode_cached_ok _ _ field w delta_table_sorted E F) as (r & c & R & C & O).
  unfold units_c, decode_units. rewrite C, R. eexists. split; [reflexivity|]. now split.
Qed.

(** ** Dates *)
Lemma date_parts_len fuel : forall n s fs, 0 <= n <= 25 -> date_parts fuel n s = Ok fs ->
  n + Z.of_nat (length fs) <= 25.
Proof.
  induction fuel as [|fuel IH]; intros n s fs N; cbn [date_parts]; [discriminate|].
  destruct s as [|c s]; [intros E; injection E as <-; cbn; lia|].
  destruct (Z.leb_spec MAX_DATE_FIELDS n) as [L|L]; [intros E; injection E as <-; cbn; lia|].
  unfold MAX_DATE_FIELDS in L.
  destruct (snd (eat (fun i => negb (is_alnum i)) (c :: s))) as [|d r]; [discriminate|].
  destruct (if is_digit d then eat_digits (d :: r) else eat_alphabetics (d :: r)) as [f p].
  destruct (date_parts fuel (n + 1) p) as [gs|e|x] eqn:E; cbn [bind]; try discriminate.
  intros Q. injection Q as <-. apply IH in E; [|lia]. cbn [length]. lia.
Qed.

Lemma text_month_sound parts : forall i fm t tm have, (i + length parts <= 25)%nat ->
  sound (text_month_c i parts fm t tm have) (text_month parts fm t tm have).
Proof.
  induction parts as [|f rest IH]; intros i fm t tm have L; cbn [text_month_c text_month].
  - apply sound_lift.
  - cbn [length] in L.
    assert (forall fm t tm have o, sound
      (let+ q := text_month_c (S i) rest fm t tm have in
        liftc (let '(fs, fm, t, tm', h) := q in Ok (o :: fs, fm, t, tm', h)))
      (let* q := text_month rest fm t tm have in
        let '(fs, fm, t, tm', h) := q in Ok (o :: fs, fm, t, tm', h))) as K.
    { intros. apply sound_bind_r; [apply IH; lia|]. intros a. apply sound_lift. }
    destruct f as [|c f]; [apply K|]. destruct (is_alpha c); [|apply K].
    apply sound_bind_r; [apply special_sound; lia|]. intros [ty val].
    destruct (tteq ty IgnoreDtf); [apply K|]. destruct (tteq ty MONTH); [|apply sound_lift].
    destruct (has fm (mask MONTH)); [apply sound_lift|apply K].
Qed.

Lemma decode_date_sound md str fm d2 tm order :
  sound (decode_date_c md str fm d2 tm order) (decode_date md str fm d2 tm order).
Proof.
  unfold decode_date_c, decode_date. apply sound_bind; [apply sound_lift|]. intros parts P.
  apply date_parts_len in P; [|lia]. apply sound_bind_r; [apply text_month_sound; lia|].
  intros a. apply sound_lift.
Qed.
Lemma ctx_decode_date_sound md str order c :
  sound (ctx_decode_date_c md str order c) (ctx_decode_date md str order c).
Proof.
  apply sound_bind_r; [apply decode_date_sound|]. intros a. apply sound_lift.
Qed.
Lemma decode_date_token_sound md field order c :
  sound (decode_date_token_c md field order c) (decode_date_token md field order c).
Proof.
  unfold decode_date_token_c, decode_date_token.
  destruct (tfeq (c_ptype c) KJulian); cbn [orb]; [apply sound_lift|].
  destruct (_ || _); [apply sound_lift|apply ctx_decode_date_sound].
Qed.
Lemma decode_number_token_sound md field order c :
  sound (decode_number_token_c md field order c) (decode_number_token md field order c).
Proof.
  unfold decode_number_token_c, decode_number_token.
  destruct (is_num (c_ptype c)); cbn [negb andb]; [|apply sound_lift].
  destruct (negb (blen (before 46 field) =? blen field) && (Z.land (c_fmask c) DTK_DATE_M =? 0) && (blen field <=? 14));
    [apply ctx_decode_date_sound|apply sound_lift].
Qed.
Lemma string_token_sound id field next c : (id < 25)%nat ->
  sound (string_token_c id field next c) (decode_string_token field next c).
Proof.
  intros L. unfold decode_string_token. apply sound_bind_r; [now apply special_sound|]. intros a. apply sound_lift.
Qed.

Lemma date_time_field_sound md order id t next c : (id < 25)%nat ->
  sound (date_time_field_c md order id t next c) (date_time_field md order t next c).
Proof.
  intros L. destruct t as [[k|] field]; [|apply sound_lift].
  destruct k; try apply sound_lift; unfold date_time_field_c, date_time_field; cbn [fst snd read_type bind];
    (apply sound_bind_r; [|intros a; apply sound_lift]);
    auto using decode_date_token_sound, decode_number_token_sound, string_token_sound.
Qed.
Lemma date_time_fields_sound md order ts : forall id c, (id + length ts <= 25)%nat ->
  sound (date_time_fields_c md order id ts c) (date_time_fields md order ts c).
Proof.
  induction ts as [|t rest IH]; intros id c L; cbn [date_time_fields_c date_time_fields]; [apply sound_lift|].
  cbn [length] in L. apply sound_bind_r; [apply date_time_field_sound; lia|]. intros a. apply IH. lia.
Qed.

Lemma tokenize_len fuel : forall n room s ts, 0 <= n <= 25 -> tokenize fuel n room s = Ok ts ->
  n + Z.of_nat (length ts) <= 25.
Proof.
  induction fuel as [|fuel IH]; intros n room s ts N; cbn [tokenize]; [discriminate|].
  destruct (eat_whitespaces s) as [|c r]; [intros E; injection E as <-; cbn; lia|].
  destruct (Z.leb_spec MAX_DATE_FIELDS n) as [L|L]; [discriminate|]. unfold MAX_DATE_FIELDS in L.
  assert (forall x : token * bytes,
    (let '(t, rest) := x in
      let* room' := use_buf room (snd t) in
      let* ts := tokenize fuel (n + 1) room' rest in Ok (t :: ts)) = Ok ts -> n + Z.of_nat (length ts) <= 25) as A.
  { intros [t rest]. destruct (use_buf room (snd t)) as [rm|e|x]; cbn [bind]; try discriminate.
    destruct (tokenize fuel (n + 1) rm rest) as [us|e|x] eqn:E; cbn [bind]; try discriminate.
    intros Q. injection Q as <-. apply IH in E; [|lia]. cbn [length]. lia. }
  destruct (is_digit c); [apply A|]. destruct (c =? 46); [apply A|].
  destruct (is_alpha c); [destruct (alpha_begin (c :: r)) as [x|e|x]; cbn [bind]; try discriminate; apply A|].
  destruct ((c =? 43) || (c =? 45)).
  { destruct (use_buf room [c]) as [z|e|x]; cbn [bind]; try discriminate.
    destruct (sign_begin c r) as [x|e|x]; cbn [bind]; try discriminate; apply A. }
  destruct (is_punct c); [|discriminate]. apply IH. lia.
Qed.
Lemma parse_len s ts : parse_date_time s = Ok ts -> (length ts <= 25)%nat.
Proof.
  unfold parse_date_time. destruct s; [discriminate|]. intros E. apply tokenize_len in E; lia.
Qed.

Lemma decode_date_time_sound md order ts : (length ts <= 25)%nat ->
  sound (decode_date_time_c md order ts) (decode_date_time md order ts).
Proof.
  intros L. apply sound_bind_r; [apply date_time_fields_sound; cbn; lia|]. intros a. apply sound_lift.
Qed.
Lemma date_try_sound md s order : sound (date_try_from_str_c md s order) (date_try_from_str md s order).
Proof.
  apply sound_bind; [apply sound_lift|]. intros ts E. apply parse_len in E.
  apply sound_bind_r; [now apply decode_date_time_sound|]. intros a. apply sound_lift.
Qed.
Lemma timestamp_try_sound md s m order :
  sound (timestamp_try_from_str_c md s m order) (timestamp_try_from_str md s m order).
Proof.
  apply sound_bind; [apply sound_lift|]. intros ts E. apply parse_len in E.
  apply sound_bind_r; [now apply decode_date_time_sound|]. intros a. apply sound_lift.
Qed.

(** ** Times *)
Lemma time_date_token_sound md id types field order c :
  sound (time_date_token_c md id types field order c) (time_date_token md id types field order c).
Proof.
  unfold time_date_token_c, time_date_token. destruct (_ && _); [|apply sound_lift].
  apply sound_bind_r; [apply sound_lift|]. intros last. apply sound_bind_r; [apply sound_lift|]. intros [|];
    [apply ctx_decode_date_sound|apply sound_lift].
Qed.
Lemma time_number_token_sound md id types field order c :
  sound (time_number_token_c md id types field order c) (time_number_token md id types field order c).
Proof.
  unfold time_number_token_c, time_number_token.
  destruct (is_num (c_ptype c)); cbn [negb orb]; [|apply sound_lift].
  destruct (blen (before 46 field) =? blen field); cbn [negb]; [apply sound_lift|].
  apply sound_bind_r; [apply sound_lift|]. intros [|]; [apply ctx_decode_date_sound|].
  destruct (2 <? _); apply sound_lift.
Qed.
Lemma time_string_token_sound id field next c : (id < 25)%nat ->
  sound (time_string_token_c id field next c) (time_string_token field next c).
Proof.
  intros L. unfold time_string_token. apply sound_bind_r; [now apply special_sound|]. intros a. apply sound_lift.
Qed.
Lemma time_only_field_sound md order id types t next c : (id < 25)%nat ->
  sound (time_only_field_c md order id types t next c) (time_only_field md order id types t next c).
Proof.
  intros L. destruct t as [[k|] field]; [|apply sound_lift].
  destruct k; try apply sound_lift; unfold time_only_field_c, time_only_field; cbn [fst snd read_type bind];
    (apply sound_bind_r; [|intros a; apply sound_lift]);
    auto using time_date_token_sound, time_number_token_sound, time_string_token_sound.
Qed.
Lemma time_only_fields_sound md order types ts : forall id c, (id + length ts <= 25)%nat ->
  sound (time_only_fields_c md order id types ts c) (time_only_fields md order id types ts c).
Proof.
  induction ts as [|t rest IH]; intros id c L; cbn [time_only_fields_c time_only_fields]; [apply sound_lift|].
  cbn [length] in L. apply sound_bind_r; [apply time_only_field_sound; lia|]. intros a. apply IH. lia.
Qed.
Lemma time_try_sound md s m order : sound (time_try_from_str_c md s m order) (time_try_from_str md s m order).
Proof.
  apply sound_bind; [apply sound_lift|]. intros ts E. apply parse_len in E.
  apply sound_bind_r; [|intros a; apply sound_lift].
  apply sound_bind_r; [apply time_only_fields_sound; cbn; lia|]. intros a. apply sound_lift.
Qed.

(** ** Intervals *)
Definition soundt {A} (m : ctm A) (r : tm_step A) : Prop :=
  forall k, caches_ok k -> exists k', m k = (k', r) /\ caches_ok k'.
Lemma soundt_lift {A} (r : tm_step A) : soundt (ctm_lift r) r.
Proof. intros k H. now exists k. Qed.
Lemma soundt_bind {A B} (m : ctm A) r (f : tmf -> A -> ctm B) g :
  soundt m r -> (forall x a, soundt (f x a) (g x a)) -> soundt (ctm_bind m f) (step_bind r g).
Proof.
  intros M F k H. destruct (M k H) as (k1 & E & H1). unfold ctm_bind. rewrite E.
  destruct r as [x [a|e|y]]; cbn [step_bind].
  - now apply F.
  - now exists k1.
  - now exists k1.
Qed.
Lemma interval_field_sound md range id t i x : (id < 25)%nat ->
  soundt (interval_field_c md range id t i x) (interval_field md range t i x).
Proof.
  intros L. destruct t as [[k|] field]; [|apply soundt_lift].
  destruct k; try apply soundt_lift; unfold interval_field_c, interval_field; cbn [fst snd];
    intros k H; destruct (units_sound id field L k H) as (k' & -> & H'); now exists k'.
Qed.
Lemma interval_fields_sound md range ts : forall n i x, (length ts <= n <= 25)%nat ->
  soundt (interval_fields_c md range n ts i x) (interval_fields md range ts i x).
Proof.
  induction ts as [|t rest IH]; intros n i x L; cbn [interval_fields_c interval_fields]; [apply soundt_lift|].
  cbn [length] in L. apply soundt_bind; [apply interval_field_sound; lia|]. intros y a. apply IH. lia.
Qed.
Lemma decode_interval_sound md ts range style x : (length ts <= 25)%nat ->
  soundt (decode_interval_c md ts range style x) (decode_interval md ts range style x).
Proof.
  intros L. apply soundt_bind; [apply interval_fields_sound; rewrite rev_length; lia|]. intros y a. apply soundt_lift.
Qed.
Lemma interval_try_sound md s m style :
  sound (interval_try_from_str_c md s m style) (interval_try_from_str md s m style).
Proof.
  apply sound_bind; [apply sound_lift|]. intros ts E k H. apply parse_len in E.
  destruct (decode_interval_sound md ts (if 0 <=? m then interval_range m else INTERVAL_FULL_RANGE)
    style (tm_new, 0) E k H) as (k' & -> & H').
  exists k'. split; [|easy]. now destruct (decode_interval md ts _ style (tm_new, 0)).
Qed.

(** ** Histories *)
Definition answer (md : mode) (c : call) : reply :=
  match c with
  | CallDate s o => RNum (date_try_from_str md s o)
  | CallTime s m o => RNum (time_try_from_str md s m o)
  | CallTimestamp s m o => RNum (timestamp_try_from_str md s m o)
  | CallInterval s m st => RInterval (interval_try_from_str md s m st)
  end.

Lemma perform_ok md c k : caches_ok k -> exists k', perform md c k = (k', answer md c) /\ caches_ok k'.
Proof.
  intros H. destruct c as [s o|s m o|s m o|s m st]; cbn [perform answer].
  - destruct (date_try_sound md s o k H) as (k' & -> & K). eauto.
  - destruct (time_try_sound md s m o k H) as (k' & -> & K). eauto.
  - destruct (timestamp_try_sound md s m o k H) as (k' & -> & K). eauto.
  - destruct (interval_try_sound md s m st k H) as (k' & -> & K). eauto.
Qed.
Lemma history_ok md cs : forall k, caches_ok k ->
  exists k', history md cs k = (k', List.map (answer md) cs) /\ caches_ok k'.
Proof.
  induction cs as [|c cs IH]; intros k H; cbn [history List.map]; [now exists k|].
  destruct (perform_ok md c k H) as (k1 & -> & H1). destruct (IH k1 H1) as (k2 & -> & H2). now exists k2.
Qed.
