(** Dates with and without month names, times and eras. *)
From Verif Require Import Model.Parse Spec.Calendar Spec.Ranges Spec.Clock Spec.Text Spec.DateText Spec.TimeText Spec.Keywords Spec.DateWords
  Proofs.Arith Proofs.Cal Proofs.DateP Proofs.TsP Proofs.DigitsP Proofs.LexP Proofs.ParseP Proofs.RoundTripP Proofs.NumDateP Proofs.ClockTextP.
From Coq Require Import List ZArith Bool Lia.
Import ListNotations.
Open Scope Z_scope.

(** ** Month names *)
Definition is_month_result (r : res (token_type * Z)) (m : Z) : bool := match r with Ok (MONTH, v) => v =? m | _ => false end.
Lemma is_month_result_ok r m : is_month_result r m = true -> r = Ok (MONTH, m).
Proof. destruct r as [[ty v]| |]; try discriminate. destruct ty; try discriminate. cbn. intros E. do 2 f_equal. lia. Qed.
Definition is_month_word (w : bytes) (m : Z) : bool :=
  forallb is_lower w && (2 <=? length w)%nat && (length w <=? 9)%nat && (1 <=? m) && (m <=? 12).
Lemma months_checked : forallb (fun p => is_month_word (fst p) (snd p)) month_words = true.
Proof. vm_compute. reflexivity. Qed.
Lemma months_decoded : forallb (fun p => is_month_result (decode_special (fst p)) (snd p)) month_words = true.
Proof. vm_compute. reflexivity. Qed.

Lemma month_decoded word m : In (word, m) month_words -> decode_special word = Ok (MONTH, m).
Proof.
  intros I. pose proof (proj1 (forallb_forall _ _) months_decoded _ I) as F. exact (is_month_result_ok _ _ F).
Qed.
Lemma month_entry word m : In (word, m) month_words ->
  forallb is_lower word = true /\ (2 <= length word <= 9)%nat /\ 1 <= m <= 12.
Proof.
  intros I. pose proof (proj1 (forallb_forall _ _) months_checked _ I) as F.
  assert (is_month_word word m = true) as G by exact F. clear F. unfold is_month_word in G.
  repeat (apply andb_prop in G as [G ?]). rewrite !Nat.leb_le in *. split; [assumption|lia].
Qed.

Lemma any_case_facts w word : any_case w word ->
  forallb is_alpha w = true /\ lowers w = word /\ length w = length word.
Proof.
  induction 1 as [|a b w word (B & E) _ (IH1 & IH2 & IH3)]; [easy|].
  cbn [forallb lowers map length]. fold (lowers w). rewrite IH1, IH2, IH3.
  assert (is_alpha a = true) as -> by (unfold is_alpha, is_upper, is_lower; lia).
  split; [reflexivity|]. split; [|reflexivity]. f_equal. unfold lower, is_upper.
  destruct E as [->| ->]; [replace ((65 <=? b) && (b <=? 90)) with false by lia|
    replace ((65 <=? b - 32) && (b - 32 <=? 90)) with true by lia]; lia.
Qed.

Lemma month_name_facts w m : month_name w m ->
  decode_special (lowers w) = Ok (MONTH, m) /\ forallb is_alpha w = true /\ forallb is_lower (lowers w) = true
  /\ (2 <= length w <= 9)%nat /\ length (lowers w) = length w /\ 1 <= m <= 12.
Proof.
  intros (word & I & C). destruct (any_case_facts _ _ C) as (A & L & E). destruct (month_entry _ _ I) as (W & Ln & B).
  pose proof (month_decoded _ _ I) as D.
  rewrite L. rewrite <- E in Ln. easy.
Qed.

Lemma lower_alpha l : forallb is_lower l = true -> forallb is_alpha l = true.
Proof. apply forallb_weaken. intros x E. unfold is_alpha. now rewrite E, orb_true_r. Qed.

(** ** Tokens *)
Definition rest_ok (glue : bool) (rest : bytes) : Prop :=
  rest = [] \/ (exists r, rest = 32 :: r) \/ (glue = true /\ exists r, rest = 84 :: r).
Lemma rest_stops f glue rest : rest_ok glue rest -> f 32 = false -> (glue = true -> f 84 = false) -> stops f rest.
Proof. intros [->|[[r ->]|[G [r ->]]]] A B; cbn; auto. Qed.

Lemma tok_number ds glue rest fuel k room : forallb is_digit ds = true -> ds <> [] -> rest_ok glue rest -> k < 25 -> blen ds <= room ->
  tokenize (S fuel) k room (ds ++ rest) =
  let* ts := tokenize fuel (k + 1) (room - blen ds) rest in Ok ((Some KNumber, ds) :: ts).
Proof.
  intros D N R K B. rewrite (tokenize_digit fuel k room (ds ++ rest) (Some KNumber, ds) rest); [reflexivity| | |easy|exact B].
  - destruct ds; [easy|]. cbn in *. now apply andb_prop in D as [D _].
  - unfold digit_begin, eat_digits. rewrite eat_app; [|exact D|eapply rest_stops; eauto].
    destruct R as [->|[[r ->]|[_ [r ->]]]]; reflexivity.
Qed.

Lemma sep_facts sep : separator sep -> is_alnum sep = false /\ is_digit sep = false /\ is_alpha sep = false /\ lower sep = sep
  /\ sep <> 58 /\ (sep =? 45) || (sep =? 47) || (sep =? 46) = true /\ (sep =? 32) = false /\ date_word_char sep = true.
Proof. intros [->|[->| ->]]; repeat split; discriminate. Qed.

Lemma inner_token A w m B sep rest : short_digits A -> month_name w m -> short_digits B -> separator sep -> rest_ok false rest ->
  digit_begin ((A ++ sep :: w ++ sep :: B) ++ rest) = ((Some KDate, A ++ sep :: lowers w ++ sep :: B), rest).
Proof.
  intros PA Mw PB S R. destruct (month_name_facts _ _ Mw) as (_ & Aw & _ & Lw & _ & _).
  destruct (sep_facts _ S) as (S1 & S2 & S3 & S4 & S5 & S6 & S7 & _).
  rewrite <- app_assoc. cbn [app]. rewrite <- app_assoc. cbn [app].
  unfold digit_begin, eat_digits. rewrite eat_app; [|now apply sd_digits|exact S2].
  replace (sep =? 58) with false by lia. rewrite S6. unfold digit_delim_begin.
  destruct w as [|c w'] eqn:Ew; [cbn in Lw; lia|]. rewrite <- Ew in *.
  assert (is_digit c = false) as Dc.
  { rewrite Ew in Aw. cbn in Aw. apply andb_prop in Aw as [Aw _]. now apply alpha_not_digit. }
  assert (exists y, w ++ sep :: B ++ rest = c :: y) as [y Ey] by (rewrite Ew; cbn; eauto).
  rewrite Ey. rewrite Dc. rewrite <- Ey. clear y Ey.
  replace (w ++ sep :: B ++ rest) with ((w ++ sep :: B) ++ rest) by (rewrite <- app_assoc; reflexivity).
  rewrite eat_app.
  - unfold lowers. rewrite map_app. cbn [map]. fold (lowers w). rewrite S4.
    assert (map lower B = B) as ->; [|reflexivity].
    pose proof (sd_digits _ PB) as DB. clear - DB. induction B as [|b B IH]; [reflexivity|]. cbn in *.
    apply andb_prop in DB as [D1 D2]. rewrite IH by assumption. f_equal. unfold lower, is_upper, is_digit in *.
    now replace ((65 <=? b) && (b <=? 90)) with false by lia.
  - rewrite forallb_app'. cbn [forallb]. rewrite Z.eqb_refl. cbn [orb andb]. apply andb_true_intro. split.
    + revert Aw. apply forallb_weaken. intros x E. unfold is_alnum. rewrite E. cbn. now rewrite !orb_true_r.
    + pose proof (sd_digits _ PB) as DB. revert DB. apply forallb_weaken. intros x E. unfold is_alnum. rewrite E. now rewrite !orb_true_r.
  - eapply rest_stops; [exact R| |discriminate]. rewrite Z.eqb_sym, S7. reflexivity.
Qed.

Lemma first_token w m A B sep rest : month_name w m -> short_digits A -> short_digits B -> separator sep -> rest_ok false rest ->
  alpha_begin ((w ++ sep :: A ++ sep :: B) ++ rest) = Ok ((Some KDate, lowers w ++ sep :: A ++ sep :: B), rest).
Proof.
  intros Mw PA PB S R. destruct (month_name_facts _ _ Mw) as (_ & Aw & _ & Lw & _ & _).
  destruct (sep_facts _ S) as (S1 & S2 & S3 & S4 & S5 & S6 & S7 & S8).
  rewrite <- app_assoc. cbn [app]. unfold alpha_begin, eat_alphabetics. rewrite eat_app by (auto; exact S3).
  assert ((sep =? 45) || (sep =? 47) || (sep =? 46) = true) as -> by exact S6. cbn [bind].
  replace (sep :: (A ++ sep :: B) ++ rest) with ((sep :: A ++ sep :: B) ++ rest) by reflexivity.
  assert (forall l, forallb is_digit l = true -> forallb date_word_char l = true) as K.
  { intros l. apply forallb_weaken. intros x E. unfold date_word_char, is_alnum. rewrite E. now rewrite !orb_true_r. }
  rewrite eat_app; [reflexivity| |eapply rest_stops; [exact R|reflexivity|discriminate]].
  cbn [forallb]. rewrite S8. cbn [andb]. rewrite forallb_app'. cbn [forallb]. rewrite S8.
  rewrite !K by now apply sd_digits. reflexivity.
Qed.

Lemma tokenize_alpha fuel n room c s t rest : is_alpha c = true -> alpha_begin (c :: s) = Ok (t, rest) -> n < 25 -> blen (snd t) <= room ->
  tokenize (S fuel) n room (c :: s) = let* ts := tokenize fuel (n + 1) (room - blen (snd t)) rest in Ok (t :: ts).
Proof.
  intros Ac E N B. cbn [tokenize]. rewrite eat_ws_cons by now apply alpha_not_space.
  unfold MAX_DATE_FIELDS. destruct (Z.leb_spec 25 n); [lia|].
  rewrite (alpha_not_digit c Ac). replace (c =? 46) with false by (unfold is_alpha, is_upper, is_lower in Ac; lia).
  rewrite Ac, E. cbn [bind]. unfold use_buf. destruct (Z.leb_spec (blen (snd t)) room); [reflexivity|lia].
Qed.

(** ** Numbers beside a month name *)
Section Named.
Variables (md : mode) (ds : bytes).
Hypothesis P : short_digits ds.
Let n := digits_value ds.
Ltac dn Hd := intros; unfold decode_number;
  rewrite (str_whole ds n (length ds) (sd_padded ds P) (sd_w ds P) (sd_i32 ds P)); cbn [bind];
  rewrite (beq_nil ds n (length ds) (sd_padded ds P));
  cbn [n_tm n_fsec n_2d]; rewrite Hd.

Lemma nm_year fm tm fs d2 order : Z.land fm DTK_DATE_M = mask MONTH -> (3 <=? blen ds) || is_ymd order = true ->
  decode_number md ds true fm (mkN 0 tm fs d2) order = Ok (mkN (mask YEAR) (set_year n tm) fs (blen ds <=? 2)).
Proof.
  intros Hd L. dn Hd. change (mask MONTH =? mask YEAR) with false. rewrite andb_false_r. cbn [andb].
  change (mask MONTH =? 0) with false. change (mask MONTH =? DTK_YEAR_M) with false. change (mask MONTH =? DTK_MONTH_M) with true.
  cbv iota. rewrite L. reflexivity.
Qed.
Lemma nm_day fm tm fs d2 order : Z.land fm DTK_DATE_M = mask MONTH -> (3 <=? blen ds) || is_ymd order = false ->
  decode_number md ds true fm (mkN 0 tm fs d2) order = Ok (mkN (mask DAY) (set_mday n tm) fs d2).
Proof.
  intros Hd L. dn Hd. change (mask MONTH =? mask YEAR) with false. rewrite andb_false_r. cbn [andb].
  change (mask MONTH =? 0) with false. change (mask MONTH =? DTK_YEAR_M) with false. change (mask MONTH =? DTK_MONTH_M) with true.
  cbv iota. rewrite L. reflexivity.
Qed.
Lemma nm_second fm tm fs d2 order : Z.land fm DTK_DATE_M = DTK_YEAR_MONTH_M ->
  decode_number md ds true fm (mkN 0 tm fs d2) order =
  if (3 <=? blen ds) && d2 then Ok (mkN (mask DAY) (set_year n (set_mday (tm_year tm) tm)) fs false)
  else Ok (mkN (mask DAY) (set_mday n tm) fs d2).
Proof.
  intros Hd. dn Hd. change (DTK_YEAR_MONTH_M =? mask YEAR) with false. rewrite andb_false_r. cbn [andb].
  change (DTK_YEAR_MONTH_M =? 0) with false. change (DTK_YEAR_MONTH_M =? DTK_YEAR_M) with false.
  change (DTK_YEAR_MONTH_M =? DTK_MONTH_M) with false. change (DTK_YEAR_MONTH_M =? DTK_YEAR_MONTH_M) with true. cbv iota.
  cbn [n_2d n_fsec]. destruct ((3 <=? blen ds) && d2); reflexivity.
Qed.
End Named.

Lemma bl2 t : (blen t <=? 2) = (length t <=? 2)%nat.
Proof. unfold blen. destruct (Nat.leb_spec (length t) 2); lia. Qed.
Lemma bl3 t : (3 <=? blen t) = (3 <=? length t)%nat.
Proof. unfold blen. destruct (Nat.leb_spec 3 (length t)); lia. Qed.

Lemma beside_numbers md order A B tm : short_digits A -> short_digits B ->
  number_parts md [Some A; Some B] true order (mask MONTH) (mask MONTH) tm false 0
  = Ok (DTK_DATE_M, DTK_DATE_M,
        set_year (digits_value (fst (beside_month order A B))) (set_mday (digits_value (snd (beside_month order A B))) tm),
        (length (fst (beside_month order A B)) <=? 2)%nat).
Proof.
  intros PA PB. pose proof (sd_nonempty A PA). pose proof (sd_nonempty B PB).
  unfold beside_month. destruct (3 <=? length A)%nat eqn:LA.
  - assert ((length A <=? 2)%nat = false) as LA2 by (apply Nat.leb_gt; apply Nat.leb_le in LA; lia).
    erewrite number_parts_cons; [|auto|apply nm_year; [exact PA|reflexivity|now rewrite bl3, LA]|reflexivity].
    erewrite number_parts_cons; [|auto|rewrite nm_second; [|exact PB|reflexivity]; rewrite bl2, LA2, andb_false_r; reflexivity|reflexivity].
    cbn [number_parts fst snd]. rewrite LA2. destruct tm; reflexivity.
  - assert ((length A <=? 2)%nat = true) as LA2 by (apply Nat.leb_le; apply Nat.leb_gt in LA; lia).
    destruct order.
    + erewrite number_parts_cons; [|auto|apply nm_year; [exact PA|reflexivity|now rewrite orb_true_r]|reflexivity].
      destruct (3 <=? length B)%nat eqn:LB.
      * erewrite number_parts_cons; [|auto|rewrite nm_second; [|exact PB|reflexivity]; rewrite bl2, LA2, bl3, LB; reflexivity|reflexivity].
        cbn [number_parts fst snd]. assert ((length B <=? 2)%nat = false) as -> by (apply Nat.leb_gt; apply Nat.leb_le in LB; lia).
        destruct tm; reflexivity.
      * erewrite number_parts_cons; [|auto|rewrite nm_second; [|exact PB|reflexivity]; rewrite bl2, LA2, bl3, LB; reflexivity|reflexivity].
        cbn [number_parts fst snd]. rewrite LA2. destruct tm; reflexivity.
    + erewrite number_parts_cons; [|auto|apply nm_day; [exact PA|reflexivity|now rewrite bl3, LA]|reflexivity].
      erewrite number_parts_cons; [|auto|apply nd_md_year; [exact PB|reflexivity]|reflexivity].
      cbn [number_parts fst snd]. rewrite bl2. destruct tm; reflexivity.
    + erewrite number_parts_cons; [|auto|apply nm_day; [exact PA|reflexivity|now rewrite bl3, LA]|reflexivity].
      erewrite number_parts_cons; [|auto|apply nd_md_year; [exact PB|reflexivity]|reflexivity].
      cbn [number_parts fst snd]. rewrite bl2. destruct tm; reflexivity.
Qed.

(** Splitting a date field into its parts *)
Lemma alpha_alnum c : is_alpha c = true -> is_alnum c = true.
Proof. intros E. unfold is_alnum. now rewrite E. Qed.
Lemma date_parts_word fuel nf seps w rest : forallb (fun i => negb (is_alnum i)) seps = true ->
  forallb is_alpha w = true -> w <> [] -> stops is_alpha rest -> nf < 25 ->
  date_parts (S fuel) nf (seps ++ w ++ rest) = let* fs := date_parts fuel (nf + 1) rest in Ok (w :: fs).
Proof.
  intros Fs F Nn S B. destruct w as [|c r]; [easy|]. pose proof F as F'. cbn in F'. apply andb_prop in F' as [Dc _].
  cbn [date_parts]. unfold MAX_DATE_FIELDS. destruct (Z.leb_spec 25 nf); [lia|].
  cbn [app]. rewrite (eat_app _ seps) by (auto; cbn; now rewrite alpha_alnum). cbn [snd].
  rewrite (alpha_not_digit c Dc). change (c :: r ++ rest) with ((c :: r) ++ rest). unfold eat_alphabetics. rewrite eat_app by easy.
  destruct (seps ++ (c :: r) ++ rest) eqn:E; [|reflexivity].
  apply app_eq_nil in E as [_ E]. discriminate.
Qed.

Lemma text_month_here w m rest fm tk tm have : decode_special w = Ok (MONTH, m) -> forallb is_alpha w = true -> w <> [] ->
  has fm (mask MONTH) = false ->
  text_month (w :: rest) fm tk tm have =
  let* q := text_month rest (Z.lor fm (mask MONTH)) (Z.lor tk (mask MONTH)) (set_mon m tm) true in
  let '(fs, fm, t, tm', h) := q in Ok (None :: fs, fm, t, tm', h).
Proof.
  intros E A N H. cbn [text_month]. destruct w as [|c r]; [easy|]. cbn in A. apply andb_prop in A as [A _]. rewrite A.
  rewrite E. cbn [bind]. change (tteq MONTH IgnoreDtf) with false. change (tteq MONTH MONTH) with true. cbv iota. now rewrite H.
Qed.
Lemma text_month_digit f rest fm tk tm have : forallb is_digit f = true ->
  text_month (f :: rest) fm tk tm have =
  let* q := text_month rest fm tk tm have in
  let '(fs, fm, t, tm', h) := q in Ok (Some f :: fs, fm, t, tm', h).
Proof.
  intros F. cbn [text_month]. destruct f as [|c r]; [reflexivity|]. cbn in F. apply andb_prop in F as [D _].
  replace (is_alpha c) with false by (unfold is_digit, is_alpha, is_upper, is_lower in *; lia). reflexivity.
Qed.

Lemma beside_decode md order w m A B sep str : month_name w m -> short_digits A -> short_digits B -> separator sep ->
  str = A ++ sep :: lowers w ++ sep :: B \/ str = lowers w ++ sep :: A ++ sep :: B ->
  decode_date md str 0 false tm_new order
  = Ok (DTK_DATE_M, set_year (digits_value (fst (beside_month order A B)))
         (set_mday (digits_value (snd (beside_month order A B))) (set_mon m tm_new)),
        (length (fst (beside_month order A B)) <=? 2)%nat).
Proof.
  intros Mw PA PB S Es. destruct (month_name_facts _ _ Mw) as (Dw & _ & Lw & Ln & Le & _).
  pose proof (lower_alpha _ Lw) as Aw. set (v := lowers w) in *.
  assert (v <> []) as Nv by (intros Q; rewrite Q in Le; cbn in Le; lia).
  destruct (sep_facts _ S) as (S1 & S2 & S3 & _ & _ & _ & _ & _).
  assert (forallb (fun i => negb (is_alnum i)) [sep] = true) as Fs by (cbn; now rewrite S1).
  pose proof (sd_digits A PA) as DA. pose proof (sd_digits B PB) as DB.
  pose proof (sd_nonempty A PA) as NA. pose proof (sd_nonempty B PB) as NB.
  assert (exists k, Datatypes.S (length str) = Datatypes.S (Datatypes.S (Datatypes.S (Datatypes.S k)))) as [k Ek].
  { exists (length str - 3)%nat. destruct A; [easy|]. destruct B; [easy|].
    destruct Es as [->| ->]; repeat (cbn [length app]; rewrite ?app_length); lia. }
  unfold decode_date. rewrite Ek. destruct Es as [->| ->].
  - change (A ++ sep :: v ++ sep :: B) with ([] ++ A ++ ([sep] ++ v ++ ([sep] ++ B))).
    rewrite date_parts_step; [|easy|exact DA|exact NA|exact S2|lia].
    rewrite date_parts_word; [|exact Fs|exact Aw|exact Nv|exact S3|lia].
    rewrite <- (app_nil_r B) at 1. rewrite date_parts_step; [|exact Fs|exact DB|exact NB|exact I|lia].
    cbn [date_parts bind]. rewrite text_month_digit by exact DA. rewrite (text_month_here v m) by (auto; reflexivity).
    rewrite text_month_digit by exact DB. cbn [text_month bind].
    change (Z.lor 0 (mask MONTH)) with (mask MONTH).
    assert (forall p, number_parts md [Some A; None; Some B] true order (mask MONTH) (mask MONTH) p false 0
      = number_parts md [Some A; Some B] true order (mask MONTH) (mask MONTH) p false 0) as ->
      by (intros; cbn [number_parts]; reflexivity).
    rewrite beside_numbers by assumption. cbn [bind]. mk. reflexivity.
  - change (v ++ sep :: A ++ sep :: B) with ([] ++ v ++ ([sep] ++ A ++ ([sep] ++ B))).
    rewrite date_parts_word; [|easy|exact Aw|exact Nv|exact S3|lia].
    rewrite date_parts_step; [|exact Fs|exact DA|exact NA|exact S2|lia].
    rewrite <- (app_nil_r B) at 1. rewrite date_parts_step; [|exact Fs|exact DB|exact NB|exact I|lia].
    cbn [date_parts bind]. rewrite (text_month_here v m) by (auto; reflexivity).
    rewrite !text_month_digit by assumption. cbn [text_month bind].
    change (Z.lor 0 (mask MONTH)) with (mask MONTH).
    assert (forall p, number_parts md [None; Some A; Some B] true order (mask MONTH) (mask MONTH) p false 0
      = number_parts md [Some A; Some B] true order (mask MONTH) (mask MONTH) p false 0) as ->
      by (intros; cbn [number_parts]; reflexivity).
    rewrite beside_numbers by assumption. cbn [bind]. mk. reflexivity.
Qed.

(** ** One date, then anything *)
Definition date_state (Y : bytes) (m d : Z) (c : ctx) : Prop :=
  c_dtype c = KDate /\ c_fsec c = 0 /\ c_fmask c = DTK_DATE_M /\ c_ptype c = KNumber /\ c_julian c = false
  /\ c_2d c = (length Y <=? 2)%nat /\ c_bc c = false /\ c_mer c = HR24
  /\ tm_year (c_tm c) = digits_value Y /\ tm_mon (c_tm c) = m /\ tm_mday (c_tm c) = d
  /\ tm_hour (c_tm c) = 0 /\ tm_min (c_tm c) = 0 /\ tm_sec (c_tm c) = 0.

Definition date_tokens_ok (order : Base.date_order) (glue : bool) (td : bytes) (ts : list token) : Prop :=
  exists k n room, (1 <= k <= length td)%nat /\ n <= 3 /\ 98 <= room /\
    forall fuel rest, rest_ok glue rest ->
      tokenize (k + fuel) 0 128 (td ++ rest) = let* r := tokenize fuel n room rest in Ok (ts ++ r).

Definition date_fields_ok (md : mode) (order : Base.date_order) (ts : list token) (Y : bytes) (m d : Z) : Prop :=
  (exists c, date_state Y m d c /\ forall r, date_time_fields md order (ts ++ r) ctx_new = date_time_fields md order r c)
  \/ ~ (1 <= d <= 31) /\ forall r, date_time_fields md order (ts ++ r) ctx_new = Err EInvalid.

Lemma fd_sd t : few_digits t -> short_digits t.
Proof. intros [F L]. split; [exact F|lia]. Qed.
Lemma fd_blen t : few_digits t -> 1 <= blen t <= 5.
Proof. intros [F L]. unfold blen. lia. Qed.
Lemma sd_blen t : short_digits t -> 1 <= blen t <= 9.
Proof. intros [F L]. unfold blen. lia. Qed.
Lemma blen_app a b : blen (a ++ b) = blen a + blen b.
Proof. unfold blen. rewrite app_length. lia. Qed.
Lemma blen_cons a b : blen (a :: b) = 1 + blen b.
Proof. unfold blen. cbn [length]. lia. Qed.
Lemma blen_nn a : 0 <= blen a. Proof. unfold blen. lia. Qed.
Lemma len_blen a : Z.of_nat (length a) = blen a. Proof. reflexivity. Qed.

Ltac one_token := match goal with |- date_tokens_ok _ _ ?td [?t] => exists 1%nat, 1, (128 - blen (snd t)) end.

Lemma date_field_ctx md order str next t tm d2 : decode_date md str 0 false tm_new order = Ok (t, tm, d2) -> has 0 t = false ->
  date_time_field md order (Some KDate, str) next ctx_new
  = Ok (mkCtx tm KDate 0 (Z.lor 0 t) t KNumber false d2 false HR24 false).
Proof.
  intros E H. unfold date_time_field, decode_date_token, ctx_decode_date. cbn [fst snd read_type bind].
  change (tfeq (c_ptype ctx_new) KJulian) with false. change (is_num (c_ptype ctx_new)) with true.
  cbn [negb orb]. change (c_fmask ctx_new) with 0. mk.
  change (c_tm ctx_new) with tm_new. change (c_2d ctx_new) with false. rewrite E. cbn [bind].
  unfold merge_mask. replace (has _ _) with false by (symmetry; exact H). reflexivity.
Qed.

(** A number field of few digits *)
Lemma number_field_ctx md order ds next fm tk tm d2 tmon m' tm' d2' : few_digits ds ->
  decode_number md ds false fm (mkN 0 tm 0 d2) order = Ok (mkN m' tm' 0 d2') -> has fm m' = false ->
  date_time_field md order (Some KNumber, ds) next (mkCtx tm KDate 0 fm tk KNumber false d2 false HR24 tmon)
  = Ok (mkCtx tm' KDate 0 (Z.lor fm m') m' KNumber false d2' false HR24 tmon).
Proof.
  intros P E H. pose proof (fd_sd _ P) as S.
  rewrite (field_number md order ds (length ds) (digits_value ds) _ next (mkN m' tm' 0 d2')).
  - reflexivity.
  - now apply sd_padded.
  - reflexivity.
  - left. pose proof (fd_blen _ P). lia.
  - cbn [c_fmask]. unfold to_nst. cbn [c_tmask c_tm c_fsec c_2d]. rewrite decode_number_tmask. exact E.
  - exact H.
Qed.

Lemma swap_month md order w m next tm d2 tk : decode_special w = Ok (MONTH, m) ->
  date_time_field md order (Some KString, w) next (mkCtx tm KDate 0 (mask MONTH) tk KNumber false d2 false HR24 false)
  = if (1 <=? tm_mon tm) && (tm_mon tm <=? 31)
    then Ok (mkCtx (set_mon m (set_mday (tm_mon tm) tm)) KDate 0 (Z.lor (mask MONTH) (mask DAY)) (mask DAY) KNumber false d2 false HR24 true)
    else Err EInvalid.
Proof.
  intros E. unfold date_time_field, decode_string_token. cbn [fst snd read_type bind]. rewrite E. cbn [bind].
  change (tteq MONTH IgnoreDtf) with false. cbv iota.
  set (c0 := c_set_tmask (mask MONTH) _).
  change (c_fmask c0) with (mask MONTH). change (c_tmon c0) with false. change (c_tm c0) with tm.
  mk. destruct (1 <=? tm_mon tm), (tm_mon tm <=? 31); cbn [andb bind]; reflexivity.
Qed.

Lemma str_two a b : short_digits b -> forallb is_digit a = true -> skipn (length a) (a ++ b) = b.
Proof. intros _ _. rewrite skipn_app, skipn_all, Nat.sub_diag. reflexivity. Qed.

Lemma two_sd t : two_digits t -> short_digits t.
Proof. intros [F L]. split; [exact F|lia]. Qed.

Lemma compact_number Y M D st : short_digits Y -> (2 <= length Y)%nat -> two_digits M -> two_digits D ->
  decode_number_field (Y ++ M ++ D) 0 st
  = (mkN DTK_DATE_M (set_year (digits_value Y) (set_mon (digits_value M) (set_mday (digits_value D) (n_tm st)))) (n_fsec st)
       (if (length Y =? 2)%nat then true else n_2d st), Ok KDate).
Proof.
  intros PY LY PM PD. pose proof (sd_digits _ PY) as DY. pose proof (sd_digits _ (two_sd _ PM)) as DM. pose proof (sd_digits _ (two_sd _ PD)) as DD.
  assert (length (Y ++ M ++ D) = length Y + 4)%nat as L by (rewrite !app_length, (proj2 PM), (proj2 PD); lia).
  assert (forallb is_digit (Y ++ M ++ D) = true) as F by (rewrite !forallb_app', DY, DM, DD; reflexivity).
  unfold decode_number_field. rewrite digits_no_dot by exact F. rewrite Nat.eqb_refl. cbn [negb].
  change (Z.land 0 DTK_DATE_M =? DTK_DATE_M) with false. cbn [negb andb]. rewrite L.
  replace (6 <=? length Y + 4)%nat with true by (symmetry; apply Nat.leb_le; lia).
  replace (length Y + 4 - 2)%nat with (length (Y ++ M)) by (rewrite app_length, (proj2 PM); lia).
  replace (skipn (length (Y ++ M)) (Y ++ M ++ D)) with D
    by (rewrite (app_assoc Y M D), skipn_app, skipn_all, Nat.sub_diag; reflexivity).
  rewrite (sd_str0 D (two_sd _ PD)).
  replace (length Y + 4 - 4)%nat with (length Y) by lia. unfold sub_bytes.
  replace (firstn 2 (skipn (length Y) (Y ++ M ++ D))) with M
    by (rewrite skipn_app, skipn_all, Nat.sub_diag; cbn [app skipn]; rewrite <- (proj2 PM) at 1; rewrite firstn_app, firstn_all, Nat.sub_diag; cbn [firstn]; now rewrite app_nil_r).
  rewrite (sd_str0 M (two_sd _ PM)). cbn [skipn].
  replace (firstn (length Y) (Y ++ M ++ D)) with Y
    by (rewrite firstn_app, firstn_all, Nat.sub_diag; cbn [firstn]; now rewrite app_nil_r).
  rewrite (sd_str0 Y PY). reflexivity.
Qed.

Ltac state := repeat split.

Lemma numeric_case md order A B C sep : short_digits A -> short_digits B -> short_digits C -> (length B <= 2)%nat -> separator sep ->
  exists ts, date_tokens_ok order true (A ++ sep :: B ++ sep :: C) ts
    /\ date_fields_ok md order ts (fst (fst (DateText.reading order A B C)))
      (digits_value (snd (fst (DateText.reading order A B C)))) (digits_value (snd (DateText.reading order A B C))).
Proof.
  intros PA PB PC LB S. pose proof (sd_blen _ PA). pose proof (sd_blen _ PB). pose proof (sd_blen _ PC).
  exists [(Some KDate, A ++ sep :: B ++ sep :: C)]. split.
  - one_token. cbn [snd]. rewrite !blen_app, !blen_cons, !blen_app, !blen_cons.
    split; [rewrite app_length; cbn [length]; lia|]. split; [lia|]. split; [lia|].
    intros fuel rest R. change (1 + fuel)%nat with (Datatypes.S fuel).
    rewrite (tokenize_digit _ _ _ ((A ++ sep :: B ++ sep :: C) ++ rest) (Some KDate, A ++ sep :: B ++ sep :: C) rest).
    + cbn [snd]. rewrite !blen_app, !blen_cons, !blen_app, !blen_cons. reflexivity.
    + pose proof (sd_digits A PA) as Da. pose proof (sd_nonempty A PA) as Na. destruct A as [|c a]; [easy|].
      cbn in Da. now apply andb_prop in Da as [Da _].
    + assert (sep = 45 \/ sep = 46 \/ sep = 47) as Sp by (unfold separator in S; tauto).
      eapply digit_begin_date; [exact (text_three A B C sep PA PB PC)|tauto|].
      eapply rest_stops; [exact R|now apply date_char_space|intros _; now apply date_char_T].
    + lia.
    + cbn [snd]. rewrite !blen_app, !blen_cons, !blen_app, !blen_cons. lia.
  - left. exists (num_ctx A B C order). split; [state|].
    intros r. cbn [app date_time_fields]. rewrite (numeric_field A B C sep order) by assumption. reflexivity.
Qed.

Lemma compact_case md order Y M D : short_digits Y -> (2 <= length Y)%nat -> two_digits M -> two_digits D ->
  exists ts, date_tokens_ok order true (Y ++ M ++ D) ts /\ date_fields_ok md order ts Y (digits_value M) (digits_value D).
Proof.
  intros PY LY PM PD. pose proof (sd_blen _ PY) as BY.
  pose proof (sd_digits _ PY) as DY. pose proof (sd_digits _ (two_sd _ PM)) as DM. pose proof (sd_digits _ (two_sd _ PD)) as DD.
  assert (blen (Y ++ M ++ D) = blen Y + 4) as L by (rewrite !blen_app; unfold blen; rewrite (proj2 PM), (proj2 PD); lia).
  assert (forallb is_digit (Y ++ M ++ D) = true) as F by (rewrite !forallb_app', DY, DM, DD; reflexivity).
  assert (Y ++ M ++ D <> []) as N by (intros Q; rewrite Q in L; unfold blen in *; cbn in L; lia).
  exists [(Some KNumber, Y ++ M ++ D)]. split.
  - one_token. cbn [snd]. split; [unfold blen in L; lia|]. split; [lia|]. split; [lia|].
    intros fuel rest R. change (1 + fuel)%nat with (Datatypes.S fuel).
    rewrite (tok_number _ true) by (auto; lia). reflexivity.
  - left. eexists. split; [|intros r; cbn [app date_time_fields]; unfold date_time_field, decode_number_token at 1;
      cbn [fst snd read_type bind]; change (is_num (c_ptype ctx_new)) with true; cbn [negb];
      rewrite digits_no_dot by exact F; rewrite Z.eqb_refl; cbn [negb andb];
      replace (6 <=? blen (Y ++ M ++ D)) with true by (unfold blen in *; lia);
      change (c_fmask ctx_new) with 0; change (Z.land 0 DTK_DATE_M =? 0) with true; cbn [orb andb];
      unfold ctx_number_field, number_field; rewrite compact_number by assumption; cbn [bind fst]; unfold merge_mask;
      replace (has _ _) with false by reflexivity; cbn [bind]; reflexivity].
    state. cbn. destruct (Nat.eqb_spec (length Y) 2) as [E|E]; [rewrite E; reflexivity|].
    symmetry. apply Nat.leb_gt. lia.
Qed.

Lemma inner_case md order A w m B sep : short_digits A -> month_name w m -> short_digits B -> separator sep ->
  exists ts, date_tokens_ok order false (A ++ sep :: w ++ sep :: B) ts
    /\ date_fields_ok md order ts (fst (beside_month order A B)) m (digits_value (snd (beside_month order A B))).
Proof.
  intros PA Mw PB S. pose proof (sd_blen _ PA). pose proof (sd_blen _ PB).
  destruct (month_name_facts _ _ Mw) as (_ & _ & _ & Lw & Le & _).
  assert (blen (lowers w) = blen w) as Bw by (unfold blen; now rewrite Le).
  assert (2 <= blen w <= 9) by (unfold blen; lia).
  exists [(Some KDate, A ++ sep :: lowers w ++ sep :: B)]. split.
  - one_token. cbn [snd]. rewrite !blen_app, !blen_cons, !blen_app, !blen_cons, Bw.
    split; [rewrite app_length; cbn [length]; lia|]. split; [lia|]. split; [lia|].
    intros fuel rest R. change (1 + fuel)%nat with (Datatypes.S fuel).
    rewrite (tokenize_digit _ _ _ ((A ++ sep :: w ++ sep :: B) ++ rest) (Some KDate, A ++ sep :: lowers w ++ sep :: B) rest).
    + cbn [snd]. rewrite !blen_app, !blen_cons, !blen_app, !blen_cons, Bw. reflexivity.
    + pose proof (sd_digits A PA) as Da. pose proof (sd_nonempty A PA) as Na. destruct A as [|c a]; [easy|].
      cbn in Da. now apply andb_prop in Da as [Da _].
    + now apply (inner_token A w m).
    + lia.
    + cbn [snd]. rewrite !blen_app, !blen_cons, !blen_app, !blen_cons, Bw. lia.
  - left. eexists. split; [|intros r; cbn [app date_time_fields]; erewrite date_field_ctx;
      [cbn [bind]; reflexivity|apply (beside_decode md order w m A B sep); auto|reflexivity]].
    state.
Qed.

Lemma first_case md order A w m B sep : month_name w m -> short_digits A -> short_digits B -> separator sep ->
  exists ts, date_tokens_ok order false (w ++ sep :: A ++ sep :: B) ts
    /\ date_fields_ok md order ts (fst (beside_month order A B)) m (digits_value (snd (beside_month order A B))).
Proof.
  intros Mw PA PB S. pose proof (sd_blen _ PA). pose proof (sd_blen _ PB).
  destruct (month_name_facts _ _ Mw) as (_ & Aw & _ & Lw & Le & _).
  assert (blen (lowers w) = blen w) as Bw by (unfold blen; now rewrite Le).
  assert (2 <= blen w <= 9) by (unfold blen; lia).
  exists [(Some KDate, lowers w ++ sep :: A ++ sep :: B)]. split.
  - one_token. cbn [snd]. rewrite !blen_app, !blen_cons, !blen_app, !blen_cons, Bw.
    split; [rewrite app_length; cbn [length]; lia|]. split; [lia|]. split; [lia|].
    intros fuel rest R. change (1 + fuel)%nat with (Datatypes.S fuel).
    pose proof (first_token w m A B sep rest Mw PA PB S R) as T.
    destruct w as [|c w']; [cbn in Lw; lia|]. cbn [app] in T |- *.
    assert (is_alpha c = true) as Ac by (cbn [forallb] in Aw; now apply andb_prop in Aw as [Aw _]).
    rewrite (tokenize_alpha _ _ _ _ _ _ _ Ac T).
    + cbn [snd]. rewrite !blen_app, !blen_cons, !blen_app, !blen_cons, Bw. rewrite !blen_cons. reflexivity.
    + lia.
    + cbn [snd]. rewrite !blen_app, !blen_cons, !blen_app, !blen_cons, Bw. lia.
  - left. eexists. split; [|intros r; cbn [app date_time_fields]; erewrite date_field_ctx;
      [cbn [bind]; reflexivity|apply (beside_decode md order w m A B sep); auto|reflexivity]].
    state.
Qed.

Lemma tokenize_comma fuel n room s : n < 25 ->
  tokenize (S (S fuel)) n room (44 :: 32 :: s) = tokenize (S fuel) n room s.
Proof.
  intros N. cbn [tokenize]. rewrite eat_ws_cons by reflexivity. unfold MAX_DATE_FIELDS at 1. destruct (Z.leb_spec 25 n); [lia|].
  change (is_digit 44) with false. change (44 =? 46) with false. change (is_alpha 44) with false.
  change ((44 =? 43) || (44 =? 45)) with false. change (is_punct 44) with true. cbv iota.
  change (44 :: 32 :: s) with ([44] ++ 32 :: s). rewrite eat_app by easy. cbn [snd].
  exact (tokenize_space fuel n room s).
Qed.

Lemma rest_blank glue r : rest_ok glue (32 :: r). Proof. right. left. now exists r. Qed.

Lemma tok_month w m r fuel n room : month_name w m -> n < 25 -> 9 <= room ->
  tokenize (S fuel) n room (w ++ 32 :: r) = let* ts := tokenize fuel (n + 1) (room - blen w) (32 :: r) in Ok ((Some KString, lowers w) :: ts).
Proof.
  intros Mw N R. destruct (month_name_facts _ _ Mw) as (_ & Aw & _ & Lw & Le & _).
  apply tokenize_word; [exact Aw|intros Q; rewrite Q in Lw; cbn in Lw; lia|right; now exists r|exact N|unfold blen; lia].
Qed.
Lemma tok_few ds glue rest fuel k room : few_digits ds -> rest_ok glue rest -> k < 25 -> 5 <= room ->
  tokenize (S fuel) k room (ds ++ rest) =
  let* ts := tokenize fuel (k + 1) (room - blen ds) rest in Ok ((Some KNumber, ds) :: ts).
Proof.
  intros P R K B. pose proof (fd_blen _ P). apply (tok_number ds glue); [now apply sd_digits, fd_sd|now apply sd_nonempty, fd_sd|exact R|exact K|lia].
Qed.

Lemma mdy_case md order w m D Y (comma : bool) : month_name w m -> few_digits D -> few_digits Y ->
  exists ts, date_tokens_ok order true (w ++ 32 :: D ++ (if comma then [44; 32] else [32]) ++ Y) ts
    /\ date_fields_ok md order ts Y m (digits_value D).
Proof.
  intros Mw PD PY. pose proof (fd_blen _ PD). pose proof (fd_blen _ PY).
  destruct (month_name_facts _ _ Mw) as (Dw & Aw & _ & Lw & Le & _).
  assert (2 <= blen w <= 9) by (unfold blen; lia).
  exists [(Some KString, lowers w); (Some KNumber, D); (Some KNumber, Y)]. split.
  - exists (if comma then 4%nat else 3%nat), 3, (128 - blen w - blen D - blen Y).
    split; [|split; [lia|split; [lia|]]].
    { rewrite app_length. cbn [length]. rewrite !app_length. destruct comma; cbn [length]; unfold blen in *; lia. }
    intros fuel rest R. rewrite <- app_assoc. cbn [app]. rewrite <- app_assoc.
    destruct comma; cbn [app Nat.add].
    + rewrite (tok_month w m) by (auto; lia). rewrite tokenize_space.
      assert (forall r, tokenize (S (S (S fuel))) (0 + 1) (128 - blen w) (D ++ 44 :: 32 :: r)
        = let* ts := tokenize (S (S fuel)) (0 + 1 + 1) (128 - blen w - blen D) (44 :: 32 :: r) in Ok ((Some KNumber, D) :: ts)) as ->.
      { intros r. rewrite (tokenize_digit _ _ _ (D ++ 44 :: 32 :: r) (Some KNumber, D) (44 :: 32 :: r)); [reflexivity| | |lia|cbn [snd]; lia].
        - pose proof (sd_digits _ (fd_sd _ PD)) as DD. destruct D; [unfold blen in *; cbn in *; lia|]. cbn in DD. now apply andb_prop in DD as [DD _].
        - unfold digit_begin, eat_digits. rewrite eat_app; [reflexivity|now apply sd_digits, fd_sd|reflexivity]. }
      rewrite tokenize_comma by lia. rewrite (tok_few Y true) by (auto; lia).
      destruct (tokenize fuel _ _ rest); reflexivity.
    + rewrite (tok_month w m) by (auto; lia). rewrite tokenize_space.
      rewrite (tok_few D true) by (auto using rest_blank; lia). rewrite tokenize_space.
      rewrite (tok_few Y true) by (auto; lia).
      destruct (tokenize fuel _ _ rest); reflexivity.
  - left. eexists. split.
    2:{ intros r. cbn [app date_time_fields]. change ctx_new with (mkCtx tm_new KDate 0 0 0 KNumber false false false HR24 false).
        rewrite (field_month md order (lowers w) m) by (auto; reflexivity). cbn [bind].
        rewrite (number_field_ctx md order D _ _ _ _ _ _ (mask DAY) (set_mday (digits_value D) (set_mon m tm_new)) false PD);
          [|apply nd_m_day; [now apply fd_sd|reflexivity]|reflexivity]. cbn [bind].
        rewrite (number_field_ctx md order Y _ _ _ _ _ _ (mask YEAR) (set_year (digits_value Y) (set_mday (digits_value D) (set_mon m tm_new))) (blen Y <=? 2) PY);
          [|apply nd_md_year; [now apply fd_sd|reflexivity]|reflexivity]. cbn [bind]. reflexivity. }
    state. apply bl2.
Qed.

Lemma around_case md order A w m B : few_digits A -> month_name w m -> few_digits B ->
  exists ts, date_tokens_ok order true (A ++ 32 :: w ++ 32 :: B) ts
    /\ date_fields_ok md order ts (fst (around_month order A B)) m (digits_value (snd (around_month order A B))).
Proof.
  intros PA Mw PB. pose proof (fd_blen _ PA). pose proof (fd_blen _ PB).
  destruct (month_name_facts _ _ Mw) as (Dw & Aw & _ & Lw & Le & _).
  assert (2 <= blen w <= 9) by (unfold blen; lia).
  pose proof (fd_sd _ PA) as SA. pose proof (fd_sd _ PB) as SB.
  exists [(Some KNumber, A); (Some KString, lowers w); (Some KNumber, B)]. split.
  - exists 3%nat, 3, (128 - blen A - blen w - blen B).
    split; [|split; [lia|split; [lia|]]].
    { rewrite app_length. cbn [length]. rewrite !app_length. cbn [length]. unfold blen in *; lia. }
    intros fuel rest R. rewrite <- app_assoc. cbn [app]. rewrite <- app_assoc. cbn [app Nat.add].
    rewrite (tok_few A true) by (auto using rest_blank; lia). rewrite tokenize_space.
    rewrite (tok_month w m) by (auto; lia). rewrite tokenize_space.
    rewrite (tok_few B true) by (auto; lia).
    destruct (tokenize fuel _ _ rest); reflexivity.
  - unfold around_month. destruct (3 <=? length A)%nat eqn:LA; [|destruct order].
    + left. eexists. split.
      2:{ intros r. cbn [app date_time_fields]. change ctx_new with (mkCtx tm_new KDate 0 0 0 KNumber false false false HR24 false).
        rewrite (number_field_ctx md order A _ _ _ _ _ _ (mask YEAR) (set_year (digits_value A) tm_new) (blen A <=? 2) PA);
          [|apply nd_year; [exact SA|reflexivity|now rewrite bl3, LA]|reflexivity]. cbn [bind].
        rewrite (field_month md order (lowers w) m) by (auto; reflexivity). cbn [bind].
        rewrite (number_field_ctx md order B _ _ _ _ _ _ (mask DAY) (set_mday (digits_value B) (set_mon m (set_year (digits_value A) tm_new))) (blen A <=? 2) PB);
          [|apply nd_ym_day; [exact SB|reflexivity]|reflexivity]. cbn [bind]. reflexivity. }
      state. apply bl2.
    + left. eexists. split.
      2:{ intros r. cbn [app date_time_fields]. change ctx_new with (mkCtx tm_new KDate 0 0 0 KNumber false false false HR24 false).
        rewrite (number_field_ctx md YMD A _ _ _ _ _ _ (mask YEAR) (set_year (digits_value A) tm_new) (blen A <=? 2) PA);
          [|apply nd_year; [exact SA|reflexivity|now rewrite orb_true_r]|reflexivity]. cbn [bind].
        rewrite (field_month md YMD (lowers w) m) by (auto; reflexivity). cbn [bind].
        rewrite (number_field_ctx md YMD B _ _ _ _ _ _ (mask DAY) (set_mday (digits_value B) (set_mon m (set_year (digits_value A) tm_new))) (blen A <=? 2) PB);
          [|apply nd_ym_day; [exact SB|reflexivity]|reflexivity]. cbn [bind]. reflexivity. }
      state. apply bl2.
    + left. eexists. split.
      2:{ intros r. cbn [app date_time_fields]. change ctx_new with (mkCtx tm_new KDate 0 0 0 KNumber false false false HR24 false).
        rewrite (number_field_ctx md DMY A _ _ _ _ _ _ (mask DAY) (set_mday (digits_value A) tm_new) false PA);
          [|apply nd_day; [exact SA|reflexivity|now rewrite bl3, LA]|reflexivity]. cbn [bind].
        rewrite (field_month md DMY (lowers w) m) by (auto; reflexivity). cbn [bind].
        rewrite (number_field_ctx md DMY B _ _ _ _ _ _ (mask YEAR) (set_year (digits_value B) (set_mon m (set_mday (digits_value A) tm_new))) (blen B <=? 2) PB);
          [|apply nd_md_year; [exact SB|reflexivity]|reflexivity]. cbn [bind]. reflexivity. }
      state. apply bl2.
    + cbn [fst snd]. assert (forall r, date_time_fields md MDY ([(Some KNumber, A); (Some KString, lowers w); (Some KNumber, B)] ++ r) ctx_new
        = if (1 <=? digits_value A) && (digits_value A <=? 31)
          then date_time_fields md MDY r (mkCtx (set_year (digits_value B) (set_mon m (set_mday (digits_value A) (set_mon (digits_value A) tm_new)))) KDate 0
             DTK_DATE_M (mask YEAR) KNumber false (blen B <=? 2) false HR24 true)
          else Err EInvalid) as K.
      { intros r. cbn [app date_time_fields]. change ctx_new with (mkCtx tm_new KDate 0 0 0 KNumber false false false HR24 false).
        rewrite (number_field_ctx md MDY A _ _ _ _ _ _ (mask MONTH) (set_mon (digits_value A) tm_new) false PA);
          [|apply nd_month; [exact SA|reflexivity|now rewrite bl3, LA]|reflexivity]. cbn [bind].
        change (Z.lor 0 (mask MONTH)) with (mask MONTH).
        rewrite (swap_month md MDY (lowers w) m) by exact Dw. cbn [tm_mon set_mon].
        destruct ((1 <=? digits_value A) && (digits_value A <=? 31)); [|reflexivity]. cbn [bind].
        rewrite (number_field_ctx md MDY B _ _ _ _ _ _ (mask YEAR)
            (set_year (digits_value B) (set_mon m (set_mday (digits_value A) (set_mon (digits_value A) tm_new)))) (blen B <=? 2) PB);
          [|apply nd_md_year; [exact SB|reflexivity]|reflexivity]. cbn [bind]. reflexivity. }
      destruct ((1 <=? digits_value A) && (digits_value A <=? 31)) eqn:E.
      * left. eexists. split; [|exact K]. state. apply bl2.
      * right. split; [lia|exact K].
Qed.

Lemma date_case md order glue td Y m d : date_words order glue td Y m d ->
  exists ts, date_tokens_ok order glue td ts /\ date_fields_ok md order ts Y m d.
Proof.
  destruct 1.
  - now apply numeric_case.
  - now apply compact_case.
  - now apply inner_case.
  - now apply first_case.
  - now apply mdy_case.
  - now apply around_case.
Qed.

Lemma words_year order glue td Y m d : date_words order glue td Y m d -> short_digits Y /\ 0 <= d.
Proof.
  assert (forall t, short_digits t -> 0 <= digits_value t) as N by (intros t Q; pose proof (sd_value t Q); lia).
  destruct 1; cbn [fst snd].
  - unfold DateText.reading. destruct (3 <=? length A)%nat; [|destruct order]; cbn [fst snd]; auto.
  - auto using two_sd.
  - unfold beside_month. destruct (3 <=? length A)%nat; [|destruct order; [destruct (3 <=? length B)%nat| |]]; cbn [fst snd]; auto.
  - unfold beside_month. destruct (3 <=? length A)%nat; [|destruct order; [destruct (3 <=? length B)%nat| |]]; cbn [fst snd]; auto.
  - auto using fd_sd.
  - unfold around_month. destruct (3 <=? length A)%nat; [|destruct order]; cbn [fst snd]; auto using fd_sd.
Qed.

(** ** What follows a date *)
Definition gap_tokens (sep : Z) : list token := if sep =? 84 then [(Some KString, [116])] else [].

Lemma tokenize_mark' fuel n room e : n < 25 -> 2 <= room -> (length (era_text e) <= fuel)%nat ->
  tokenize (S fuel) n room (era_text e) = Ok (mark_tokens e).
Proof.
  intros N R L. destruct fuel as [|fuel]; [|now apply tokenize_mark]. destruct e; cbn in L; [|lia|lia]. reflexivity.
Qed.

Lemma tail_tokens sep t h mi s us x e fuel n room : sep = 32 \/ sep = 84 -> time_words t h mi s us -> n <= 3 -> 98 <= room ->
  (length (sep :: t ++ half_text x ++ era_text e) <= fuel)%nat ->
  tokenize (S fuel) n room (sep :: t ++ half_text x ++ era_text e)
  = Ok (gap_tokens sep ++ (Some KTime, t) :: half_tokens x ++ mark_tokens e).
Proof.
  intros Hs W N R L. pose proof (words_len _ _ _ _ _ W) as Lt.
  cbn [length] in L. rewrite !app_length in L.
  assert (forall fuel n room, n <= 4 -> 97 <= room -> (length t + (length (half_text x) + length (era_text e)) <= fuel)%nat ->
    tokenize (S fuel) n room (t ++ half_text x ++ era_text e) = Ok ((Some KTime, t) :: half_tokens x ++ mark_tokens e)) as K.
  { intros f k r Hk Hr Lf.
    rewrite (tokenize_words t h mi s us);
      [|exact W|apply half_stops; try reflexivity; destruct e; [exact I|reflexivity|reflexivity]|lia|unfold blen; lia].
    assert (half_count x <= length (half_text x))%nat as Hh by (destruct x as [|[]|[]]; cbn; lia).
    replace f with (half_count x + S (f - half_count x - 1))%nat by lia.
    rewrite tokenize_half; [|lia|unfold blen; lia|destruct e; [now left|right; eexists; reflexivity|right; eexists; reflexivity]].
    rewrite tokenize_mark'; [reflexivity|destruct x; cbn; lia|destruct x; cbn [half_size]; unfold blen; lia|lia]. }
  destruct Hs as [->| ->].
  - rewrite tokenize_space. rewrite K by lia. reflexivity.
  - destruct fuel as [|fuel]; [lia|].
    pose proof (words_head _ _ _ _ _ (half_text x ++ era_text e) W) as Hd.
    destruct (t ++ half_text x ++ era_text e) as [|c r] eqn:E; [easy|].
    rewrite tokenize_T by (auto; lia). rewrite K by lia. reflexivity.
Qed.

Lemma half_fields md order x r c : has (c_fmask c) (mask AMPM) = false ->
  date_time_fields md order (half_tokens x ++ r) c = date_time_fields md order r (half_ctx x c).
Proof.
  intros Hf. destruct x as [|b|b] eqn:Ex; [reflexivity| |]; rewrite <- Ex;
    (destruct (half_special x) as (w & -> & E); [subst; discriminate|]); cbn [app date_time_fields];
    unfold date_time_field; cbn [fst snd read_type bind]; unfold decode_string_token; rewrite E; cbn [bind];
    change (tteq AMPM IgnoreDtf) with false; cbv iota; cbn [bind]; unfold merge_mask;
    (replace (has (c_fmask _) (c_tmask _)) with false by (symmetry; exact Hf)); rewrite Ex; reflexivity.
Qed.

Definition hour_ok (h mi s us : Z) : bool := (h <=? 24) && ((h <? 24) || (mi =? 0) && (s =? 0) && (us =? 0)).

Lemma field_words md order t h mi s us next c : time_words t h mi s us ->
  c_ptype c = KNumber \/ c_ptype c = KTime -> has (c_fmask c) DTK_TIME_M = false ->
  date_time_field md order (Some KTime, t) next c =
  if (mi <=? 59) && (s <=? 60) then if hour_ok h mi s us then Ok (time_ctx h mi s us c) else Err EOverflow else Err EInvalid.
Proof.
  intros W Pt Hf. pose proof (words_bounds _ _ _ _ _ W) as (Bh & Bm & Bs & Bu).
  unfold date_time_field. cbn [fst snd read_type bind].
  assert ((if negb (is_num (c_ptype c)) then if negb (tfeq (c_ptype c) KTime) then Err EInvalid
           else Ok (c_set_ptype KNumber c) else Ok c) = Ok (c_set_ptype KNumber c)) as ->.
  { destruct Pt as [E|E]; rewrite E; [|reflexivity]. cbn. destruct c; cbn in *; now subst. }
  cbn [bind]. rewrite (time_field_words md t h mi s us) by exact W.
  destruct ((mi <=? 59) && (s <=? 60)); [|reflexivity]. cbn [bind]. unfold words_time.
  replace (tm_hour _) with h by (destruct c as [[]]; reflexivity).
  replace (tm_min _) with mi by (destruct c as [[]]; reflexivity).
  replace (tm_sec _) with s by (destruct c as [[]]; reflexivity).
  assert ((HOURS_PER_DAY <? h) || (h =? HOURS_PER_DAY) && ((0 <? mi) || (0 <? s) || (0 <? us)) = negb (hour_ok h mi s us)) as ->
    by (unfold HOURS_PER_DAY, hour_ok; lia).
  destruct (hour_ok h mi s us); [|reflexivity]. cbn [negb].
  unfold merge_mask. replace (has (c_fmask _) (c_tmask _)) with false by (symmetry; exact Hf). reflexivity.
Qed.
