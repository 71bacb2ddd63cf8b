(** Reading back numbers, clock fields and dates. *)
From Verif Require Import Model.Parse Spec.Calendar Spec.Ranges Spec.Clock Spec.Text
  Proofs.Arith Proofs.Cal Proofs.DateP Proofs.TsP Proofs.FloatP Proofs.ClockP Proofs.DigitsP Proofs.FormatP.
From Coq Require Import Reals Lra Lia.
From Flocq Require Import Core.
Open Scope Z_scope.

(** ** Fractions *)
Lemma rep_frac m k : Z.abs m <= 2 ^ 53 -> (k <= 7)%nat ->
  rep (fdiv (f64_of_Z m) (f64_of_Z (10 ^ Z.of_nat k))) (rnd (IZR m / IZR (10 ^ Z.of_nat k))).
Proof.
  intros Hm Hk. pose proof (pow10_pos k) as P.
  assert (10 ^ Z.of_nat k <= 10 ^ 7) as P7 by (apply Z.pow_le_mono_r; lia).
  change (10 ^ 7) with 10000000 in P7.
  assert (1 <= IZR (10 ^ Z.of_nat k))%R as R1 by (apply IZR_le; lia).
  apply rep_div; [apply rep_int; exact Hm|apply rep_int; lia|lra|].
  apply small_bound with (2 ^ 53); [|apply Z.pow_le_mono_r; lia].
  unfold Rdiv. rewrite Rabs_mult, <- abs_IZR.
  assert (0 < / IZR (10 ^ Z.of_nat k) <= 1)%R.
  { split; [apply Rinv_0_lt_compat; lra|]. rewrite <- Rinv_1. apply Rinv_le; lra. }
  rewrite (Rabs_pos_eq (/ _)%R) by lra.
  apply Rle_trans with (IZR (Z.abs m) * 1)%R; [|rewrite Rmult_1_r; now apply IZR_le].
  apply Rmult_le_compat_l; [apply IZR_le; lia|lra].
Qed.

Lemma usecs_of_f x : usecs_of x = f_usecs x.
Proof. reflexivity. Qed.

Lemma frac_usecs_gen m k n : (k <= 6)%nat -> n = m * 10 ^ Z.of_nat (6 - k) -> Z.abs n <= 2 ^ 50 ->
  usecs_of (fdiv (f64_of_Z m) (f64_of_Z (10 ^ Z.of_nat k))) = n.
Proof.
  intros Hk E H. rewrite usecs_of_f. pose proof (pow10_pos k) as P. pose proof (pow10_pos (6 - k)) as P'.
  assert (10 ^ Z.of_nat k * 10 ^ Z.of_nat (6 - k) = 1000000) as PP.
  { rewrite <- Z.pow_add_r by lia. replace (Z.of_nat k + Z.of_nat (6 - k)) with 6 by lia. reflexivity. }
  assert (Z.abs m <= 2 ^ 50) as Hm.
  { subst n. rewrite Z.abs_mul, (Z.abs_eq (10 ^ _)) in H by lia. nia. }
  assert (IZR m / IZR (10 ^ Z.of_nat k) = IZR n / 1000000)%R as Q.
  { change 1000000%R with (IZR 1000000). rewrite <- PP, E, !mult_IZR. field. split; apply not_0_IZR; lia. }
  destruct (usecs_real n H) as [En B].
  assert (2 ^ 50 <= 2 ^ 53) by (apply Z.pow_le_mono_r; lia).
  rewrite (f_usecs_ok _ _ (rep_frac m k ltac:(lia) ltac:(lia))).
  - rewrite Q, En. change (2 ^ 50) with 1125899906842624 in H. unfold i64_min, i64_max. lia.
  - rewrite Q. apply small_bound with (2 ^ 52); [exact B|]. apply Z.pow_le_mono_r; lia.
Qed.

Lemma fraction_facts us fr : fraction 6 us fr -> forallb is_digit fr = true /\ 0 < blen fr <= 6
  /\ us = digits_value fr * 10 ^ Z.of_nat (6 - length fr) /\ 0 <= us < 1000000.
Proof.
  intros (F & N & L & V & _). split; [now apply digits_forallb|].
  unfold blen. split; [destruct fr; [easy|cbn [length] in *; lia]|]. split; [easy|].
  pose proof (digits_value_bound _ F) as B. pose proof (pow10_pos (6 - length fr)) as P'.
  assert (10 ^ Z.of_nat (length fr) * 10 ^ Z.of_nat (6 - length fr) = 1000000) as PP.
  { rewrite <- Z.pow_add_r by lia. replace (Z.of_nat (length fr) + Z.of_nat (6 - length fr)) with 6 by lia. reflexivity. }
  subst us. nia.
Qed.

Lemma str2d_fraction us fr rest : fraction 6 us fr -> stops is_digit rest ->
  exists v, str2d (46 :: fr ++ rest) = Ok (v, rest) /\ usecs_of v = us.
Proof.
  intros H S. pose proof (fraction_facts _ _ H) as (F & L & E & U).
  eexists. unfold str2d. rewrite eat_ws_cons by easy.
  unfold extract_sign. change (46 =? 43) with false. change (46 =? 45) with false. cbv iota.
  unfold eat_digits. rewrite (eat_none is_digit (46 :: fr ++ rest)) by easy.
  change (10 <? blen []) with false. cbv iota. change (46 =? 46) with true. cbv iota.
  rewrite eat_app by easy. destruct (Z.ltb_spec 7 (blen fr)); [lia|].
  destruct fr as [|c r] eqn:Er; [cbn in L; lia|]. rewrite <- Er in *.
  split; [reflexivity|]. change (dval 0 []) with 0. rewrite dval_value, Z.mul_1_r.
  unfold blen. unfold blen in L. apply frac_usecs_gen; [lia|easy|]. change (2 ^ 50) with 1125899906842624. lia.
Qed.

Lemma parse_fraction md us fr : fraction 6 us fr -> parse_fractional_second md (46 :: fr) = Ok us.
Proof.
  intros H. destruct (str2d_fraction us fr [] H I) as (v & E & U). rewrite app_nil_r in E.
  unfold parse_fractional_second. change (46 =? 46) with true.
  assert (debug_assert md true = Ok tt) as -> by now destruct md. cbn [bind]. rewrite E. cbn [bind]. now rewrite U.
Qed.

(** ** Clock fields *)
Lemma padded_str w n t s : padded w n t -> n <= i32_max -> (w <= 10)%nat -> stops is_digit s ->
  str2i32 (t ++ s) = Ok (n, s).
Proof.
  intros P L W S. apply str2i32_numeral; auto; [now apply padded_numeral in P|].
  apply (padded_len _ _ _ _ P); [|easy]. change (10 ^ Z.of_nat 10) with 10000000000. rng. lia.
Qed.

Lemma decode_time_ok md w h mi s us t x : (w <= 10)%nat -> clock_text w h mi s us t ->
  0 <= h <= i32_max -> 0 <= mi < 60 -> 0 <= s < 60 ->
  decode_time md t INTERVAL_FULL_RANGE x
  = ((set_sec s (set_min mi (set_hour h (fst x))), us), Ok tt).
Proof.
  intros W (th & tmi & ts & Ph & Pm & (ds & Ps & Hs) & ->) Bh Bm Bs.
  unfold decode_time. rewrite (padded_str w h th (58 :: _) Ph ltac:(lia) W) by easy.
  change (negb (58 =? 58)) with false. cbv iota.
  rewrite (padded_str 2 mi tmi (58 :: _) Pm ltac:(rng; lia) ltac:(lia)) by easy.
  change (58 =? 46) with false. change (58 =? 58) with true. cbv iota.
  assert (forall fs, 0 <= fs <= 1000000 ->
    ((h <? 0) || (mi <? 0) || (MINS_PER_HOUR - 1 <? mi) || (s <? 0) || (SECS_PER_MINUTE <? s)
     || (fs <? 0) || (USECS_PER_SEC <? fs)) = false) as C
    by (intros; unfold MINS_PER_HOUR, SECS_PER_MINUTE, USECS_PER_SEC; lia).
  destruct Hs as [[-> ->]|[N (fr & F & ->)]].
  - rewrite <- (app_nil_r ds). rewrite (padded_str 2 s ds [] Ps ltac:(rng; lia) ltac:(lia) I).
    cbv beta zeta iota delta [tm_hour tm_min tm_sec set_sec set_min set_hour fst snd]. rewrite C by lia. reflexivity.
  - rewrite (padded_str 2 s ds (46 :: fr) Ps ltac:(rng; lia) ltac:(lia)) by easy.
    change (46 =? 46) with true. cbv iota. rewrite (parse_fraction md us fr F).
    destruct (fraction_facts _ _ F) as (_ & _ & _ & U).
    cbv beta zeta iota delta [tm_hour tm_min tm_sec set_sec set_min set_hour fst snd]. rewrite C by lia. reflexivity.
Qed.

Lemma time_field_ok md w h mi s us t tm fs : (w <= 10)%nat -> clock_text w h mi s us t ->
  0 <= h <= i32_max -> 0 <= mi < 60 -> 0 <= s < 60 ->
  time_field md t (tm, fs) = Ok (set_sec s (set_min mi (set_hour h tm)), us).
Proof. intros. unfold time_field. erewrite decode_time_ok by eauto. reflexivity. Qed.

(** ** Tokens *)
Definition time_char (i : Z) : bool := is_digit i || (i =? 58) || (i =? 46).

Lemma forallb_app' {A} (f : A -> bool) a b : forallb f (a ++ b) = forallb f a && forallb f b.
Proof. apply forallb_app. Qed.
Lemma forallb_weaken {A} (f g : A -> bool) l : (forall x, f x = true -> g x = true) ->
  forallb f l = true -> forallb g l = true.
Proof. intros H. rewrite !forallb_forall. auto. Qed.
Lemma padded_digits w n t : padded w n t -> forallb is_digit t = true.
Proof. intros [(F & _) _]. now apply digits_forallb. Qed.
Lemma padded_cons w n t : padded w n t -> exists c r, t = c :: r /\ is_digit c = true.
Proof.
  intros [(F & N & _) _]. destruct t as [|c r]; [easy|]. exists c, r. split; [easy|].
  inversion F; subst. now apply is_digit_iff.
Qed.

Lemma time_chars w s us t : seconds_text w s us t -> forallb time_char t = true.
Proof.
  assert (forall l, forallb is_digit l = true -> forallb time_char l = true) as K.
  { intros l. apply forallb_weaken. intros x E. unfold time_char. now rewrite E. }
  intros (ds & P & [[_ ->]|[_ (fr & F & ->)]]); [eauto using padded_digits|].
  rewrite forallb_app'. cbn [forallb]. rewrite !K; [reflexivity| |eauto using padded_digits].
  now apply fraction_facts in F as [F _].
Qed.

Lemma digit_begin_time w h mi s us t rest : clock_text w h mi s us t -> stops time_char rest ->
  digit_begin (t ++ rest) = ((Some KTime, t), rest).
Proof.
  intros (th & tmi & ts & Ph & Pm & Ps & ->) S.
  unfold digit_begin, eat_digits. rewrite <- app_assoc. cbn [app].
  rewrite eat_app; [|eauto using padded_digits|easy].
  change (58 =? 58) with true. cbv iota.
  rewrite <- app_assoc. cbn [app].
  change (58 :: tmi ++ 58 :: ts ++ rest) with ((58 :: tmi) ++ (58 :: ts) ++ rest). rewrite app_assoc.
  change (fun i => is_digit i || (i =? 58) || (i =? 46)) with time_char.
  rewrite eat_app; [|  |easy].
  - cbn [app]. reflexivity.
  - rewrite forallb_app'. cbn [forallb]. rewrite (time_chars _ _ _ _ Ps).
    rewrite (forallb_weaken is_digit time_char tmi); [reflexivity| |eauto using padded_digits].
    intros x E. unfold time_char. now rewrite E.
Qed.

Definition date_char (delim i : Z) : bool := (i =? delim) || is_digit i.

Lemma digit_begin_date wa a wb b wc c delim t rest : three wa a delim wb b delim wc c t ->
  delim = 45 \/ delim = 46 \/ delim = 47 -> stops (date_char delim) rest ->
  digit_begin (t ++ rest) = ((Some KDate, t), rest).
Proof.
  intros (ta & tb & tc & Pa & Pb & Pc & ->) D S.
  assert (is_digit delim = false /\ (delim =? 58) = false /\
    ((delim =? 45) || (delim =? 47) || (delim =? 46)) = true) as (Dd & D1 & D2)
    by (destruct D as [->|[->| ->]]; auto).
  unfold digit_begin, eat_digits. rewrite <- app_assoc. cbn [app].
  rewrite eat_app; [|eauto using padded_digits|easy]. rewrite D1, D2.
  destruct (padded_cons _ _ _ Pb) as (c0 & r0 & Eb & Dc).
  unfold digit_delim_begin. rewrite <- app_assoc. cbn [app]. rewrite Eb at 1. cbn [app]. rewrite Dc.
  unfold eat_digits. rewrite eat_app; [|eauto using padded_digits|easy]. rewrite Z.eqb_refl.
  change (fun i => (i =? delim) || is_digit i) with (date_char delim).
  change (delim :: tc ++ rest) with ((delim :: tc) ++ rest).
  rewrite eat_app; [reflexivity| |easy]. cbn [forallb]. unfold date_char at 1. rewrite Z.eqb_refl. cbn [orb andb].
  apply (forallb_weaken is_digit); [|eauto using padded_digits]. intros x E. unfold date_char. rewrite E.
  now rewrite Bool.orb_true_r.
Qed.

(** One step of the tokenizer per kind of field. *)
Lemma tokenize_digit fuel n room s t rest : match s with c :: _ => is_digit c = true | [] => False end ->
  digit_begin s = (t, rest) -> n < 25 -> blen (snd t) <= room ->
  tokenize (S fuel) n room s =
  let* ts := tokenize fuel (n + 1) (room - blen (snd t)) rest in Ok (t :: ts).
Proof.
  destruct s as [|c r]; [easy|]. intros Dc E N B. cbn [tokenize].
  rewrite eat_ws_cons by (apply digit_not_space; now apply is_digit_iff).
  unfold MAX_DATE_FIELDS. destruct (Z.leb_spec 25 n); [lia|]. rewrite Dc, E.
  unfold use_buf. destruct (Z.leb_spec (blen (snd t)) room); [reflexivity|lia].
Qed.

Lemma tokenize_nil fuel n room : tokenize (S fuel) n room [] = Ok [].
Proof. reflexivity. Qed.
Lemma tokenize_space fuel n room s : tokenize (S fuel) n room (32 :: s) = tokenize (S fuel) n room s.
Proof.
  cbn [tokenize]. unfold eat_whitespaces. cbn [eat]. change (is_space 32) with true. cbv iota.
  destruct (eat is_space s) as [a b]. reflexivity.
Qed.

Lemma alpha_not_space c : is_alpha c = true -> is_space c = false.
Proof. unfold is_alpha, is_upper, is_lower, is_space. lia. Qed.
Lemma alpha_not_digit c : is_alpha c = true -> is_digit c = false.
Proof. unfold is_alpha, is_upper, is_lower, is_digit. lia. Qed.

(** A word followed by the end or by a blank *)
Lemma tokenize_word fuel n room w rest : forallb is_alpha w = true -> w <> [] ->
  rest = [] \/ (exists r, rest = 32 :: r) -> n < 25 -> blen w <= room ->
  tokenize (S fuel) n room (w ++ rest) =
  let* ts := tokenize fuel (n + 1) (room - blen w) rest in Ok ((Some KString, lowers w) :: ts).
Proof.
  intros A N R Bn Bw. destruct w as [|c w]; [easy|]. cbn [app tokenize].
  pose proof A as A'. cbn [forallb] in A'. apply andb_prop in A' as [Ac _].
  rewrite eat_ws_cons by now apply alpha_not_space.
  unfold MAX_DATE_FIELDS. destruct (Z.leb_spec 25 n); [lia|].
  rewrite (alpha_not_digit c Ac). replace (c =? 46) with false by (unfold is_alpha, is_upper, is_lower in Ac; lia).
  rewrite Ac. unfold alpha_begin, eat_alphabetics. change (c :: w ++ rest) with ((c :: w) ++ rest).
  rewrite eat_app; [|easy|destruct R as [->|[r ->]]; easy].
  assert (forall (f : bytes), match rest with
    | [] => Ok false
    | c :: _ =>
        if (c =? 45) || (c =? 47) || (c =? 46) then Ok true
        else if (c =? 43) || is_digit c then
          let* t := search_date_token f in
          Ok (match t with None => true | Some _ => false end)
        else Ok false
    end = Ok false) as K by (intros; destruct R as [->|[r ->]]; reflexivity).
  rewrite K. cbn [bind snd]. unfold use_buf.
  assert (blen (lowers (c :: w)) = blen (c :: w)) as -> by (unfold blen, lowers; now rewrite map_length).
  destruct (Z.leb_spec (blen (c :: w)) room); [reflexivity|lia].
Qed.
