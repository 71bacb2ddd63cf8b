(** Times of day as people write them. *)
From Verif Require Import Model.Parse Spec.Calendar Spec.Ranges Spec.Clock Spec.Text Spec.DateText Spec.TimeText Spec.Keywords
  Proofs.Arith Proofs.DigitsP Proofs.ParseP Proofs.RoundTripP Proofs.NumDateP.
From Coq Require Import List ZArith Bool Lia.
Import ListNotations.
Open Scope Z_scope.

Lemma micros_bound f : fraction_digits f -> 0 <= micros f < 1000000.
Proof.
  intros [F L]. unfold micros. pose proof (digits_value_bound _ F) as B. pose proof (pow10_pos (6 - length f)) as P'.
  assert (10 ^ Z.of_nat (length f) * 10 ^ Z.of_nat (6 - length f) = 1000000) as PP.
  { rewrite <- Z.pow_add_r by lia. replace (Z.of_nat (length f) + Z.of_nat (6 - length f)) with 6 by lia. reflexivity. }
  nia.
Qed.

Lemma sd_str t s : short_digits t -> stops is_digit s -> str2i32 (t ++ s) = Ok (digits_value t, s).
Proof. intros P S. apply (padded_str (length t)); [now apply sd_padded|now apply sd_i32|now apply sd_w|exact S]. Qed.
Lemma sd_str0 t : short_digits t -> str2i32 t = Ok (digits_value t, []).
Proof. intros P. rewrite <- (app_nil_r t) at 1. now apply sd_str. Qed.

Lemma parse_micros md f : fraction_digits f -> parse_fractional_second md (46 :: f) = Ok (micros f).
Proof.
  intros H. pose proof (micros_bound f H) as B. destruct H as [F L].
  unfold parse_fractional_second. change (46 =? 46) with true.
  assert (debug_assert md true = Ok tt) as -> by now destruct md. cbn [bind].
  unfold str2d. rewrite eat_ws_cons by easy.
  unfold extract_sign. change (46 =? 43) with false. change (46 =? 45) with false. cbv iota.
  unfold eat_digits. rewrite (eat_none is_digit (46 :: f)) by easy.
  change (10 <? blen []) with false. cbv iota. change (46 =? 46) with true. cbv iota.
  rewrite <- (app_nil_r f) at 1. rewrite eat_app; [|now apply digits_forallb|exact I].
  destruct (Z.ltb_spec 7 (blen f)); [unfold blen in *; lia|]. cbn [bind]. f_equal.
  destruct f as [|c r] eqn:Er; [reflexivity|]. rewrite <- Er in *.
  change (dval 0 []) with 0. rewrite dval_value, Z.mul_1_r. unfold blen.
  apply frac_usecs_gen; [lia|reflexivity|]. change (2 ^ 50) with 1125899906842624. fold (micros f). lia.
Qed.

Lemma words_bounds t h mi s us : time_words t h mi s us ->
  0 <= h <= 999999999 /\ 0 <= mi <= 999999999 /\ 0 <= s <= 999999999 /\ 0 <= us < 1000000.
Proof.
  intros W. destruct W;
    repeat match goal with H : short_digits ?x |- _ => pose proof (sd_value x H); clear H end;
    repeat match goal with H : fraction_digits ?x |- _ => pose proof (micros_bound x H); clear H end; lia.
Qed.

Definition words_time (h mi s : Z) (tm : pgtime) : pgtime := set_sec s (set_min mi (set_hour h tm)).

Lemma decode_words_in md range t h mi s us x : time_words t h mi s us ->
  range =? INTERVAL_MASK_MS = false \/ (exists a b c, t = a ++ 58 :: b ++ 58 :: c \/ t = a ++ 58 :: b ++ 46 :: c) ->
  decode_time md t range x
  = ((words_time h mi s (fst x), us), if (mi <=? 59) && (s <=? 60) then Ok tt else Err EInvalid).
Proof.
  intros W NMS. pose proof (words_bounds _ _ _ _ _ W) as (Bh & Bm & Bs & Bu).
  assert (forall A (a b : A) fs, 0 <= fs <= 1000000 ->
    (if (h <? 0) || (mi <? 0) || (MINS_PER_HOUR - 1 <? mi) || (s <? 0) || (SECS_PER_MINUTE <? s)
     || (fs <? 0) || (USECS_PER_SEC <? fs) then a else b) = if (mi <=? 59) && (s <=? 60) then b else a) as C.
  { intros. unfold MINS_PER_HOUR, SECS_PER_MINUTE, USECS_PER_SEC.
    destruct (Z.leb_spec mi 59), (Z.leb_spec s 60); cbn [andb];
      match goal with |- (if ?e then _ else _) = _ => destruct e eqn:E end; try reflexivity; lia. }
  unfold decode_time, words_time.
  destruct W as [h m Ph Pm|h m s Ph Pm Ps|h m s f Ph Pm Ps Pf|m s f Pm Ps Pf].
  - rewrite (sd_str h (58 :: _) Ph) by easy. change (negb (58 =? 58)) with false. cbv iota.
    rewrite (sd_str0 m Pm).
    assert (range =? INTERVAL_MASK_MS = false) as ->.
    { destruct NMS as [H|(a & b & c & H)]; [exact H|exfalso].
      assert (forallb is_digit (h ++ m) = true) as D by (rewrite forallb_app, !sd_digits by assumption; reflexivity).
      assert (count_occ Z.eq_dec (h ++ 58 :: m) 58 = 1%nat /\ count_occ Z.eq_dec (h ++ 58 :: m) 46 = 0%nat) as [K1 K2].
      { rewrite !count_occ_app. cbn [count_occ].
        assert (forall v l, is_digit v = false -> forallb is_digit l = true -> count_occ Z.eq_dec l v = 0%nat) as K.
        { intros v l Hv Hl. apply count_occ_not_In. intros I. rewrite forallb_forall in Hl. apply Hl in I. congruence. }
        rewrite !K by (reflexivity || now apply sd_digits). split; reflexivity. }
      destruct H as [H|H]; rewrite H in K1, K2; clear H; rewrite ?count_occ_app in *; cbn [count_occ] in *;
        rewrite ?count_occ_app in *; cbn [count_occ] in *; repeat (destruct (Z.eq_dec _ _) in *; try lia). }
    cbv iota.
    cbv beta zeta iota delta [tm_hour tm_min tm_sec set_sec set_min set_hour fst snd].
    rewrite C by lia. destruct (_ && _); reflexivity.
  - rewrite (sd_str h (58 :: _) Ph) by easy. change (negb (58 =? 58)) with false. cbv iota.
    rewrite (sd_str m (58 :: _) Pm) by easy. change (58 =? 46) with false. change (58 =? 58) with true. cbv iota.
    rewrite (sd_str0 s Ps).
    cbv beta zeta iota delta [tm_hour tm_min tm_sec set_sec set_min set_hour fst snd].
    rewrite C by lia. destruct (_ && _); reflexivity.
  - rewrite (sd_str h (58 :: _) Ph) by easy. change (negb (58 =? 58)) with false. cbv iota.
    rewrite (sd_str m (58 :: _) Pm) by easy. change (58 =? 46) with false. change (58 =? 58) with true. cbv iota.
    rewrite (sd_str s (46 :: f) Ps) by easy. change (46 =? 46) with true. cbv iota. rewrite (parse_micros md f Pf).
    cbv beta zeta iota delta [tm_hour tm_min tm_sec set_sec set_min set_hour fst snd].
    rewrite C by lia. destruct (_ && _); reflexivity.
  - rewrite (sd_str m (58 :: _) Pm) by easy. change (negb (58 =? 58)) with false. cbv iota.
    rewrite (sd_str s (46 :: f) Ps) by easy. change (46 =? 46) with true. cbv iota. rewrite (parse_micros md f Pf).
    cbv beta zeta iota delta [tm_hour tm_min tm_sec set_sec set_min set_hour fst snd].
    rewrite C by lia. destruct (_ && _); reflexivity.
Qed.

Lemma decode_words md t h mi s us x : time_words t h mi s us ->
  decode_time md t INTERVAL_FULL_RANGE x
  = ((words_time h mi s (fst x), us), if (mi <=? 59) && (s <=? 60) then Ok tt else Err EInvalid).
Proof. intros W. apply decode_words_in; [exact W|now left]. Qed.

(** Under MINUTE TO SECOND *)
Lemma decode_minutes md m s x : short_digits m -> short_digits s ->
  decode_time md (m ++ 58 :: s) INTERVAL_MASK_MS x
  = ((words_time 0 (digits_value m) (digits_value s) (fst x), 0),
     if (digits_value m <=? 59) && (digits_value s <=? 60) then Ok tt else Err EInvalid).
Proof.
  intros Pm Ps. unfold decode_time, words_time. rewrite (sd_str m (58 :: _) Pm) by easy. change (negb (58 =? 58)) with false. cbv iota.
  rewrite (sd_str0 s Ps). change (INTERVAL_MASK_MS =? INTERVAL_MASK_MS) with true. cbv iota.
  pose proof (sd_value m Pm). pose proof (sd_value s Ps).
  cbv beta zeta iota delta [tm_hour tm_min tm_sec set_sec set_min set_hour fst snd].
  unfold MINS_PER_HOUR, SECS_PER_MINUTE, USECS_PER_SEC.
  destruct (Z.leb_spec (digits_value m) 59), (Z.leb_spec (digits_value s) 60); cbn [andb];
    match goal with |- context [if ?e then (_, Err _) else _] => destruct e eqn:E end; try reflexivity; lia.
Qed.

Lemma time_field_words md t h mi s us tm fs : time_words t h mi s us ->
  time_field md t (tm, fs) = if (mi <=? 59) && (s <=? 60) then Ok (words_time h mi s tm, us) else Err EInvalid.
Proof. intros W. unfold time_field. rewrite (decode_words md t h mi s us) by exact W. destruct (_ && _); reflexivity. Qed.

(** ** Tokens *)
Lemma words_shape t h mi s us : time_words t h mi s us ->
  exists a r, t = a ++ 58 :: r /\ short_digits a /\ forallb time_char r = true.
Proof.
  assert (forall l, Forall digit l -> forallb time_char l = true) as K.
  { intros l F. apply (forallb_weaken is_digit); [|now apply digits_forallb]. intros x E. unfold time_char. now rewrite E. }
  intros W. destruct W as [h m Ph Pm|h m s Ph Pm Ps|h m s f Ph Pm Ps Pf|m s f Pm Ps Pf];
    (eexists; eexists; split; [reflexivity|split; [assumption|]]);
    repeat (rewrite forallb_app'; cbn [forallb]); rewrite ?K; try reflexivity;
    first [apply Pm|apply Ps|apply Pf].
Qed.

Lemma words_token t h mi s us rest : time_words t h mi s us -> stops time_char rest ->
  digit_begin (t ++ rest) = ((Some KTime, t), rest).
Proof.
  intros W S. destruct (words_shape _ _ _ _ _ W) as (a & r & -> & Pa & Fr).
  unfold digit_begin, eat_digits. rewrite <- app_assoc. cbn [app].
  rewrite eat_app; [|now apply sd_digits|easy]. change (58 =? 58) with true. cbv iota.
  change (58 :: r ++ rest) with ((58 :: r) ++ rest).
  change (fun i => is_digit i || (i =? 58) || (i =? 46)) with time_char.
  rewrite eat_app; [reflexivity| |exact S]. cbn [forallb]. exact Fr.
Qed.

Lemma words_head t h mi s us rest : time_words t h mi s us ->
  match t ++ rest with c :: _ => is_digit c = true | [] => False end.
Proof.
  intros W. destruct (words_shape _ _ _ _ _ W) as (a & r & -> & Pa & _). pose proof (sd_digits a Pa) as D.
  pose proof (sd_nonempty a Pa). destruct a as [|c a]; [easy|]. cbn in *. now apply andb_prop in D.
Qed.

Lemma words_len t h mi s us : time_words t h mi s us -> (3 <= length t <= 36)%nat.
Proof.
  intros W. destruct W;
    repeat match goal with H : short_digits ?x |- _ => destruct H as [_ ?] end;
    repeat match goal with H : fraction_digits ?x |- _ => destruct H as [_ ?] end;
    repeat (rewrite app_length; cbn [length]); lia.
Qed.

Lemma tokenize_words t h mi s us rest fuel n room : time_words t h mi s us ->
  stops time_char rest -> n < 25 -> blen t <= room ->
  tokenize (S fuel) n room (t ++ rest) =
  let* ts := tokenize fuel (n + 1) (room - blen t) rest in Ok ((Some KTime, t) :: ts).
Proof.
  intros W S N B. rewrite (tokenize_digit fuel n room (t ++ rest) (Some KTime, t) rest); [reflexivity| | |easy|exact B].
  - eapply words_head; eauto.
  - now apply (words_token t h mi s us).
Qed.

Definition half_tokens (x : half) : list token :=
  match x with NoHalf => [] | HalfAM _ => [(Some KString, bs "am")] | HalfPM _ => [(Some KString, bs "pm")] end.
Definition half_size (x : half) : Z := match x with NoHalf => 0 | _ => 2 end.
Definition half_count (x : half) : nat := match x with NoHalf => 0 | _ => 1 end.

Lemma half_stops x rest f : f 32 = false -> f 65 = false -> f 80 = false -> stops f rest -> stops f (half_text x ++ rest).
Proof. intros. destruct x as [|[]|[]]; cbn; auto. Qed.

(** [rest] is what may follow: nothing or a blank. *)
Lemma tokenize_half fuel n room x rest : n < 25 -> 2 <= room -> rest = [] \/ (exists r, rest = 32 :: r) ->
  tokenize (half_count x + S fuel) n room (half_text x ++ rest) =
  let* ts := tokenize (S fuel) (n + Z.of_nat (half_count x)) (room - half_size x) rest in Ok (half_tokens x ++ ts).
Proof.
  intros N R E. destruct x as [|b|b]; cbn [half_count half_text half_tokens half_size app Nat.add].
  - cbn [Z.of_nat]. rewrite Z.add_0_r, Z.sub_0_r. destruct (tokenize _ _ _ _); reflexivity.
  - assert (tokenize (S (S fuel)) n room ((gap b ++ [65; 77]) ++ rest) = tokenize (S (S fuel)) n room ([65; 77] ++ rest)) as ->
      by (destruct b; [exact (tokenize_space _ _ _ _)|reflexivity]).
    rewrite tokenize_word; [reflexivity|reflexivity|easy|exact E|exact N|exact R].
  - assert (tokenize (S (S fuel)) n room ((gap b ++ [80; 77]) ++ rest) = tokenize (S (S fuel)) n room ([80; 77] ++ rest)) as ->
      by (destruct b; [exact (tokenize_space _ _ _ _)|reflexivity]).
    rewrite tokenize_word; [reflexivity|reflexivity|easy|exact E|exact N|exact R].
Qed.

(** ** AM and PM *)
Definition half_code (x : half) : Z := match x with NoHalf => HR24 | HalfAM _ => AM | HalfPM _ => PM end.
Definition half_ctx (x : half) (c : ctx) : ctx :=
  match x with
  | NoHalf => c
  | _ => c_set_fmask (Z.lor (c_fmask c) (mask AMPM)) (c_set_mer (half_code x) (c_set_tmask (mask AMPM) c))
  end.

Lemma apply_half md x tm : 0 <= tm_hour tm -> tm_hour tm <= i32_max ->
  apply_mer md (half_code x) tm =
  match x with
  | NoHalf => Ok tm
  | _ => match meant_hour x (tm_hour tm) with Some h => Ok (set_hour h tm) | None => Err EOverflow end
  end.
Proof.
  intros B0 B1. unfold apply_mer. change (Z.quot HOURS_PER_DAY 2) with 12.
  assert (forall h, tm_hour tm = h -> set_hour h tm = tm) as ID by (intros h <-; destruct tm; reflexivity).
  destruct x as [|b|b]; cbn [half_code meant_hour].
  - reflexivity.
  - change (AM =? HR24) with false. change (AM =? AM) with true. change (AM =? PM) with false. cbn [negb andb].
    destruct (Z.ltb_spec 12 (tm_hour tm)), (Z.leb_spec (tm_hour tm) 12); try lia; [reflexivity|].
    destruct (Z.eqb_spec (tm_hour tm) 12) as [->|N]; [reflexivity|]. rewrite Z.mod_small by lia. now rewrite ID.
  - change (PM =? HR24) with false. change (PM =? AM) with false. change (PM =? PM) with true. cbn [negb andb].
    destruct (Z.ltb_spec 12 (tm_hour tm)), (Z.leb_spec (tm_hour tm) 12); try lia; [reflexivity|].
    destruct (Z.eqb_spec (tm_hour tm) 12) as [E|N]; cbn [negb].
    + rewrite E. change (12 mod 12 + 12) with 12. now rewrite ID.
    + assert (add32 md (tm_hour tm) 12 = Ok (tm_hour tm + 12)) as -> by (ar; reflexivity). cbn [bind].
      rewrite Z.mod_small by lia. reflexivity.
Qed.

(** ** Time::try_from_str *)
Lemma half_special x : x <> NoHalf -> exists w, half_tokens x = [(Some KString, w)] /\ decode_special w = Ok (AMPM, half_code x).
Proof.
  destruct x as [|b|b]; intros N; [easy| |].
  - exists (bs "am"). split; [reflexivity|]. vm_compute. reflexivity.
  - exists (bs "pm"). split; [reflexivity|]. vm_compute. reflexivity.
Qed.

Lemma half_time_only md order n tys x c : has (c_fmask c) (mask AMPM) = false ->
  time_only_fields md order n tys (half_tokens x) c = Ok (half_ctx x c).
Proof.
  intros Hf. destruct x as [|b|b] eqn:Ex; [reflexivity| |]; rewrite <- Ex;
    (destruct (half_special x) as (w & -> & E); [subst; discriminate|]); cbn [time_only_fields];
    unfold time_only_field; cbn [fst snd read_type bind]; unfold time_string_token; rewrite E; cbn [bind];
    change (tteq AMPM IgnoreDtf) with false; cbv iota; cbn [bind]; unfold merge_mask;
    (replace (has (c_fmask _) (c_tmask _)) with false by (symmetry; exact Hf)); rewrite Ex; reflexivity.
Qed.

Lemma words_half_text t h mi s us x : time_words t h mi s us ->
  parse_date_time (t ++ half_text x) = Ok ((Some KTime, t) :: half_tokens x).
Proof.
  intros W. pose proof (words_len _ _ _ _ _ W) as L.
  rewrite parse_date_time_cons by (destruct t; [cbn in L; lia|discriminate]).
  rewrite (tokenize_words t h mi s us); [|exact W| |lia|unfold blen; lia].
  2:{ rewrite <- (app_nil_r (half_text x)). apply half_stops; try reflexivity. }
  assert (exists k, length (t ++ half_text x) = half_count x + S k)%nat as [k ->].
  { rewrite app_length. exists (length t + length (half_text x) - half_count x - 1)%nat. destruct x as [|[]|[]]; cbn; lia. }
  rewrite <- (app_nil_r (half_text x)) at 1. rewrite tokenize_half; [|lia|unfold blen; lia|now left].
  rewrite tokenize_nil. cbn [bind]. now rewrite app_nil_r.
Qed.

Lemma meant_clock_bounds x h mi s us c : 0 <= h -> 0 <= mi -> 0 <= s -> 0 <= us < 1000000 ->
  meant_clock x h mi s us = Some c -> exists h', meant_hour x h = Some h' /\ 0 <= h' <= 24 /\ mi <= 59 /\ s <= 60
   /\ (h' = 24 -> mi = 0 /\ s = 0 /\ us = 0) /\ c = clock h' mi s us.
Proof.
  unfold meant_clock. intros Bh Bm Bs Bu. destruct (meant_hour x h) as [h'|] eqn:E; [|discriminate].
  destruct ((mi <=? 59) && _ && _) eqn:C; [|discriminate]. intros [= <-]. exists h'. split; [reflexivity|].
  assert (0 <= h' <= 24).
  { destruct x; cbn in E; destruct (Z.leb_spec h 24), (Z.leb_spec h 12); try discriminate; injection E as <-;
      try (pose proof (Z.mod_pos_bound h 12)); lia. }
  lia.
Qed.

Lemma time_text md t h mi s us x p order : time_words t h mi s us ->
  time_try_from_str md (t ++ half_text x) p order =
  match meant_clock x h mi s us with
  | Some c => time_adjust_by_typmod md c p
  | None => Err (if (mi <=? 59) && (s <=? 60) then EOverflow else EInvalid)
  end.
Proof.
  intros W. pose proof (words_bounds _ _ _ _ _ W) as (Bh & Bm & Bs & Bu).
  unfold time_try_from_str. rewrite (words_half_text t h mi s us) by exact W. cbn [bind].
  unfold decode_time_only. cbn [time_only_fields]. unfold time_only_field at 1. cbn [fst snd read_type bind].
  rewrite (time_field_words md t h mi s us) by exact W. unfold meant_clock.
  destruct ((mi <=? 59) && (s <=? 60)) eqn:R; cbn [bind fst snd andb].
  2:{ destruct (meant_hour x h); reflexivity. }
  unfold words_time.
  change (c_set_tmask _ _) with (mkCtx (mkTm s mi h 0 0 0 0 0 (-1)) KDate us 0 DTK_TIME_M KNumber false false false HR24 false).
  unfold merge_mask. cbn [c_fmask c_tmask]. mk.
  change (c_set_fmask _ _) with (mkCtx (mkTm s mi h 0 0 0 0 0 (-1)) KDate us DTK_TIME_M DTK_TIME_M KNumber false false false HR24 false).
  cbn [bind]. rewrite half_time_only by reflexivity. cbn [bind].
  set (c := mkCtx _ _ _ _ _ _ _ _ _ _ _).
  assert (c_julian (half_ctx x c) = false /\ c_2d (half_ctx x c) = false /\ c_bc (half_ctx x c) = false
     /\ c_tm (half_ctx x c) = c_tm c /\ c_mer (half_ctx x c) = half_code x /\ c_fsec (half_ctx x c) = us)
    as (-> & -> & -> & -> & -> & ->) by (destruct x; repeat split).
  assert (validate_date md (c_fmask (half_ctx x c)) false false false (c_tm c) = Ok (c_tm c)) as ->
    by (destruct x; unfold validate_date; cbn [half_ctx c_fmask c_set_fmask]; mk; reflexivity).
  cbn [bind]. rewrite apply_half by (cbn [c tm_hour c_tm]; rng; lia). cbn [c tm_hour c_tm].
  assert (forall h', 0 <= h' -> 
    bind (if (tm_hour (set_hour h' (c_tm c)) <? 0) || (tm_min (set_hour h' (c_tm c)) <? 0) || (MINS_PER_HOUR - 1 <? tm_min (set_hour h' (c_tm c)))
     || (tm_sec (set_hour h' (c_tm c)) <? 0) || (SECS_PER_MINUTE <? tm_sec (set_hour h' (c_tm c))) || (HOURS_PER_DAY <? tm_hour (set_hour h' (c_tm c)))
     || ((tm_hour (set_hour h' (c_tm c)) =? HOURS_PER_DAY)
         && ((0 <? tm_min (set_hour h' (c_tm c))) || (0 <? tm_sec (set_hour h' (c_tm c))) || (0 <? us)))
     || (us <? 0) || (USECS_PER_SEC <? us)
  then Err EOverflow
  else Ok (set_hour h' (c_tm c), us)) (fun x => let* t := time_from_pgtime md (fst x) (snd x) in time_adjust_by_typmod md t p)
  = if (h' <=? 24) && ((h' <? 24) || (mi =? 0) && (s =? 0) && (us =? 0)) then time_adjust_by_typmod md (clock h' mi s us) p
    else Err EOverflow) as K.
  { intros h' B'. cbn [c c_tm set_hour tm_hour tm_min tm_sec].
    unfold MINS_PER_HOUR, SECS_PER_MINUTE, HOURS_PER_DAY, USECS_PER_SEC.
    match goal with |- bind (if ?b then _ else _) _ = (if ?d then _ else _) => assert (b = negb d) as -> by lia; destruct d eqn:D end; [|reflexivity].
    cbn [negb bind fst snd]. rewrite (time_from_fields md _ us h' mi s) by (reflexivity || lia). reflexivity. }
  destruct x as [|b|b].
  - cbn [bind meant_hour]. specialize (K h (proj1 Bh)). 
    change (set_hour h (c_tm c)) with (c_tm c) in K. unfold bind in K |- *. cbn [c c_tm] in K. etransitivity; [exact K|].
    destruct (h <=? 24), ((h <? 24) || _); reflexivity.
  - cbn [meant_hour]. destruct (Z.leb_spec h 12) as [H|H]; [|reflexivity]. cbn [bind].
    pose proof (Z.mod_pos_bound h 12 ltac:(lia)). specialize (K (h mod 12) ltac:(lia)). unfold bind in K |- *. etransitivity; [exact K|].
    replace (h mod 12 <=? 24) with true by lia. cbn [andb]. destruct ((_ <? 24) || _); reflexivity.
  - cbn [meant_hour]. destruct (Z.leb_spec h 12) as [H|H]; [|reflexivity]. cbn [bind].
    pose proof (Z.mod_pos_bound h 12 ltac:(lia)). specialize (K (h mod 12 + 12) ltac:(lia)). unfold bind in K |- *. etransitivity; [exact K|].
    replace (h mod 12 + 12 <=? 24) with true by lia. cbn [andb]. destruct ((_ <? 24) || _); reflexivity.
Qed.
