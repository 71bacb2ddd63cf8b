(** Seconds with more than six digits after the point. *)
From Coq Require Import Reals Lra.
From Flocq Require Import Core.
From Verif Require Import Model.F64 Model.Parse Spec.Calendar Spec.Ranges Spec.Clock Spec.Text Spec.DateText Spec.TimeText Spec.Keywords Spec.DateWords Spec.LongFraction
  Proofs.Arith Proofs.Cal Proofs.DateP Proofs.TsP Proofs.FloatP Proofs.ClockP Proofs.PartsP Proofs.FractP Proofs.DigitsP Proofs.LexP Proofs.ParseP Proofs.RoundTripP Proofs.NumDateP Proofs.ClockTextP Proofs.DateWordsP Proofs.DateTimeWordsP.
From Coq Require Import List ZArith Bool Lia.
Import ListNotations.
Open Scope Z_scope.

(** ** The fraction *)
Lemma usecs_seven v : 0 <= v <= 9999999 ->
  Z.abs (10 * usecs_of (fdiv (f64_of_Z v) (f64_of_Z (10 ^ Z.of_nat 7))) - v) <= 5.
Proof.
  intros H. change (10 ^ Z.of_nat 7) with 10000000. pose proof (rep_frac v 7 ltac:(lia) ltac:(lia)) as R.
  change (10 ^ Z.of_nat 7) with 10000000 in R.
  assert (0 <= IZR v <= 9999999)%R as HV by (split; apply IZR_le; lia).
  assert (Rabs (IZR v / 10000000) <= 1)%R as B0 by (apply rabs_le; lra).
  pose proof (rnd_close _ _ B0) as C0. apply of_rabs in C0. set (r := rnd (IZR v / 10000000)) in *. unfold eps in C0.
  assert (Rabs (r * 1000000) <= 2000000)%R as B1 by (apply rabs_le; lra).
  rewrite usecs_of_f, (f_usecs_ok _ _ R) by (apply big_bound; fold r; lra). fold r.
  pose proof (rnd_close _ _ B1) as C1. apply of_rabs in C1. unfold eps in C1. set (y := rnd (r * 1000000)) in *. clearbody y r.
  pose proof (Znearest_half (fun x => Zle_bool 0 x) y) as N. apply of_rabs in N. fold ZnearestA in N || idtac.
  set (u := Znearest (fun x => Zle_bool 0 x) y) in *.
  assert (Z.abs (10 * u - v) <= 5) as K.
  { assert (-6 < 10 * u - v < 6); [|lia].
    split; apply lt_IZR; rewrite minus_IZR, mult_IZR; lra. }
  assert (Z.max i64_min (Z.min i64_max u) = u) as -> by (rng; lia). exact K.
Qed.

Lemma parse_seven f : length f = 7%nat -> Forall digit f ->
  exists u, Z.abs (10 * u - digits_value f) <= 5 /\ forall md, parse_fractional_second md (46 :: f) = Ok u.
Proof.
  intros L F. pose proof (digits_value_bound _ F) as B. rewrite L in B. change (10 ^ Z.of_nat 7) with 10000000 in B.
  eexists. split; [apply usecs_seven; lia|]. intros md. unfold parse_fractional_second. change (46 =? 46) with true.
  assert (debug_assert md true = Ok tt) as -> by now destruct md. cbn [bind].
  unfold str2d. rewrite eat_ws_cons by easy.
  unfold extract_sign. change (46 =? 43) with false. change (46 =? 45) with false. cbv iota.
  unfold eat_digits. rewrite (eat_none is_digit (46 :: f)) by easy.
  change (10 <? blen []) with false. cbv iota. change (46 =? 46) with true. cbv iota.
  rewrite <- (app_nil_r f) at 1. rewrite eat_app; [|now apply digits_forallb|exact I].
  destruct (Z.ltb_spec 7 (blen f)); [unfold blen in *; lia|]. cbn [bind]. f_equal.
  destruct f as [|c r] eqn:Er; [discriminate|]. rewrite <- Er in *.
  change (dval 0 []) with 0. rewrite dval_value, Z.mul_1_r. unfold blen. rewrite L. reflexivity.
Qed.

Lemma parse_many md f : (8 <= length f)%nat -> Forall digit f -> parse_fractional_second md (46 :: f) = Err EOverflow.
Proof.
  intros L F. unfold parse_fractional_second. change (46 =? 46) with true.
  assert (debug_assert md true = Ok tt) as -> by now destruct md. cbn [bind].
  unfold str2d. rewrite eat_ws_cons by easy.
  unfold extract_sign. change (46 =? 43) with false. change (46 =? 45) with false. cbv iota.
  unfold eat_digits. rewrite (eat_none is_digit (46 :: f)) by easy.
  change (10 <? blen []) with false. cbv iota. change (46 =? 46) with true. cbv iota.
  rewrite <- (app_nil_r f) at 1. rewrite eat_app; [|now apply digits_forallb|exact I].
  destruct (Z.ltb_spec 7 (blen f)); [reflexivity|unfold blen in *; lia].
Qed.

(** ** The field *)
Lemma prefix_same md pre f g x : clock_prefix pre -> parse_fractional_second md (46 :: f) = parse_fractional_second md (46 :: g) ->
  time_field md (pre ++ 46 :: f) x = time_field md (pre ++ 46 :: g) x.
Proof.
  intros W E. unfold time_field, decode_time. destruct W as [h m s Ph Pm Ps|m s Pm Ps]; rewrite <- !app_assoc; cbn [app].
  - rewrite <- !app_assoc. cbn [app]. rewrite !(sd_str h (58 :: _) Ph) by easy. change (negb (58 =? 58)) with false. cbv iota.
    rewrite !(sd_str m (58 :: _) Pm) by easy. change (58 =? 46) with false. change (58 =? 58) with true. cbv iota.
    rewrite !(sd_str s (46 :: _) Ps) by easy. change (46 =? 46) with true. cbv iota. rewrite E. reflexivity.
  - rewrite !(sd_str m (58 :: _) Pm) by easy. change (negb (58 =? 58)) with false. cbv iota.
    rewrite !(sd_str s (46 :: _) Ps) by easy. change (46 =? 46) with true. cbv iota. rewrite E. reflexivity.
Qed.
Lemma prefix_err md pre f x e : clock_prefix pre -> parse_fractional_second md (46 :: f) = Err e -> time_field md (pre ++ 46 :: f) x = Err e.
Proof.
  intros W E. unfold time_field, decode_time. destruct W as [h m s Ph Pm Ps|m s Pm Ps]; rewrite <- !app_assoc; cbn [app].
  - rewrite <- !app_assoc. cbn [app]. rewrite (sd_str h (58 :: _) Ph) by easy. change (negb (58 =? 58)) with false. cbv iota.
    rewrite (sd_str m (58 :: _) Pm) by easy. change (58 =? 46) with false. change (58 =? 58) with true. cbv iota.
    rewrite (sd_str s (46 :: _) Ps) by easy. change (46 =? 46) with true. cbv iota. rewrite E. reflexivity.
  - rewrite (sd_str m (58 :: _) Pm) by easy. change (negb (58 =? 58)) with false. cbv iota.
    rewrite (sd_str s (46 :: _) Ps) by easy. change (46 =? 46) with true. cbv iota. rewrite E. reflexivity.
Qed.

(** ** Tokens *)
Definition clock_shape (t : list Z) : Prop :=
  (exists a r, t = a ++ 58 :: r /\ short_digits a /\ forallb time_char r = true) /\ (3 <= length t <= 90)%nat.
Lemma prefix_shape pre f : clock_prefix pre -> Forall digit f -> (length f <= 60)%nat -> clock_shape (pre ++ 46 :: f).
Proof.
  assert (forall l, Forall digit l -> forallb time_char l = true) as K.
  { intros l F. apply (forallb_weaken is_digit); [|now apply digits_forallb]. intros x E. unfold time_char. now rewrite E. }
  intros W F L. split.
  - destruct W as [h m s Ph Pm Ps|m s Pm Ps]; rewrite <- !app_assoc; cbn [app]; (eexists; eexists; split; [reflexivity|split; [assumption|]]);
      repeat (rewrite forallb_app'; cbn [forallb]); rewrite ?K; try reflexivity; first [exact F|apply Pm|apply Ps].
  - destruct W; repeat match goal with H : short_digits ?x |- _ => destruct H as [_ ?] end;
      repeat (rewrite app_length; cbn [length]); lia.
Qed.

Lemma shape_token t rest : clock_shape t -> stops time_char rest -> digit_begin (t ++ rest) = ((Some KTime, t), rest).
Proof.
  intros ((a & r & -> & Pa & Fr) & _) S. unfold digit_begin, eat_digits. rewrite <- app_assoc. cbn [app].
  rewrite eat_app; [|now apply sd_digits|easy]. change (58 =? 58) with true. cbv iota.
  change (58 :: r ++ rest) with ((58 :: r) ++ rest).
  change (fun i => is_digit i || (i =? 58) || (i =? 46)) with time_char.
  rewrite eat_app; [reflexivity| |exact S]. cbn [forallb]. exact Fr.
Qed.
Lemma shape_head t rest : clock_shape t -> match t ++ rest with c :: _ => is_digit c = true | [] => False end.
Proof.
  intros ((a & r & -> & Pa & Fr) & _). pose proof (sd_digits a Pa) as D.
  pose proof (sd_nonempty a Pa). destruct a as [|c a]; [easy|]. cbn in *. now apply andb_prop in D.
Qed.
Lemma tokenize_shape t rest fuel n room : clock_shape t -> stops time_char rest -> n < 25 -> blen t <= room ->
  tokenize (S fuel) n room (t ++ rest) = let* ts := tokenize fuel (n + 1) (room - blen t) rest in Ok ((Some KTime, t) :: ts).
Proof.
  intros W S N B. rewrite (tokenize_digit fuel n room (t ++ rest) (Some KTime, t) rest); [reflexivity| | |easy|exact B].
  - now apply shape_head.
  - now apply shape_token.
Qed.
Lemma shape_half t x : clock_shape t -> parse_date_time (t ++ half_text x) = Ok ((Some KTime, t) :: half_tokens x).
Proof.
  intros W. destruct (W) as (_ & L).
  rewrite parse_date_time_cons by (destruct t; [cbn in L; lia|discriminate]).
  rewrite (tokenize_shape t); [|exact W| |lia|unfold blen; lia].
  2:{ rewrite <- (app_nil_r (half_text x)). apply half_stops; try reflexivity. }
  assert (exists k, length (t ++ half_text x) = half_count x + S k)%nat as [k ->].
  { rewrite app_length. exists (length t + length (half_text x) - half_count x - 1)%nat. destruct x as [|[]|[]]; cbn; lia. }
  rewrite <- (app_nil_r (half_text x)) at 1. rewrite tokenize_half; [|lia|unfold blen; lia|now left].
  rewrite tokenize_nil. cbn [bind]. now rewrite app_nil_r.
Qed.
Lemma shape_tail sep t x e fuel n room : sep = 32 \/ sep = 84 -> clock_shape t -> n <= 3 -> 98 <= room ->
  (length (sep :: t ++ half_text x ++ era_text e) <= fuel)%nat ->
  tokenize (S fuel) n room (sep :: t ++ half_text x ++ era_text e)
  = Ok (gap_tokens sep ++ (Some KTime, t) :: half_tokens x ++ mark_tokens e).
Proof.
  intros Hs W N R L. pose proof W as (_ & Lt).
  cbn [length] in L. rewrite !app_length in L.
  assert (forall fuel n room, n <= 4 -> 97 <= room -> (length t + (length (half_text x) + length (era_text e)) <= fuel)%nat ->
    tokenize (S fuel) n room (t ++ half_text x ++ era_text e) = Ok ((Some KTime, t) :: half_tokens x ++ mark_tokens e)) as K.
  { intros f k r Hk Hr Lf.
    rewrite (tokenize_shape t);
      [|exact W|apply half_stops; try reflexivity; destruct e; [exact I|reflexivity|reflexivity]|lia|unfold blen; lia].
    assert (half_count x <= length (half_text x))%nat as Hh by (destruct x as [|[]|[]]; cbn; lia).
    replace f with (half_count x + S (f - half_count x - 1))%nat by lia.
    rewrite tokenize_half; [|lia|unfold blen; lia|destruct e; [now left|right; eexists; reflexivity|right; eexists; reflexivity]].
    rewrite tokenize_mark'; [reflexivity|destruct x; cbn; lia|destruct x; cbn [half_size]; unfold blen; lia|lia]. }
  destruct Hs as [->| ->].
  - rewrite tokenize_space. rewrite K by lia. reflexivity.
  - destruct fuel as [|fuel]; [lia|].
    pose proof (shape_head _ (half_text x ++ era_text e) W) as Hd.
    destruct (t ++ half_text x ++ era_text e) as [|c r] eqn:E; [easy|].
    rewrite tokenize_T by (auto; lia). rewrite K by lia. reflexivity.
Qed.

(** ** Texts *)
Lemma time_same md t t' x p order : clock_shape t -> clock_shape t' -> (forall c, time_field md t c = time_field md t' c) ->
  time_try_from_str md (t ++ half_text x) p order = time_try_from_str md (t' ++ half_text x) p order.
Proof.
  intros W W' E. unfold time_try_from_str. rewrite !shape_half by assumption. cbn [bind].
  unfold decode_time_only. cbn [time_only_fields]. unfold time_only_field. cbn [fst snd read_type bind]. rewrite E. 
  reflexivity.
Qed.
Lemma time_err md t x p order er : clock_shape t -> (forall c, time_field md t c = Err er) ->
  time_try_from_str md (t ++ half_text x) p order = Err er.
Proof.
  intros W E. unfold time_try_from_str. rewrite shape_half by assumption. cbn [bind].
  unfold decode_time_only. cbn [time_only_fields]. unfold time_only_field. cbn [fst snd read_type bind]. rewrite E. reflexivity.
Qed.

Lemma shape_parse md order glue td Y m d : date_words order glue td Y m d ->
  exists ts, date_fields_ok md order ts Y m d /\ forall sep t x e, sep = 32 \/ sep = 84 /\ glue = true -> clock_shape t ->
    parse_date_time (td ++ sep :: t ++ half_text x ++ era_text e)
    = Ok (ts ++ gap_tokens sep ++ (Some KTime, t) :: half_tokens x ++ mark_tokens e).
Proof.
  intros Dw. destruct (date_case md _ _ _ _ _ _ Dw) as (ts & (k & n & room & Hk & Hn & Hr & T) & Fo).
  exists ts. split; [exact Fo|]. intros sep t x e Hs W.
  assert (rest_ok glue (sep :: t ++ half_text x ++ era_text e)) as RO.
  { destruct Hs as [->|[-> ->]]; right; [left; eexists; reflexivity|right; split; [reflexivity|eexists; reflexivity]]. }
  rewrite parse_date_time_cons by (destruct td; [cbn in Hk; lia|discriminate]).
  replace (S (length (td ++ sep :: t ++ half_text x ++ era_text e)))
    with (k + S (length td - k + length (sep :: t ++ half_text x ++ era_text e)))%nat by (rewrite app_length; lia).
  rewrite T by exact RO. rewrite shape_tail by (tauto || exact W || lia). reflexivity.
Qed.

Lemma gap_fields md order sep t r c : c_fmask c = DTK_DATE_M ->
  date_time_fields md order (gap_tokens sep ++ (Some KTime, t) :: r) c
  = date_time_fields md order ((Some KTime, t) :: r) (if sep =? 84 then t_ctx c else c).
Proof.
  intros S3. unfold gap_tokens. destruct (sep =? 84); [|reflexivity]. cbn [app date_time_fields].
  rewrite field_T by (rewrite S3; reflexivity). reflexivity.
Qed.
Lemma decode_same md order ts Y m d sep t t' r : date_fields_ok md order ts Y m d -> (forall c, time_field md t c = time_field md t' c) ->
  decode_date_time md order (ts ++ gap_tokens sep ++ (Some KTime, t) :: r) = decode_date_time md order (ts ++ gap_tokens sep ++ (Some KTime, t') :: r).
Proof.
  intros Fo E. unfold decode_date_time.
  assert (date_time_fields md order (ts ++ gap_tokens sep ++ (Some KTime, t) :: r) ctx_new
    = date_time_fields md order (ts ++ gap_tokens sep ++ (Some KTime, t') :: r) ctx_new) as ->; [|reflexivity].
  destruct Fo as [(c0 & S0 & F)|[_ F]]; rewrite !F; [|reflexivity].
  assert (c_fmask c0 = DTK_DATE_M) as S3 by (destruct S0; tauto).
  rewrite !gap_fields by exact S3. cbn [date_time_fields]. unfold date_time_field. cbn [fst snd read_type bind].
  match goal with |- context [bind (if negb (is_num ?a) then ?b else ?e) _] => destruct (if negb (is_num a) then b else e) as [c|er|fa] end; cbn [bind]; [|reflexivity..].
  rewrite E. reflexivity.
Qed.
Lemma decode_err md order ts Y m d sep t r er : date_fields_ok md order ts Y m d -> (forall c, time_field md t c = Err er) ->
  exists e, decode_date_time md order (ts ++ gap_tokens sep ++ (Some KTime, t) :: r) = Err e.
Proof.
  intros Fo E. assert (exists e, date_time_fields md order (ts ++ gap_tokens sep ++ (Some KTime, t) :: r) ctx_new = Err e) as (e & K).
  2:{ exists e. now apply fields_err. }
  destruct Fo as [(c0 & S0 & F)|[_ F]]; rewrite !F; [|eauto].
  assert (c_fmask c0 = DTK_DATE_M /\ c_ptype c0 = KNumber) as (S3 & S4) by (destruct S0; tauto).
  rewrite !gap_fields by exact S3. cbn [date_time_fields]. unfold date_time_field. cbn [fst snd read_type bind].
  destruct (sep =? 84).
  - change (c_ptype (t_ctx c0)) with KTime. change (is_num KTime) with false. change (tfeq KTime KTime) with true. cbn [negb bind]. rewrite E. exists er. reflexivity.
  - rewrite S4. change (is_num KNumber) with true. cbn [negb bind]. rewrite E. exists er. reflexivity.
Qed.
