(** Reading intervals, continued: seconds, optional parts and the end of the decoder. *)
From Verif Require Import Model.Parse Spec.Calendar Spec.Ranges Spec.Clock Spec.Text Spec.IntervalS
  Proofs.Arith Proofs.TsP Proofs.IntervalP Proofs.FloatP Proofs.ClockP Proofs.IvTruncP Proofs.IvLimitP Proofs.DigitsP Proofs.FormatP
  Proofs.ParseP Proofs.RoundTripP Proofs.IvParseP.
From Coq Require Import Reals Lra.
From Flocq Require Import Core IEEE754.BinarySingleNaN.
Open Scope Z_scope.

(** ** Negated floats *)
Lemma rep_opp x a : rep x a -> rep (fneg x) (- a)%R.
Proof.
  intros (b & F & <- & <-). exists (Bopp b). split; [now rewrite is_finite_Bopp|].
  split; [now destruct b|apply B2R_Bopp].
Qed.
Lemma rnd_opp a : rnd (- a) = (- rnd a)%R.
Proof. unfold rnd. apply round_NE_opp. Qed.

Lemma usecs_opp x a : rep x a -> (Rabs (a * 1000000) <= IZR (2 ^ 52))%R -> usecs_of (fneg x) = - usecs_of x.
Proof.
  intros Rx B. rewrite (usecs_of_f x), (usecs_of_f (fneg x)).
  assert (Rabs (a * 1000000) <= bpow radix2 1000)%R as B'.
  { apply small_bound with (2 ^ 52); [exact B|]. apply Z.pow_le_mono_r; lia. }
  assert (- a * 1000000 = - (a * 1000000))%R as E by lra.
  rewrite (f_usecs_ok _ _ Rx B').
  rewrite (f_usecs_ok _ _ (rep_opp _ _ Rx)) by (now rewrite E, Rabs_Ropp).
  rewrite E, rnd_opp, ZnearestA_opp.
  assert (Z.abs (ZnearestA (rnd (a * 1000000))) <= 2 ^ 52) as A.
  { assert (Rabs (rnd (a * 1000000)) <= IZR (2 ^ 52))%R as Q.
    { unfold rnd. apply abs_round_le_generic; auto; [apply fexp_correct; reflexivity| |].
      - apply valid_rnd_N.
      - apply (format_int (2 ^ 52)). rewrite Z.abs_eq by (apply Z.pow_nonneg; lia). apply Z.pow_le_mono_r; lia. }
    set (r := rnd (a * 1000000)) in *. clearbody r.
    assert (forall u v : R, (u <= v)%R -> ZnearestA u <= ZnearestA v) as M.
    { intros u v. apply (@Zrnd_le ZnearestA). exact (valid_rnd_N _). }
    apply Rabs_le_inv in Q as [Q1 Q2]. apply M in Q1, Q2.
    rewrite ZnearestA_opp in Q1. rewrite !ZnearestA_IZR in *. clear - Q1 Q2. lia. }
  change (2 ^ 52) with 4503599627370496 in A. unfold i64_min, i64_max.
  set (z := ZnearestA _) in *. clearbody z. clear - A. lia.
Qed.

(** ** Seconds *)
Definition sg (neg : bool) (v : Z) : Z := if neg then - v else v.
Definition sgt (neg : bool) (t : bytes) : bytes := if neg then 45 :: t else t.

Lemma str2d_fraction_neg us fr : fraction 6 us fr ->
  exists v, str2d (46 :: fr) = Ok (v, []) /\ forall neg : bool, usecs_of (if neg then fneg v else v) = sg neg us.
Proof.
  intros H. pose proof (fraction_facts _ _ H) as (F & L & E & U).
  exists (fdiv (f64_of_Z (digits_value fr)) (f64_of_Z (10 ^ Z.of_nat (length fr)))).
  destruct (str2d_fraction us fr [] H I) as (v & Ev & Uv). rewrite app_nil_r in Ev.
  assert (v = fdiv (f64_of_Z (digits_value fr)) (f64_of_Z (10 ^ Z.of_nat (length fr)))) as ->.
  { unfold str2d in Ev. rewrite eat_ws_cons in Ev by easy. unfold extract_sign in Ev.
    change (46 =? 43) with false in Ev. change (46 =? 45) with false in Ev. cbv iota in Ev.
    unfold eat_digits in Ev. rewrite (eat_none is_digit (46 :: fr)) in Ev by easy.
    change (10 <? blen []) with false in Ev. cbv iota in Ev. change (46 =? 46) with true in Ev. cbv iota in Ev.
    rewrite eat_all in Ev by easy. destruct (Z.ltb_spec 7 (blen fr)); [lia|].
    destruct fr as [|c r] eqn:Er; [cbn in L; lia|]. rewrite <- Er in *.
    injection Ev as <-. change (dval 0 []) with 0. rewrite dval_value, Z.mul_1_r. reflexivity. }
  split; [exact Ev|]. intros [|]; [|exact Uv]. cbn [sg].
  pose proof (digits_value_bound fr ltac:(now apply digits_forallb)) as B. unfold blen in L.
  assert (10 ^ Z.of_nat (length fr) <= 10 ^ 6) as P6 by (apply Z.pow_le_mono_r; lia).
  change (10 ^ 6) with 1000000 in P6.
  pose proof (rep_frac (digits_value fr) (length fr) ltac:(change (2 ^ 53) with 9007199254740992; lia) ltac:(lia)) as R.
  rewrite (usecs_opp _ _ R); [now rewrite Uv|].
  pose proof (pow10_pos (length fr)) as P.
  set (m := digits_value fr) in *. set (p := 10 ^ Z.of_nat (length fr)) in *. clearbody m p.
  assert (0 <= IZR m / IZR p <= 1)%R as Q.
  { split.
    - apply Rmult_le_pos; [apply IZR_le; lia|]. left. apply Rinv_0_lt_compat, IZR_lt; lia.
    - apply Rmult_le_reg_r with (IZR p); [apply IZR_lt; lia|]. unfold Rdiv. rewrite Rmult_assoc, Rinv_l, Rmult_1_r, Rmult_1_l.
      + apply IZR_le; lia.
      + apply not_0_IZR; lia. }
  assert (0 <= rnd (IZR m / IZR p) <= 1)%R as Q2.
  { split.
    - rewrite <- (rnd_int 0) by lia. apply round_le; [apply fexp_correct; reflexivity|apply valid_rnd_N|lra].
    - rewrite <- (rnd_int 1) by lia. apply round_le; [apply fexp_correct; reflexivity|apply valid_rnd_N|lra]. }
  rewrite Rabs_pos_eq by lra. apply Rle_trans with (IZR 1000000); [lra|]. apply IZR_le. vm_compute. discriminate.
Qed.

Lemma signed_str neg w n t s : padded w n t -> n <= i32_max -> (w <= 10)%nat -> stops is_digit s ->
  str2i32 (sgt neg t ++ s) = Ok (sg neg n, s).
Proof.
  intros P L W S. destruct neg; cbn [sgt sg]; [|now apply (padded_str w)].
  apply str2i32_neg; auto; [now apply padded_numeral in P| |rng; lia].
  apply (padded_len _ _ _ _ P); [|easy]. change (10 ^ Z.of_nat 10) with 10000000000. rng. lia.
Qed.

Lemma second_number md neg s us t ty : seconds_text 1 s us t -> s <= i32_max ->
  exists fv, interval_number md (sgt neg t) ty = Ok (ty, sg neg s, fv) /\ usecs_of fv = sg neg us.
Proof.
  intros (ds & P & [[-> ->]|[N (fr & F & ->)]]) L.
  - exists f0. split; [|now destruct neg]. apply interval_number_int.
    rewrite <- (app_nil_r (sgt neg ds)). apply (signed_str neg 1); auto; [lia|exact I].
  - destruct (str2d_fraction_neg us fr F) as (v & E & U). exists (if neg then fneg v else v). split; [|apply U].
    unfold interval_number.
    replace (sgt neg (ds ++ 46 :: fr)) with (sgt neg ds ++ 46 :: fr) by now destruct neg.
    rewrite (signed_str neg 1 s) by (auto; try lia; reflexivity). cbn [bind].
    change (46 =? 45) with false. change (46 =? 46) with true. cbv iota. rewrite E. cbn [bind].
    destruct neg; cbn [sgt app starts_minus bind]; [reflexivity|].
    destruct (padded_cons _ _ _ P) as (c & r & -> & Dc). cbn [app starts_minus bind].
    apply is_digit_iff, digit_not_sign in Dc as [_ ->]. reflexivity.
Qed.

(** A token holding a number of seconds, possibly negative. *)
Definition sec_token (neg : bool) (s us : Z) (k : token) : Prop :=
  exists t, seconds_text 1 s us t /\ k = (Some (if neg then KTz else KNumber), sgt neg t).

Lemma seconds_digits s us t : seconds_text 1 s us t -> existsb (fun b => b =? 58) t = false.
Proof.
  intros (ds & P & H).
  assert (forall l, forallb is_digit l = true -> existsb (fun b => b =? 58) l = false) as K.
  { induction l as [|c l IH]; cbn; [easy|]. intros E. apply andb_prop in E as [E1 E2]. rewrite IH by easy.
    apply is_digit_iff in E1. unfold digit in E1. destruct (Z.eqb_spec c 58); [lia|easy]. }
  destruct H as [[_ ->]|[_ (fr & F & ->)]]; [eauto using padded_digits|].
  rewrite existsb_app. cbn [existsb]. rewrite !K; [reflexivity| |eauto using padded_digits].
  now apply fraction_facts in F.
Qed.

Lemma sec_field md neg s us k i x : sec_token neg s us k ->
  interval_field md INTERVAL_FULL_RANGE k i x = num_step md INTERVAL_FULL_RANGE (snd k) i x.
Proof.
  intros (t & S & ->). destruct neg; [|reflexivity]. apply tz_field; [cbn; eauto|].
  cbn [sgt snd existsb]. now rewrite (seconds_digits _ _ _ S).
Qed.

Lemma second_pair md neg s us w k rest i x : decode_units w = Ok (UNITS, kcode KSecond) -> sec_token neg s us k ->
  0 <= s <= i32_max -> 0 <= us < 1000000 -> tm_sec (fst x) = 0 -> snd x = 0 ->
  has (i_fmask i) DTK_ALL_SECS_M = false -> has (i_fmask i) (mask SECOND) = false ->
  exists m, (m = mask SECOND \/ m = DTK_ALL_SECS_M) /\
  interval_fields md INTERVAL_FULL_RANGE ((Some KString, w) :: k :: rest) i x =
  interval_fields md INTERVAL_FULL_RANGE rest
    (mkI (kcode KSecond) (Z.lor (i_fmask i) m) (i_before i) (i_dtype i)) (s_fsec (sg neg us) (s_sec (sg neg s) x)).
Proof.
  intros D S Hs Hu X1 X2 M1 M2. 
  pose proof S as (t & St & Ek).
  destruct (second_number md neg s us t (kcode KSecond) St ltac:(lia)) as (fv & E & U).
  exists (if fnz fv then DTK_ALL_SECS_M else mask SECOND). split; [destruct (fnz fv); auto|].
  cbn [interval_fields]. unfold interval_field at 1. cbn [fst snd]. rewrite D.
  unfold merge_i. unfold has at 1. rewrite Z.land_0_r.
  change (negb (0 =? 0)) with false. cbv iota. cbn [step_bind].
  rewrite (sec_field md neg s us) by easy. unfold num_step. cbn [i_set_ty i_ty]. subst k. cbn [snd].
  unfold interval_number_field. change (default_unit (kcode KSecond) INTERVAL_FULL_RANGE) with (kcode KSecond).
  rewrite E. change (tfield_of (kcode KSecond)) with (Ok (A := tfield) KSecond). cbv iota. rewrite U, X1.
  assert (forall v, v <= i32_max -> - i32_max <= v -> add32 md 0 v = Ok v) as A1.
  { intros v V1 V2. unfold add32. rewrite Z.add_0_l. apply ar32_ok. rng. unfold i32_max in *. lia. }
  assert (forall v, -1000000 < v < 1000000 -> add64 md 0 v = Ok v) as A2.
  { intros v V. unfold add64. rewrite Z.add_0_l. apply ar64_ok. rng. lia. }
  rewrite A1 by (destruct neg; unfold i32_max in *; cbn [sg]; lia). cbn [step_set step_bind].
  replace (snd (s_sec (sg neg s) x)) with 0 by (unfold s_sec; cbn [snd]; auto).
  rewrite A2 by (destruct neg; cbn [sg]; lia). cbn [step_set step_bind fst snd].
  unfold merge_i. cbn [i_set_ty i_fmask i_ty i_before i_dtype]. rewrite Z.lor_0_r.
  replace (has (i_fmask i) (if fnz fv then DTK_ALL_SECS_M else mask SECOND)) with false by now destruct (fnz fv).
  reflexivity.
Qed.

(** ** Optional parts *)
Definition part_tokens (u : unit5) (v : Z) (ts : list token) : Prop :=
  if v =? 0 then ts = []
  else exists f w, ts = [f; (Some KString, w)] /\ num_token v f /\ decode_units w = Ok (UNITS, ucode u).

Lemma uset_same u x : uget u x = 0 -> uset u 0 x = x.
Proof. destruct x as [[] us], u; cbn; intros ->; reflexivity. Qed.

Definition grows (fm fm' m : Z) : Prop := forall k, has m k = false -> has fm k = false -> has fm' k = false.

Lemma lor_nonzero a b : a <> 0 \/ b <> 0 -> Z.lor a b <> 0.
Proof. intros H E. apply Z.lor_eq_0_iff in E. lia. Qed.

Lemma opt_part md u v ts rest i x : part_tokens u v ts -> in_i32 v -> uget u x = 0 ->
  has (i_fmask i) (umask u) = false ->
  exists ty' fm', interval_fields md INTERVAL_FULL_RANGE (rev ts ++ rest) i x =
    interval_fields md INTERVAL_FULL_RANGE rest (mkI ty' fm' (i_before i) (i_dtype i)) (uset u v x)
  /\ grows (i_fmask i) fm' (umask u) /\ (i_fmask i <> 0 \/ v <> 0 -> fm' <> 0).
Proof.
  intros P R X M. unfold part_tokens in P. destruct (Z.eqb_spec v 0) as [->|N].
  - subst ts. exists (i_ty i), (i_fmask i). rewrite uset_same by easy. destruct i. cbn.
    split; [easy|]. split; [intros k; auto|lia].
  - destruct P as (f & w & -> & F & D). cbn [rev app].
    rewrite (unit_pair md u w f v) by easy. eexists _, _. split; [reflexivity|]. split.
    + intros k K1 K2. now rewrite has_lor, K1, K2.
    + intros _. apply lor_nonzero. right. now destruct u.
Qed.

(** ** The end of the decoder *)
Lemma carry_none md tm us : Z.abs us < 1000000 -> in_i32 (tm_sec tm) -> carry_fsec md (tm, us) = ((tm, us), Ok tt).
Proof.
  intros U S. unfold carry_fsec, nz. cbn [snd]. destruct (Z.eqb_spec us 0) as [->|N]; [reflexivity|]. cbn [negb].
  unfold USECS_PER_SEC. assert (Z.quot us 1000000 = 0) as -> by (apply Z.quot_small_iff; lia).
  cbn [fst]. change (wrap32 0) with 0. unfold add32. rewrite Z.add_0_r, (ar32_ok _ _ S).
  unfold step_set, s_sec. cbn [fst snd]. destruct tm. cbn. repeat f_equal. lia.
Qed.

Definition plain_style (st : interval_style) : bool := match st with ISQLStandard => false | _ => true end.

Lemma negate_all_ok md s mi h d mo y w yd dst us : Z.abs h <= i32_max -> Z.abs mi <= i32_max ->
  Z.abs s <= i32_max -> Z.abs d <= i32_max -> Z.abs mo <= i32_max -> Z.abs y <= i32_max -> Z.abs us < 1000000 ->
  negate_all md (mkTm s mi h d mo y w yd dst, us) =
  ((mkTm (- s) (- mi) (- h) (- d) (- mo) (- y) w yd dst, - us), Ok tt).
Proof.
  intros Hh Hm Hs Hd Hmo Hy Hu. unfold negate_all. cbn [fst snd].
  assert (forall v, Z.abs v <= i32_max -> neg32 md v = Ok (- v)) as E1.
  { intros v V. unfold neg32. apply ar32_ok. rng. unfold i32_max in *. lia. }
  assert (neg64 md us = Ok (- us)) as E4 by (unfold neg64; apply ar64_ok; rng; lia).
  rewrite E4.
  cbv beta iota zeta delta [step_set step_bind s_fsec fst snd tm_sec]. rewrite (E1 s Hs).
  cbv beta iota zeta delta [s_sec set_sec fst snd tm_sec tm_min tm_hour tm_mday tm_mon tm_year tm_wday tm_yday tm_isdst]. rewrite (E1 mi Hm).
  cbv beta iota zeta delta [s_min set_min fst snd tm_sec tm_min tm_hour tm_mday tm_mon tm_year tm_wday tm_yday tm_isdst]. rewrite (E1 h Hh).
  cbv beta iota zeta delta [s_hour set_hour fst snd tm_sec tm_min tm_hour tm_mday tm_mon tm_year tm_wday tm_yday tm_isdst]. rewrite (E1 d Hd).
  cbv beta iota zeta delta [s_mday set_mday fst snd tm_sec tm_min tm_hour tm_mday tm_mon tm_year tm_wday tm_yday tm_isdst]. rewrite (E1 mo Hmo).
  cbv beta iota zeta delta [s_mon set_mon fst snd tm_sec tm_min tm_hour tm_mday tm_mon tm_year tm_wday tm_yday tm_isdst]. rewrite (E1 y Hy).
  reflexivity.
Qed.

Definition init_i : ist := mkI (tt_code IgnoreDtf) 0 false KDelta.

(** Clock fields of one sign *)
Definition one_sign (h mi s us : Z) : Prop :=
  0 <= h /\ 0 <= mi < 60 /\ 0 <= s < 60 /\ 0 <= us < 1000000
  \/ h <= 0 /\ -60 < mi <= 0 /\ -60 < s <= 0 /\ -1000000 < us <= 0.
Lemma one_sign_sg b h mi s us : one_sign h mi s us -> one_sign (sg b h) (sg b mi) (sg b s) (sg b us).
Proof. unfold one_sign. destruct b; cbn [sg]; lia. Qed.
Lemma one_sign_minutes h mi s us : one_sign h mi s us -> Z.quot (clock h mi s us) 60000000 = h * 60 + mi.
Proof.
  unfold one_sign, clock. intros [H|H].
  - symmetry. apply (Z.quot_unique _ _ _ (s * 1000000 + us)); lia.
  - match goal with |- Z.quot ?t _ = _ => rewrite <- (Z.opp_involutive t) end. rewrite Z.quot_opp_l by lia.
    match goal with |- - Z.quot ?t _ = _ => rewrite <- (Z.quot_unique t 60000000 (- (h * 60 + mi)) (- (s * 1000000 + us))) by lia end. lia.
Qed.
Lemma from_pgtime_back md a s mi h d mo y w yd dst us :
  in_i32 (y * 12 + mo) -> Z.abs y <= 200000000 -> Z.abs mo <= 2147483648 -> in_i32 h -> one_sign h mi s us ->
  iv_month a = y * 12 + mo -> iv_day a = d -> iv_time a = clock h mi s us ->
  read_back md a (interval_from_pgtime md (mkTm s mi h d mo y w yd dst) us).
Proof.
  intros H Y M Hh O A1 A2 A3.
  destruct (from_pgtime_limit s mi h d mo y w yd dst us) as (P1 & P2); auto; try (unfold one_sign in O; lia).
  unfold read_back, minutes_fit. rewrite A3, (one_sign_minutes _ _ _ _ O).
  split; intros L.
  - rewrite (P1 L md). unfold from_mdt. destruct a. cbn in *. now subst.
  - destruct (P2 L) as (D & c & R & N). destruct md; [exact D|]. exists c. rewrite R, A1, A2. auto.
Qed.

(** What is read, before the interval is assembled; [x] are the fields so far. *)
Lemma read_plain md txt ts st s mi h d mo y w yd dst us i a : plain_style st = true ->
  parse_date_time txt = Ok ts ->
  interval_fields md INTERVAL_FULL_RANGE (rev ts) init_i (tm_new, 0) = ((mkTm s mi h d mo y w yd dst, us), Ok i) ->
  i_fmask i <> 0 -> i_dtype i = KDelta -> ts <> [] ->
  Z.abs y <= 200000000 -> Z.abs mo < 12 -> Z.abs d <= i32_max \/ i_before i = false /\ in_i32 d -> Z.abs h <= i32_max ->
  one_sign h mi s us ->
  in_i32 (iv_month a) ->
  iv_month a = sg (i_before i) (y * 12 + mo) -> iv_day a = sg (i_before i) d -> iv_time a = sg (i_before i) (clock h mi s us) ->
  read_back md a (interval_try_from_str md txt (-1) st).
Proof.
  intros St P F FM DT N Hy Hmo Hd Hh O Ra A1 A2 A3. unfold interval_try_from_str.
  change (0 <=? -1) with false. cbv iota. rewrite P. cbn [bind].
  unfold decode_interval. fold init_i. cbn [fst].
  rewrite F. cbn [step_bind].
  destruct (Z.eqb_spec (i_fmask i) 0) as [|_]; [easy|].
  rewrite carry_none by (unfold one_sign in O; cbn; rng; lia). cbn [step_bind].
  destruct ts as [|t rest]; [easy|].
  assert ((match st with ISQLStandard => true | _ => false end) = false) as -> by (destruct st; [reflexivity..|discriminate|reflexivity] || (destruct st; easy)).
  rewrite DT.
  assert (read_back md a (interval_from_pgtime md (if i_before i then mkTm (- s) (- mi) (- h) (- d) (- mo) (- y) w yd dst else mkTm s mi h d mo y w yd dst) (sg (i_before i) us))) as E.
  { destruct (i_before i); cbn [sg] in *.
    - apply from_pgtime_back; auto; try lia.
      + rewrite A1 in Ra; replace (- y * 12 + - mo) with (- (y * 12 + mo)) by lia; easy.
      + unfold i32_max in Hh. rng. lia.
      + exact (one_sign_sg true _ _ _ _ O).
      + rewrite A3. unfold clock. lia.
    - apply from_pgtime_back; auto; try lia.
      + now rewrite <- A1.
      + unfold i32_max in Hh. rng. lia. }
  destruct (starts_minus (snd t)) as [b|e|f]; cbv iota; cbn [andb].
  all: destruct (i_before i); [rewrite negate_all_ok by (unfold one_sign in O; unfold i32_max in *; lia)|];
    cbn [step_bind bind fst snd]; cbn [sg] in E; (match type of E with read_back _ _ ?r => destruct r end; exact E).
Qed.
