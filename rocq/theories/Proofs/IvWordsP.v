(** Intervals written as numbers with units. *)
From Verif Require Import Model.Parse Spec.Calendar Spec.Ranges Spec.Clock Spec.Text Spec.DateText Spec.TimeText Spec.IntervalS Spec.Keywords
  Spec.DateWords Spec.IntervalWords
  Proofs.Arith Proofs.TsP Proofs.IntervalP Proofs.FloatP Proofs.ClockP Proofs.IvTruncP Proofs.DigitsP Proofs.ParseP Proofs.RoundTripP
  Proofs.NumDateP Proofs.ClockTextP Proofs.DateWordsP Proofs.IvParseP Proofs.IvReadP Proofs.IvPostgresP Proofs.PartsP Proofs.FractP Props.Keywords.
From Coq Require Import Reals Lra.
From Flocq Require Import Core IEEE754.BinarySingleNaN.
From Coq Require Import List ZArith Bool Lia Permutation.
From Verif Require Import Spec.Keywords.
From Verif Require Proofs.TimeP.
Import List.
Import ListNotations.
Open Scope Z_scope.

(** ** Numbers *)
Definition num_kind (s : sign) : option tfield := Some (match s with Unsigned => KNumber | _ => KTz end).
Definition num_tok (q : quantity) : token := (num_kind (q_sign q), number_text q).
Definition word_toks (q : quantity) : list token := match q_word q with Some w => [(Some KString, lowers w)] | None => [] end.
Definition frac_text (q : quantity) : bytes := match q_frac q with None => [] | Some f => 46 :: f end.

Lemma number_split q : number_text q = sign_text (q_sign q) ++ q_int q ++ frac_text q.
Proof. reflexivity. Qed.

Lemma frac_digits u f : fraction_ok u f -> forallb is_digit f = true /\ f <> [] /\ (1 <= length f <= 6)%nat.
Proof.
  intros (F & N & L). split; [now apply digits_forallb|]. split; [exact N|].
  assert (1 <= length f)%nat by (destruct f; [easy|cbn; lia]). destruct u; lia.
Qed.

Lemma number_piece q : quantity_ok q -> piece (number_text q) (num_tok q).
Proof.
  intros (P & _ & _ & _ & F). pose proof (sd_digits _ P) as D. pose proof (sd_nonempty _ P) as N.
  unfold num_tok. rewrite number_split. unfold frac_text.
  assert (forall c, c = 43 \/ c = 45 -> forall t, (t = [] \/ exists f, t = 46 :: f /\ forallb is_digit f = true) ->
    piece ([c] ++ q_int q ++ t) (Some KTz, [c] ++ q_int q ++ t)) as Sg.
  { intros c Hc t Ht. apply piece_signed; [exact Hc| |].
    - destruct (q_int q) as [|d r]; [easy|]. cbn in D |- *. now apply andb_prop in D.
    - rewrite forallb_app. apply andb_true_intro. split; [now apply IvPostgresP.digits_signed|].
      destruct Ht as [->|(f & -> & Hf)]; [reflexivity|]. cbn [forallb]. apply andb_true_intro. split; [reflexivity|now apply IvPostgresP.digits_signed]. }
  destruct (q_frac q) as [f|].
  - destruct (frac_digits _ _ F) as (Df & Nf & _). destruct (q_sign q); cbn [sign_text num_kind].
    + now apply piece_decimal.
    + apply Sg; [auto|right; eauto].
    + apply Sg; [auto|right; eauto].
  - destruct (q_sign q); cbn [sign_text num_kind].
    + rewrite app_nil_r. now apply piece_number.
    + apply Sg; [auto|now left].
    + apply Sg; [auto|now left].
Qed.

Lemma no_colon q : quantity_ok q -> existsb (fun b => b =? 58) (number_text q) = false.
Proof.
  intros (P & _ & _ & _ & F). pose proof (sd_digits _ P) as D. rewrite number_split. unfold frac_text.
  rewrite !existsb_app, (digits_no_colon (q_int q) D).
  assert (existsb (fun b => b =? 58) (sign_text (q_sign q)) = false) as -> by now destruct (q_sign q).
  destruct (q_frac q) as [f|]; [|reflexivity]. cbn [existsb orb]. change (46 =? 58) with false. cbn [orb].
  apply IvPostgresP.digits_no_colon. now destruct (frac_digits _ _ F).
Qed.

Lemma num_tok_field md range q i x : quantity_ok q -> interval_field md range (num_tok q) i x = num_step md range (number_text q) i x.
Proof.
  intros H. unfold num_tok. destruct (q_sign q) eqn:S; cbn [num_kind]; [reflexivity| |];
    (apply tz_field; [|now apply no_colon]); rewrite number_split, S; cbn [sign_text app]; eauto.
Qed.

Lemma signed_abs s v : Z.abs (signed s v) = Z.abs v.
Proof. destruct s; cbn; lia. Qed.

(** The fraction as a float *)
Lemma number_value md q ty : quantity_ok q ->
  exists f, interval_number md (number_text q) ty = Ok (ty, q_val q, f)
    /\ rep f (rnd (IZR (q_num q) / IZR (10 ^ Z.of_nat (q_len q)))) /\ (q_frac q = None -> f = f0)
    /\ Z.abs (q_num q) < 10 ^ Z.of_nat (q_len q) /\ (q_len q <= 6)%nat.
Proof.
  intros (P & _ & _ & _ & F). pose proof (sd_digits _ P) as D. pose proof (sd_nonempty _ P) as N. pose proof (sd_value _ P) as B.
  assert (forall s, stops is_digit s -> str2i32 (sign_text (q_sign q) ++ q_int q ++ s) = Ok (q_val q, s)) as SS.
  { intros s Hs. unfold q_val. destruct (q_sign q); cbn [sign_text app signed].
    - now apply sd_str.
    - apply str2i32_pos; [now apply sd_padded|now apply sd_w|now apply sd_i32|exact Hs].
    - apply str2i32_neg; [now apply sd_padded|now apply sd_w| |exact Hs]. unfold i32_max. lia. }
  rewrite number_split. unfold frac_text, q_num, q_len. destruct (q_frac q) as [f|].
  - destruct (frac_digits _ _ F) as (Df & Nf & Lf). pose proof (digits_value_bound f ltac:(now apply digits_forallb)) as Bf.
    assert (10 ^ Z.of_nat (length f) <= 10 ^ 6) as P6 by (apply Z.pow_le_mono_r; lia). change (10 ^ 6) with 1000000 in P6.
    set (v := fdiv (f64_of_Z (digits_value f)) (f64_of_Z (10 ^ Z.of_nat (length f)))).
    assert (rep v (rnd (IZR (digits_value f) / IZR (10 ^ Z.of_nat (length f))))) as Rv.
    { apply rep_frac; [change (2 ^ 53) with 9007199254740992; lia|lia]. }
    assert (str2d (46 :: f) = Ok (v, [])) as E.
    { unfold str2d. rewrite eat_ws_cons by easy. unfold extract_sign.
      change (46 =? 43) with false. change (46 =? 45) with false. cbv iota.
      unfold eat_digits. rewrite (eat_none is_digit (46 :: f)) by easy.
      change (10 <? blen []) with false. cbv iota. change (46 =? 46) with true. cbv iota.
      rewrite eat_all by easy. destruct (Z.ltb_spec 7 (blen f)); [unfold blen in *; lia|].
      assert (forall A (a b : A), match f with [] => a | _ => b end = b) as -> by (intros; destruct f; [easy|reflexivity]).
      change (dval 0 []) with 0. rewrite dval_value, Z.mul_1_r. reflexivity. }
    exists (match q_sign q with Minus => fneg v | _ => v end). unfold interval_number. rewrite SS by easy. cbn [bind].
    change (46 =? 45) with false. change (46 =? 46) with true. cbv iota. rewrite E. cbn [bind].
    split; [|split; [|split; [discriminate|split; [rewrite signed_abs; lia|lia]]]].
    + destruct (q_sign q); cbn [sign_text app starts_minus bind]; try reflexivity.
      destruct (q_int q) as [|c r] eqn:Ei; [easy|]. cbn [app starts_minus bind].
      assert (is_digit c = true) as Dc by (cbn in D; now apply andb_prop in D). apply is_digit_iff, digit_not_sign in Dc as [_ ->]. reflexivity.
    + destruct (q_sign q); cbn [signed]; try exact Rv.
      rewrite opp_IZR. unfold Rdiv. rewrite Ropp_mult_distr_l_reverse, rnd_opp. now apply rep_opp.
  - exists f0. split; [apply interval_number_int; now apply SS|]. split; [|split; [reflexivity|split; [reflexivity|lia]]].
    replace (IZR 0 / IZR (10 ^ Z.of_nat 0))%R with 0%R by (change (10 ^ Z.of_nat 0) with 1; field).
    rewrite (rnd_int 0) by (vm_compute; discriminate). exact rep_f0.
Qed.

(** ** The state *)
Definition shift (dy dmo dd dh dmi ds dus : Z) (x : tmf) : tmf :=
  let tm := fst x in
  (mkTm (tm_sec tm + ds) (tm_min tm + dmi) (tm_hour tm + dh) (tm_mday tm + dd) (tm_mon tm + dmo) (tm_year tm + dy)
     (tm_wday tm) (tm_yday tm) (tm_isdst tm), snd x + dus).
Definition small (n v : Z) : Prop := Z.abs v <= n * 104000000.
Definition fits (n : Z) (x : tmf) : Prop :=
  small n (tm_year (fst x)) /\ small n (tm_mon (fst x)) /\ small n (tm_mday (fst x)) /\ Z.abs (tm_hour (fst x)) <= n * 1000000
  /\ small n (tm_min (fst x)) /\ small n (tm_sec (fst x)) /\ small n (snd x).
Definition months_in (x : tmf) : Z := 12 * tm_year (fst x) + tm_mon (fst x).
Definition days_in (x : tmf) : Z := tm_mday (fst x).
Definition micros_in (x : tmf) : Z := clock (tm_hour (fst x)) (tm_min (fst x)) (tm_sec (fst x)) (snd x).

Definition bit (u : iunit) : Z :=
  mask (match u with UMicro => MICROSECOND | UMilli => MILLISECOND | USecond => SECOND | UMinute => MINUTE | UHour => HOUR | UDay => DAY
        | UWeek => WEEK | UMonth => MONTH | UYear => YEAR | UDecade => DECADE | UCentury => CENTURY | _ => MILLENNIUM end).
Definition bits (us : list iunit) : Z := fold_right (fun u m => Z.lor (bit u) m) 0 us.
Definition next_unit (u : iunit) : Z := match u with UHour => kcode KDay | _ => unit_code u end.

Lemma fraction_zero f N k : rep f (rnd (IZR N / IZR (10 ^ Z.of_nat k))) -> (k <= 6)%nat -> Z.abs N < 10 ^ Z.of_nat k ->
  fnz f = negb (N =? 0).
Proof.
  intros R Hk HN. assert (1 <= 10 ^ Z.of_nat k <= 10 ^ 6) as BP by (split; [pose proof (pow10_pos k); lia|apply Z.pow_le_mono_r; lia]).
  change (10 ^ 6) with 1000000 in BP. set (P := 10 ^ Z.of_nat k) in *. clearbody P.
  assert (1 <= IZR P <= 1000000)%R as RP by (split; apply IZR_le; lia).
  assert (- IZR P < IZR N < IZR P)%R as RN by (rewrite <- opp_IZR; split; apply IZR_lt; lia).
  assert (-1 <= IZR N / IZR P <= 1)%R as Bq.
  { assert (0 < / IZR P)%R by (apply Rinv_0_lt_compat; lra).
    assert (IZR P * / IZR P = 1)%R by (apply Rinv_r; lra). unfold Rdiv. nra. }
  unfold fnz. rewrite (rep_eq _ _ _ _ R rep_f0). f_equal.
  pose proof (rnd_close (IZR N / IZR P) 1 ltac:(apply rabs_le; lra)) as H.
  destruct (Z.eqb_spec N 0) as [->|NN].
  - replace (0 / IZR P)%R with (IZR 0) by (field; lra). rewrite rnd_int by (vm_compute; discriminate). now apply Req_bool_true.
  - apply Req_bool_false. intros Z0. apply NN. rewrite Z0 in H. unfold eps in H. apply of_rabs in H.
    assert (Rabs (IZR N) < 1)%R as L.
    { replace (IZR N) with (IZR N / IZR P * IZR P)%R by (field; lra). apply Rabs_lt. nra. }
    rewrite <- abs_IZR in L. apply lt_IZR in L. lia.
Qed.

Lemma round_near g n e : close g (IZR n) e -> (0 <= e <= 1 / 4)%R -> Z.abs n <= 1000000000 -> f64_to_i64 (fround g) = n.
Proof.
  intros (v & Rv & Hv) He Hn. apply of_rabs in Hv. unfold f64_to_i64.
  rewrite (rep_to_int i64_min i64_max _ _ ltac:(unfold i64_min, i64_max; lia) (rep_round _ _ Rv)), Ztrunc_IZR.
  rewrite (near_unique _ n) by (apply Rabs_lt; lra). unfold i64_min, i64_max. lia.
Qed.

Definition effect (q : quantity) (dy dmo dd dh dmi ds dus : Z) : Prop :=
  12 * dy + dmo = q_months q /\ dd = q_days q /\ clock dh dmi ds dus = q_micros q
  /\ small 1 dy /\ small 1 dmo /\ small 1 dd /\ Z.abs dh <= 1000000 /\ small 1 dmi /\ small 1 ds /\ small 1 dus.

Lemma shift_add dy dmo dd dh dmi ds dus dy' dmo' dd' dh' dmi' ds' dus' x :
  shift dy dmo dd dh dmi ds dus (shift dy' dmo' dd' dh' dmi' ds' dus' x) =
  shift (dy' + dy) (dmo' + dmo) (dd' + dd) (dh' + dh) (dmi' + dmi) (ds' + ds) (dus' + dus) x.
Proof. unfold shift. cbn. now rewrite !Z.add_assoc. Qed.

Lemma s_year_shift x v : s_year (tm_year (fst x) + v) x = shift v 0 0 0 0 0 0 x.
Proof. destruct x as [[] ?]. unfold s_year, shift. cbn. now rewrite !Z.add_0_r. Qed.
Lemma s_mon_shift x v : s_mon (tm_mon (fst x) + v) x = shift 0 v 0 0 0 0 0 x.
Proof. destruct x as [[] ?]. unfold s_mon, shift. cbn. now rewrite !Z.add_0_r. Qed.
Lemma s_mday_shift x v : s_mday (tm_mday (fst x) + v) x = shift 0 0 v 0 0 0 0 x.
Proof. destruct x as [[] ?]. unfold s_mday, shift. cbn. now rewrite !Z.add_0_r. Qed.
Lemma s_hour_shift x v : s_hour (tm_hour (fst x) + v) x = shift 0 0 0 v 0 0 0 x.
Proof. destruct x as [[] ?]. unfold s_hour, shift. cbn. now rewrite !Z.add_0_r. Qed.
Lemma s_min_shift x v : s_min (tm_min (fst x) + v) x = shift 0 0 0 0 v 0 0 x.
Proof. destruct x as [[] ?]. unfold s_min, shift. cbn. now rewrite !Z.add_0_r. Qed.
Lemma s_sec_shift x v : s_sec (tm_sec (fst x) + v) x = shift 0 0 0 0 0 v 0 x.
Proof. destruct x as [[] ?]. unfold s_sec, shift. cbn. now rewrite !Z.add_0_r. Qed.
Lemma s_fsec_shift x v : s_fsec (snd x + v) x = shift 0 0 0 0 0 0 v x.
Proof. destruct x as [[] ?]. unfold s_fsec, shift. cbn. now rewrite !Z.add_0_r. Qed.

Lemma seconds_close md f e N k S x : close f (IZR N / IZR (10 ^ Z.of_nat k)) e -> (0 <= e)%R -> (e * IZR S <= 2 / 10000000)%R ->
  (k <= 6)%nat -> Z.abs N < 10 ^ Z.of_nat k ->
  1 <= S <= 86400 -> Z.abs (tm_sec (fst x)) <= 2000000000 -> Z.abs (snd x) <= 2000000000 ->
  exists q r, adjust_fract_seconds md f S x = (shift 0 0 0 0 0 q r x, Ok tt)
    /\ q * 1000000 + r = N * (S * 1000000) / 10 ^ Z.of_nat k /\ Z.abs q <= 100000 /\ Z.abs r <= 3000000.
Proof.
  intros C0 Be BeS Hk HN HS Bs Bu. pose proof (pow10_pos k) as Pk. pose proof (pow10_pos (6 - k)) as Pk'.
  assert (10 ^ Z.of_nat k * 10 ^ Z.of_nat (6 - k) = 1000000) as PP.
  { rewrite <- Z.pow_add_r by lia. replace (Z.of_nat k + Z.of_nat (6 - k)) with 6 by lia. reflexivity. }
  set (P := 10 ^ Z.of_nat k) in *. set (P' := 10 ^ Z.of_nat (6 - k)) in *. clearbody P P'.
  assert (1 <= P) as BP by lia.
  assert (1 <= IZR P)%R as RP by (apply IZR_le; lia).
  assert (- IZR P < IZR N < IZR P)%R as RN by (rewrite <- opp_IZR; split; apply IZR_lt; lia).
  assert (-1 <= IZR N / IZR P <= 1)%R as Bq.
  { assert (0 < / IZR P)%R by (apply Rinv_0_lt_compat; lra).
    assert (IZR P * / IZR P = 1)%R by (apply Rinv_r; lra). unfold Rdiv. nra. }
  destruct x as [tm us]. cbn [fst snd] in *.
  destruct (adjust_seconds_exact md f _ _ S (N * S * P') tm us C0) as (q & r & E & Eqr & Bqr & Brr); auto.
  - rewrite !mult_IZR. assert (IZR P * IZR P' = 1000000)%R as PR by (rewrite <- mult_IZR, PP; reflexivity).
    rewrite <- PR. field. lra.
  - exists q, r. split.
    + rewrite E. destruct tm. unfold shift. cbn. now rewrite !Z.add_0_r.
    + split; [|lia]. rewrite Eqr, <- PP. replace (N * (S * (P * P'))) with (N * S * P' * P) by ring. now rewrite Z.div_mul by lia.
Qed.

Lemma rounded_close f N k : rep f (rnd (IZR N / IZR (10 ^ Z.of_nat k))) -> Z.abs N < 10 ^ Z.of_nat k ->
  close f (IZR N / IZR (10 ^ Z.of_nat k)) (eps 1).
Proof.
  intros R HN. pose proof (pow10_pos k) as Pk. set (P := 10 ^ Z.of_nat k) in *. clearbody P.
  assert (1 <= IZR P)%R as RP by (apply IZR_le; lia).
  assert (- IZR P < IZR N < IZR P)%R as RN by (rewrite <- opp_IZR; split; apply IZR_lt; lia).
  exists (rnd (IZR N / IZR P)). split; [exact R|]. apply rnd_close. apply rabs_le.
  assert (0 < / IZR P)%R by (apply Rinv_0_lt_compat; lra).
  assert (IZR P * / IZR P = 1)%R by (apply Rinv_r; lra). unfold Rdiv. nra.
Qed.

Lemma seconds_shift md f N k S x : rep f (rnd (IZR N / IZR (10 ^ Z.of_nat k))) -> (k <= 6)%nat -> Z.abs N < 10 ^ Z.of_nat k ->
  1 <= S <= 86400 -> Z.abs (tm_sec (fst x)) <= 2000000000 -> Z.abs (snd x) <= 2000000000 ->
  exists q r, adjust_fract_seconds md f S x = (shift 0 0 0 0 0 q r x, Ok tt)
    /\ q * 1000000 + r = N * (S * 1000000) / 10 ^ Z.of_nat k /\ Z.abs q <= 100000 /\ Z.abs r <= 3000000.
Proof.
  intros R Hk HN HS. assert (1 <= IZR S <= 86400)%R by (split; apply IZR_le; lia).
  apply (seconds_close md f (eps 1)); auto using rounded_close; unfold eps; lra.
Qed.

Definition days_result md f N k S x : Prop :=
  exists q r, adjust_fract_days md f S x = (shift 0 0 (Z.quot (S * N) (10 ^ Z.of_nat k)) 0 0 q r x, Ok tt)
    /\ q * 1000000 + r = Z.rem (S * N) (10 ^ Z.of_nat k) * usecs_day / 10 ^ Z.of_nat k /\ Z.abs q <= 100000 /\ Z.abs r <= 3000000
    /\ Z.abs (Z.quot (S * N) (10 ^ Z.of_nat k)) <= 30.
Lemma days_result_of md f N k S x : (k <= 6)%nat -> Z.abs N < 10 ^ Z.of_nat k -> S = 7 \/ S = 30 ->
  (exists q r, adjust_fract_days md f S x =
      ((set_sec (tm_sec (fst x) + q) (set_mday (tm_mday (fst x) + Z.quot (S * N) (10 ^ Z.of_nat k)) (fst x)), snd x + r), Ok tt)
    /\ q * 1000000 + r = Z.rem (S * N) (10 ^ Z.of_nat k) * 86400 * 10 ^ Z.of_nat (6 - k) /\ Z.abs q <= 100000 /\ Z.abs r <= 3000000) ->
  days_result md f N k S x.
Proof.
  intros Hk HN HS (q & r & E & Eqr & Bqr & Brr). destruct x as [tm us]. cbn [fst snd] in *.
  pose proof (pow10_pos k) as Pk. exists q, r. split; [|split; [|split; [exact Bqr|split; [exact Brr|]]]].
  - rewrite E. destruct tm. unfold shift. cbn. now rewrite !Z.add_0_r.
  - assert (10 ^ Z.of_nat k * 10 ^ Z.of_nat (6 - k) = 1000000) as PP.
    { rewrite <- Z.pow_add_r by lia. replace (Z.of_nat k + Z.of_nat (6 - k)) with 6 by lia. reflexivity. }
    rewrite Eqr. change usecs_day with (86400 * 1000000). rewrite <- PP. set (a := Z.rem _ _). generalize dependent (10 ^ Z.of_nat k). intros P. intros.
    replace (a * (86400 * (P * 10 ^ Z.of_nat (6 - k)))) with (a * 86400 * 10 ^ Z.of_nat (6 - k) * P) by ring. now rewrite Z.div_mul by lia.
  - generalize dependent (10 ^ Z.of_nat k). intros P. intros. clear - HN HS Pk.
    pose proof (Z.quot_rem' (S * N) P) as QR. pose proof (Z.rem_bound_abs (S * N) P ltac:(lia)) as RB.
    set (d := Z.quot (S * N) P) in *. set (m := Z.rem (S * N) P) in *. clearbody d m.
    assert (Z.abs (P * d) < 30 * P + P) by lia. rewrite Z.abs_mul in H. nia.
Qed.

Lemma days_shift md f N k S x : rep f (rnd (IZR N / IZR (10 ^ Z.of_nat k))) -> (k <= 6)%nat -> Z.abs N < 10 ^ Z.of_nat k ->
  S = 7 \/ S = 30 ->
  Z.abs (tm_mday (fst x)) <= 2000000000 -> Z.abs (tm_sec (fst x)) <= 2000000000 -> Z.abs (snd x) <= 2000000000 ->
  exists q r, adjust_fract_days md f S x = (shift 0 0 (Z.quot (S * N) (10 ^ Z.of_nat k)) 0 0 q r x, Ok tt)
    /\ q * 1000000 + r = Z.rem (S * N) (10 ^ Z.of_nat k) * usecs_day / 10 ^ Z.of_nat k /\ Z.abs q <= 100000 /\ Z.abs r <= 3000000
    /\ Z.abs (Z.quot (S * N) (10 ^ Z.of_nat k)) <= 30.
Proof.
  intros R Hk HN HS Bd Bs Bu. destruct x as [tm us]. apply days_result_of; auto. now apply adjust_days_exact.
Qed.

Lemma shift_0 x : shift 0 0 0 0 0 0 0 x = x.
Proof. destruct x as [[] ?]. unfold shift. cbn. now rewrite !Z.add_0_r. Qed.

Lemma unit_default u range : span_unit u -> default_unit (unit_code u) range = unit_code u.
Proof. destruct u; intros H; try destruct H; reflexivity. Qed.

Lemma fits_bounds n x : fits n x -> 0 <= n <= 13 ->
  Z.abs (tm_year (fst x)) <= 1352000000 /\ Z.abs (tm_mon (fst x)) <= 1352000000 /\ Z.abs (tm_mday (fst x)) <= 1352000000
  /\ Z.abs (tm_hour (fst x)) <= 13000000 /\ Z.abs (tm_min (fst x)) <= 1352000000 /\ Z.abs (tm_sec (fst x)) <= 1352000000
  /\ Z.abs (snd x) <= 1352000000.
Proof. unfold fits, small. lia. Qed.

Lemma add32_small md a b : Z.abs a <= 1352000000 -> Z.abs b <= 104000000 -> add32 md a b = Ok (a + b).
Proof. intros. unfold add32. rewrite ar32_ok; [reflexivity|]. rng. lia. Qed.
Lemma mul32_small md a b : Z.abs (a * b) <= 104000000 -> mul32 md a b = Ok (a * b).
Proof. intros. unfold mul32. rewrite ar32_ok; [reflexivity|]. rng. lia. Qed.
Lemma add64_small md a b : Z.abs a <= 1352000000 -> Z.abs b <= 104000000 -> add64 md a b = Ok (a + b).
Proof. intros. unfold add64. rewrite ar64_ok; [reflexivity|]. rng. lia. Qed.

Lemma no_fraction q f : quantity_ok q -> (q_frac q = None -> f = f0) ->
  match q_unit q with UMicro | UDecade | UCentury | UMillennium => f = f0 /\ q_num q = 0 /\ q_len q = 0%nat | _ => True end.
Proof.
  intros (_ & _ & _ & _ & F) Hf. unfold q_num, q_len. destruct (q_frac q) as [t|]; [destruct F as (_ & _ & F)|specialize (Hf eq_refl)];
    destruct (q_unit q); now try easy.
Qed.

Lemma frac_usecs_gen' f N k : rep f (rnd (IZR N / IZR (10 ^ Z.of_nat k))) -> (k <= 6)%nat -> Z.abs N < 10 ^ Z.of_nat k ->
  usecs_of f = N * 1000000 / 10 ^ Z.of_nat k /\ Z.abs (N * 1000000 / 10 ^ Z.of_nat k) <= 1000000.
Proof.
  intros R Hk HN. pose proof (pow10_pos k) as Pk. pose proof (pow10_pos (6 - k)) as Pk'.
  assert (10 ^ Z.of_nat k * 10 ^ Z.of_nat (6 - k) = 1000000) as PP.
  { rewrite <- Z.pow_add_r by lia. replace (Z.of_nat k + Z.of_nat (6 - k)) with 6 by lia. reflexivity. }
  set (P := 10 ^ Z.of_nat k) in *. set (P' := 10 ^ Z.of_nat (6 - k)) in *. clearbody P P'.
  assert (N * 1000000 / P = N * P') as -> by (rewrite <- PP; replace (N * (P * P')) with (N * P' * P) by ring; now rewrite Z.div_mul by lia).
  assert (1 <= IZR P)%R as RP by (apply IZR_le; lia).
  assert (- IZR P < IZR N < IZR P)%R as RN by (rewrite <- opp_IZR; split; apply IZR_lt; lia).
  assert (-1 <= IZR N / IZR P <= 1)%R as Bq.
  { assert (0 < / IZR P)%R by (apply Rinv_0_lt_compat; lra).
    assert (IZR P * / IZR P = 1)%R by (apply Rinv_r; lra). unfold Rdiv. nra. }
  assert (close f (IZR N / IZR P) (eps 1)) as C0.
  { exists (rnd (IZR N / IZR P)). split; [exact R|]. apply rnd_close. apply rabs_le. lra. }
  split.
  - apply (usecs_near f _ _ _ C0); [|lra|unfold eps; lra]. rewrite mult_IZR.
    assert (IZR P * IZR P' = 1000000)%R as PR by (rewrite <- mult_IZR, PP; reflexivity). rewrite <- PR. field. lra.
  - rewrite Z.abs_mul. rewrite <- PP. clear - HN Pk Pk'. nia.
Qed.

Lemma months_part f N k : rep f (rnd (IZR N / IZR (10 ^ Z.of_nat k))) -> (k <= 6)%nat -> Z.abs N < 10 ^ Z.of_nat k ->
  f64_to_i32 (fmul f (f64_of_Z 12)) = Z.quot (12 * N) (10 ^ Z.of_nat k) /\ Z.abs (Z.quot (12 * N) (10 ^ Z.of_nat k)) <= 12.
Proof.
  intros R Hk HN. pose proof (pow10_pos k) as Pk.
  assert (10 ^ Z.of_nat k <= 10 ^ 6) as P6 by (apply Z.pow_le_mono_r; lia). change (10 ^ 6) with 1000000 in P6.
  set (P := 10 ^ Z.of_nat k) in *. clearbody P.
  assert (1 <= IZR P)%R as RP by (apply IZR_le; lia).
  assert (- IZR P < IZR N < IZR P)%R as RN by (rewrite <- opp_IZR; split; apply IZR_lt; lia).
  assert (-1 <= IZR N / IZR P <= 1)%R as Bq.
  { assert (0 < / IZR P)%R by (apply Rinv_0_lt_compat; lra).
    assert (IZR P * / IZR P = 1)%R by (apply Rinv_r; lra). unfold Rdiv. nra. }
  pose proof (trunc_scale N P 12 ltac:(unfold scale; lia) ltac:(lia) HN) as T.
  assert (rep (fmul f (f64_of_Z 12)) (rnd (rnd (IZR N / IZR P) * IZR 12))) as R1.
  { apply rep_mul; [exact R|apply rep_int; change (2 ^ 53) with 9007199254740992; lia|].
    pose proof (rnd_close (IZR N / IZR P) 1 ltac:(apply rabs_le; lra)) as H. unfold eps in H. apply of_rabs in H.
    apply big_bound, rabs_le. lra. }
  assert (Z.abs (Z.quot (12 * N) P) <= 12) as B.
  { clear - HN Pk. pose proof (Z.quot_rem' (12 * N) P) as QR. pose proof (Z.rem_bound_abs (12 * N) P ltac:(lia)) as RB.
    set (d := Z.quot (12 * N) P) in *. set (m := Z.rem (12 * N) P) in *. clearbody d m.
    assert (Z.abs (P * d) < 12 * P + P) by lia. rewrite Z.abs_mul in H. nia. }
  split; [|exact B]. unfold f64_to_i32. rewrite (rep_to_int i32_min i32_max _ _) with (2 := R1) by (vm_compute; intuition discriminate).
  rewrite T. unfold i32_min, i32_max. lia.
Qed.

Lemma millis_part f N k v : rep f (rnd (IZR N / IZR (10 ^ Z.of_nat k))) -> (k <= 3)%nat -> Z.abs N < 10 ^ Z.of_nat k -> Z.abs v <= 999 ->
  f64_to_i64 (fround (fmul (fadd (f64_of_Z v) f) (f64_of_Z 1000))) = v * 1000 + N * 1000 / 10 ^ Z.of_nat k
  /\ Z.abs (N * 1000 / 10 ^ Z.of_nat k) <= 1000.
Proof.
  intros R Hk HN Hv. pose proof (pow10_pos k) as Pk. pose proof (pow10_pos (3 - k)) as Pk'.
  assert (10 ^ Z.of_nat k * 10 ^ Z.of_nat (3 - k) = 1000) as PP.
  { rewrite <- Z.pow_add_r by lia. replace (Z.of_nat k + Z.of_nat (3 - k)) with 3 by lia. reflexivity. }
  set (P := 10 ^ Z.of_nat k) in *. set (P' := 10 ^ Z.of_nat (3 - k)) in *. clearbody P P'.
  assert (N * 1000 / P = N * P') as -> by (rewrite <- PP; replace (N * (P * P')) with (N * P' * P) by ring; now rewrite Z.div_mul by lia).
  assert (1 <= IZR P)%R as RP by (apply IZR_le; lia).
  assert (- IZR P < IZR N < IZR P)%R as RN by (rewrite <- opp_IZR; split; apply IZR_lt; lia).
  assert (-1 <= IZR N / IZR P <= 1)%R as Bq.
  { assert (0 < / IZR P)%R by (apply Rinv_0_lt_compat; lra).
    assert (IZR P * / IZR P = 1)%R by (apply Rinv_r; lra). unfold Rdiv. nra. }
  assert (-999 <= IZR v <= 999)%R as Rv by (split; apply IZR_le; lia).
  assert (close f (IZR N / IZR P) (eps 1)) as C0.
  { exists (rnd (IZR N / IZR P)). split; [exact R|]. apply rnd_close. apply rabs_le. lra. }
  assert (Z.abs (N * P') <= 1000) as BB by (rewrite Z.abs_mul, <- PP; clear - HN Pk Pk'; nia).
  split; [|exact BB].
  assert (close (fadd (f64_of_Z v) f) (IZR v + IZR N / IZR P) (1 / 10000000000)) as C1.
  { eapply close_weaken; [apply (close_add _ _ _ _ 0 (eps 1) 1002); [apply close_int; change (2 ^ 53) with 9007199254740992; lia|exact C0|unfold eps; lra|lra]|unfold eps; lra]. }
  apply (round_near _ _ (1 / 1000000)); [|lra|lia].
  eapply close_weaken; [eapply close_eq; [apply (close_mul _ _ _ 1000 2000000 C1); [change (2 ^ 53) with 9007199254740992; lia|lra|lra]|]|unfold eps; lra].
  rewrite plus_IZR, !mult_IZR. assert (IZR P * IZR P' = 1000)%R as PR by (rewrite <- mult_IZR, PP; reflexivity). rewrite <- PR. field. lra.
Qed.

Ltac finish := do 7 eexists; split; [reflexivity|]; unfold small, clock; lia.
Ltac secs y S :=
  match goal with R : rep ?f (rnd (IZR ?N / IZR (10 ^ Z.of_nat ?k))), BL : (?k <= 6)%nat, BN : _ < _ |- context [adjust_fract_seconds ?md ?f S y] =>
    let q := fresh "q" in let r := fresh "r" in let Ea := fresh "Ea" in let Eq := fresh "Eq" in
    destruct (seconds_shift md f N k S y R BL BN ltac:(vm_compute; intuition discriminate) ltac:(cbn; lia) ltac:(cbn; lia)) as (q & r & Ea & Eq & ? & ?);
    rewrite Ea; cbn [step_bind]; rewrite shift_add;
    let z := eval vm_compute in (S * 1000000) in change (S * 1000000) with z in Eq; change usecs_day with 86400000000; rewrite <- Eq; clear Eq Ea R BN; finish
  end.
Ltac dayshift y S :=
  match goal with R : rep ?f (rnd (IZR ?N / IZR (10 ^ Z.of_nat ?k))), BL : (?k <= 6)%nat, BN : _ < _ |- context [adjust_fract_days ?md ?f S y] =>
    let q := fresh "q" in let r := fresh "r" in let Ea := fresh "Ea" in let Eq := fresh "Eq" in
    destruct (days_shift md f N k S y R BL BN ltac:(vm_compute; auto) ltac:(cbn; lia) ltac:(cbn; lia) ltac:(cbn; lia)) as (q & r & Ea & Eq & ? & ? & ?);
    rewrite Ea; cbn [step_bind]; rewrite shift_add; unfold DAYS_PER_MONTH in *; rewrite <- Eq; clear Eq Ea R BN;
    match goal with H : Z.abs ?t <= 30 |- _ => generalize dependent t end; intros; finish
  end.

Lemma number_step md range ty q n x : quantity_ok q -> fits n x -> 0 <= n <= 12 -> default_unit ty range = unit_code (q_unit q) ->
  exists dy dmo dd dh dmi ds dus,
    interval_number_field md (number_text q) ty range x =
      (shift dy dmo dd dh dmi ds dus x, Ok (next_unit (q_unit q), bits (takes q)))
    /\ effect q dy dmo dd dh dmi ds dus.
Proof.
  intros H F Hn Ed. pose proof (fits_bounds n x F ltac:(lia)) as (Fy & Fmo & Fd & Fh & Fmi & Fs & Fus).
  destruct (number_value md q (unit_code (q_unit q)) H) as (f & E & R & F0 & BN & BL).
  pose proof (no_fraction q f H F0) as NF. pose proof (fraction_zero f _ _ R BL BN) as FZ.
  assert (q_unit q = UMilli -> (q_len q <= 3)%nat) as L3.
  { intros Eu. destruct H as (_ & _ & _ & _ & Hf). unfold q_len. destruct (q_frac q); [|lia]. destruct Hf as (_ & _ & Hf). now rewrite Eu in Hf. }
  destruct H as (P & W & Su & B & _). pose proof (sd_value _ P) as Bv.
  assert (Z.abs (q_val q) * weight (q_unit q) <= 100000000) as Bq.
  { unfold q_val. rewrite signed_abs, Z.abs_eq by lia. exact B. }
  clear B F0 Bv W P.
  unfold interval_number_field. rewrite Ed, E. clear Ed.
  unfold effect, q_months, q_days, q_micros, pow10. unfold takes.
  set (v := q_val q) in *. set (N := q_num q) in *. set (k := q_len q) in *. clearbody v N k.
  destruct (q_unit q) eqn:Eu; try destruct Su; cbn [weight] in Bq;
    (match goal with |- context [tfield_of ?c] => let r := eval vm_compute in (tfield_of c) in change (tfield_of c) with r end; cbv iota beta zeta;
     cbn [unit_months unit_days unit_micros part_months part_days part_micros next_unit]).
  all: try match goal with H : ?f = f0 /\ _ |- _ => destruct H as (-> & -> & ->) end.
  - (* microseconds *)
    rewrite (round_near _ v (1 / 1000)); [|..].
    + rewrite add64_small by lia. cbn [step_set step_bind]. rewrite s_fsec_shift. finish.
    + eapply close_weaken; [eapply close_eq; [apply (close_add _ _ (IZR v) 0 0 0 200000000); [apply close_int; change (2 ^ 53) with 9007199254740992; lia|
        apply close_rep, rep_f0| |lra]|ring]|unfold eps; lra].
      assert (- IZR 100000000 <= IZR v <= IZR 100000000)%R by (rewrite <- opp_IZR; split; apply IZR_le; lia). lra.
    + lra.
    + lia.
  - (* milliseconds *)
    pose proof (Z.quot_rem' v 1000) as QR. pose proof (Z.rem_bound_abs v 1000 ltac:(lia)) as RB.
    replace (v - v ÷ 1000 * 1000) with (Z.rem v 1000) by (clear - QR; lia).
    destruct (millis_part f N k (Z.rem v 1000) R (L3 eq_refl) BN ltac:(clear - RB; lia)) as [EM BM].
    rewrite EM. clear EM R BN L3. generalize dependent (N * 1000 / 10 ^ Z.of_nat k). intros fr BM.
    generalize dependent (Z.rem v 1000). generalize dependent (v ÷ 1000). intros a r QR RB.
    rewrite add32_small by lia. cbn [step_set step_bind]. rewrite s_sec_shift.
    rewrite add64_small by (cbn; lia). cbn [step_set step_bind]. rewrite s_fsec_shift, shift_add. finish.
  - (* seconds *)
    rewrite add32_small by lia. cbn [step_set step_bind]. rewrite s_sec_shift.
    destruct (frac_usecs_gen' f N k R BL BN) as [EU BU]. rewrite EU, add64_small by (cbn; lia). cbn [step_set step_bind].
    rewrite s_fsec_shift, shift_add, FZ. generalize dependent (N * 1000000 / 10 ^ Z.of_nat k). intros fr _ BU.
    destruct (N =? 0); finish.
  - (* minutes *) 
    rewrite add32_small by lia. cbn [step_set step_bind]. rewrite s_min_shift.
    secs (shift 0 0 0 0 v 0 0 x) SECS_PER_MINUTE.
  - (* hours *)
    rewrite add32_small by lia. cbn [step_set step_bind]. rewrite s_hour_shift.
    secs (shift 0 0 0 v 0 0 0 x) SECS_PER_HOUR.
  - (* days *)
    rewrite add32_small by lia. cbn [step_set step_bind]. rewrite s_mday_shift.
    destruct (seconds_shift md f N k SECS_PER_DAY (shift 0 0 v 0 0 0 0 x) R BL BN ltac:(vm_compute; intuition discriminate) ltac:(cbn; lia) ltac:(cbn; lia)) as (a & r & Ea & Eq & ? & ?).
    rewrite Ea. cbn [step_bind]. rewrite shift_add. change (SECS_PER_DAY * 1000000) with 86400000000 in Eq. change usecs_day with 86400000000.
    rewrite <- Eq. clear Eq Ea R BN. finish.
  - (* weeks *)
    rewrite mul32_small by lia. cbn [bind]. rewrite add32_small by lia. cbn [step_set step_bind]. rewrite s_mday_shift.
    dayshift (shift 0 0 (v * 7) 0 0 0 0 x) 7.
  - (* months *)
    rewrite add32_small by lia. cbn [step_set step_bind]. rewrite s_mon_shift.
    dayshift (shift 0 v 0 0 0 0 0 x) DAYS_PER_MONTH.
  - (* years *)
    unfold add_years. rewrite mul32_small by lia. cbn [bind]. rewrite add32_small by lia. cbn [step_set step_bind]. rewrite s_year_shift.
    destruct (months_part f N k R BL BN) as [EM BM].
    rewrite FZ. destruct (Z.eqb_spec N 0) as [N0|N0]; cbn [negb].
    + assert (12 * N ÷ 10 ^ Z.of_nat k = 0) as -> by (rewrite N0, Z.mul_0_r; apply Z.quot_0_l; pose proof (pow10_pos k); lia). finish.
    + rewrite EM, add32_small by (cbn; lia). cbn [step_set step_bind]. rewrite s_mon_shift, shift_add.
      generalize dependent (12 * N ÷ 10 ^ Z.of_nat k). intros m _ BM. finish.
  - unfold add_years. rewrite mul32_small by lia. cbn [bind]. rewrite add32_small by lia. cbn [step_set step_bind]. rewrite s_year_shift.
    change (fnz f0) with false. cbv iota. finish.
  - unfold add_years. rewrite mul32_small by lia. cbn [bind]. rewrite add32_small by lia. cbn [step_set step_bind]. rewrite s_year_shift.
    change (fnz f0) with false. cbv iota. finish.
  - unfold add_years. rewrite mul32_small by lia. cbn [bind]. rewrite add32_small by lia. cbn [step_set step_bind]. rewrite s_year_shift.
    change (fnz f0) with false. cbv iota. finish.
Qed.

(** ** Parts that are given twice *)
Lemma has_comm a b : has a b = has b a.
Proof. unfold has. now rewrite Z.land_comm. Qed.

Lemma has_bit u v : span_unit u -> span_unit v -> has (bit u) (bit v) = true <-> u = v.
Proof.
  intros Hu Hv. destruct u, v; try destruct Hu; try destruct Hv;
    (split; [intros H; solve [reflexivity|vm_compute in H; discriminate H]|intros H; solve [discriminate H|vm_compute; reflexivity]]).
Qed.

Lemma has_bits L u : Forall span_unit L -> span_unit u -> has (bits L) (bit u) = true <-> In u L.
Proof.
  intros F Hu. induction F as [|v L Hv _ IH]; [split; [discriminate|easy]|]. cbn [bits fold_right In].
  rewrite has_lor, orb_true_iff, has_bit by assumption. fold (bits L). rewrite IH. reflexivity.
Qed.

Lemma bits_clash L T : Forall span_unit L -> Forall span_unit T ->
  has (bits L) (bits T) = true <-> exists u, In u L /\ In u T.
Proof.
  intros FL FT. induction FT as [|v T Hv _ IH].
  - split; [unfold has; now rewrite Z.land_0_r|intros (u & _ & [])].
  - cbn [bits fold_right]. fold (bits T). rewrite has_comm, has_lor, orb_true_iff, (has_comm _ (bits L)), (has_comm _ (bits L)), has_bits, IH by assumption.
    split; [intros [I|(u & I & J)]; [exists v|exists u]; cbn; auto|intros (u & I & [->|J]); [now left|right; eauto]].
Qed.

Lemma bits_app L T : bits (L ++ T) = Z.lor (bits L) (bits T).
Proof. induction L as [|u L IH]; [reflexivity|]. cbn [app bits fold_right]. fold (bits L) (bits (L ++ T)). rewrite IH. apply Z.lor_assoc. Qed.

Lemma takes_span q : quantity_ok q -> Forall span_unit (takes q) /\ NoDup (takes q) /\ takes q <> [].
Proof.
  intros (_ & _ & S & _). unfold takes. assert (forall u : iunit, NoDup [u]) as N1 by (intros u; constructor; [easy|constructor]).
  destruct (q_unit q); try destruct S; try (split; [repeat constructor; exact I|split; [apply N1|discriminate]]).
  destruct (q_num q =? 0); [split; [repeat constructor|split; [apply N1|discriminate]]|].
  split; [repeat constructor|]. split; [|discriminate]. repeat constructor; cbn; intuition discriminate.
Qed.

Definition all_units : list iunit :=
  [UMicro; UMilli; USecond; UMinute; UHour; UDay; UWeek; UMonth; UYear; UDecade; UCentury; UMillennium].
Lemma span_few L : NoDup L -> Forall span_unit L -> (length L <= 12)%nat.
Proof.
  intros N F. apply (NoDup_incl_length N (l' := all_units)). intros u I. rewrite Forall_forall in F. specialize (F u I).
  destruct u; try destruct F; cbn; tauto.
Qed.

Lemma nodup_app (L T : list iunit) : NoDup L -> NoDup T -> (forall u, In u L -> ~ In u T) -> NoDup (L ++ T).
Proof.
  induction 1 as [|u L Hu _ IH]; intros NT D; [exact NT|]. cbn. constructor.
  - rewrite in_app_iff. intros [I|I]; [easy|]. apply (D u); cbn; auto.
  - apply IH; [exact NT|]. intros v I. apply D. now right.
Qed.
Lemma nodup_apart (L T : list iunit) u : NoDup (L ++ T) -> In u L -> In u T -> False.
Proof.
  induction L as [|v L IH]; cbn; [easy|]. intros N [->|I] J; inversion N as [|? ? NI N']; subst.
  - apply NI. apply in_app_iff. now right.
  - now apply IH.
Qed.

(** ** One quantity *)
Definition changed (q : quantity) (x x' : tmf) : Prop :=
  months_in x' = months_in x + q_months q /\ days_in x' = days_in x + q_days q /\ micros_in x' = micros_in x + q_micros q.

Lemma word_units w u : unit_name w u -> decode_units (lowers w) = Ok (UNITS, unit_code u).
Proof. intros (word & I & C). destruct (any_case_facts _ _ C) as (_ & -> & _). apply C40_units. eauto. Qed.

Lemma quantity_step md range q n rest i x : quantity_ok q -> fits n x -> 0 <= n <= 12 ->
  (q_word q = None -> default_unit (i_ty i) range = unit_code (q_unit q)) ->
  exists x', fits (n + 1) x' /\ changed q x x' /\
    interval_fields md range (word_toks q ++ num_tok q :: rest) i x =
    if has (i_fmask i) (bits (takes q)) then (x', Err EInvalid)
    else interval_fields md range rest (mkI (next_unit (q_unit q)) (Z.lor (i_fmask i) (bits (takes q))) (i_before i) (i_dtype i)) x'.
Proof.
  intros H F Hn Hd.
  assert (exists j, i_fmask j = i_fmask i /\ i_before j = i_before i /\ i_dtype j = i_dtype i
    /\ default_unit (i_ty j) range = unit_code (q_unit q)
    /\ interval_fields md range (word_toks q ++ num_tok q :: rest) i x = interval_fields md range (num_tok q :: rest) j x) as (j & J1 & J2 & J3 & J4 & ->).
  { unfold word_toks. destruct (q_word q) as [w|] eqn:W.
    - exists (i_set_ty (unit_code (q_unit q)) i). cbn [i_set_ty i_fmask i_before i_dtype i_ty]. repeat (split; [reflexivity|]).
      destruct H as (_ & Hw & Su & _). rewrite W in Hw. split; [now apply unit_default|].
      cbn [app]. cbn [interval_fields]. unfold interval_field at 1. cbn [fst snd]. rewrite (word_units _ _ Hw).
      unfold merge_i, has. rewrite Z.land_0_r, Z.lor_0_r. change (negb (0 =? 0)) with false. cbv iota. reflexivity.
    - exists i. auto 10. }
  destruct (number_step md range (i_ty j) q n x H F Hn J4) as (dy & dmo & dd & dh & dmi & ds & dus & E & (E1 & E2 & E3 & B1 & B2 & B3 & B4 & B5 & B6 & B7)).
  exists (shift dy dmo dd dh dmi ds dus x). split; [|split].
  - clear - F B1 B2 B3 B4 B5 B6 B7. unfold fits, small in *. destruct F as (F1 & F2 & F3 & F4 & F5 & F6 & F7).
    cbn [shift fst snd tm_sec tm_min tm_hour tm_mday tm_mon tm_year].
    assert (forall a b c, Z.abs a <= n * c -> Z.abs b <= 1 * c -> Z.abs (a + b) <= (n + 1) * c) as K by (clear; lia).
    repeat split; apply K; assumption || (clear - B4; lia).
  - clear - E1 E2 E3. unfold changed, months_in, days_in, micros_in, clock in *.
    cbn [shift fst snd tm_sec tm_min tm_hour tm_mday tm_mon tm_year]. split; [|split]; [clear - E1; lia|clear - E2; lia|clear - E3; lia].
  - cbn [interval_fields]. rewrite num_tok_field by exact H. unfold num_step. rewrite E. cbn [step_bind fst snd]. unfold merge_i.
    cbn [i_set_ty i_fmask i_ty i_before i_dtype]. rewrite J1, J2, J3. destruct (has _ _); reflexivity.
Qed.

(** ** All quantities, last first *)
Definition toks (q : quantity) : list token := num_tok q :: word_toks q.

Lemma word_toks_rev q : rev (word_toks q) = word_toks q.
Proof. unfold word_toks. destruct (q_word q); reflexivity. Qed.

Definition state_ok (n : Z) (L : list iunit) (i : ist) (x : tmf) : Prop :=
  i_fmask i = bits L /\ NoDup L /\ Forall span_unit L /\ 0 <= n <= Z.of_nat (length L) /\ fits n x.

Lemma units_implied_ty range ty last qs q : units_implied last (qs ++ [q]) -> 
  (forall u, last = Some u -> default_unit ty range = unit_code u) ->
  (q_word q = None -> default_unit ty range = unit_code (q_unit q)) /\ units_implied (Some (before_unit (q_unit q))) qs.
Proof.
  induction qs as [|p qs IH]; intros U HL.
  - cbn in U. split; [|exact I]. intros W. apply HL, U, W.
  - cbn [app units_implied] in U. destruct U as [U1 U2]. destruct (IH U2 HL) as [A B]. split; [exact A|].
    cbn [units_implied]. split; [|exact B]. intros W. specialize (U1 W). destruct qs as [|p' qs]; cbn [app] in U1; congruence.
Qed.

Lemma before_next u : span_unit u -> next_unit u = unit_code (before_unit u).
Proof. destruct u; intros H; try destruct H; reflexivity. Qed.
Lemma before_span u : span_unit u -> span_unit (before_unit u).
Proof. destruct u; intros H; try destruct H; exact I. Qed.

Lemma total_app f a b : total f (a ++ b) = total f a + total f b.
Proof. unfold total. rewrite map_app. induction (map f a) as [|v l IH]; [reflexivity|]. cbn. rewrite IH. lia. Qed.

Lemma quantities_step md range : forall qs n L i x last, Forall quantity_ok qs -> state_ok n L i x ->
  units_implied last qs -> (forall u, last = Some u -> default_unit (i_ty i) range = unit_code u) ->
  (NoDup (L ++ concat (map takes (rev qs))) ->
     exists x' i' n', interval_fields md range (rev (concat (map toks qs))) i x = (x', Ok i')
       /\ state_ok n' (L ++ concat (map takes (rev qs))) i' x' /\ i_before i' = i_before i /\ i_dtype i' = i_dtype i
       /\ months_in x' = months_in x + total q_months qs /\ days_in x' = days_in x + total q_days qs
       /\ micros_in x' = micros_in x + total q_micros qs)
  /\ (~ NoDup (L ++ concat (map takes (rev qs))) ->
     exists x', interval_fields md range (rev (concat (map toks qs))) i x = (x', Err EInvalid)).
Proof.
  induction qs as [|q qs IH] using rev_ind; intros n L i x last F St U HL.
  - cbn. rewrite app_nil_r. split; [|intros N; destruct N; apply St].
    intros _. exists x, i, n. rewrite !Z.add_0_r. auto 10.
  - apply Forall_app in F as [F Fq]. inversion Fq as [|? ? Hq _]; subst. clear Fq.
    destruct St as (M & ND & SL & Bn & Fi). pose proof (span_few L ND SL) as Few.
    destruct (units_implied_ty range (i_ty i) last qs q U HL) as [Uq U'].
    destruct (takes_span q Hq) as (TS & TN & TE).
    rewrite rev_app_distr. cbn [rev app map concat]. rewrite map_app, concat_app. cbn [map concat]. rewrite app_nil_r, rev_app_distr.
    assert (rev (toks q) = word_toks q ++ [num_tok q]) as -> by (unfold toks; cbn [rev]; now rewrite word_toks_rev).
    rewrite <- app_assoc. cbn [app].
    destruct (quantity_step md range q n (rev (concat (map toks qs))) i x Hq Fi ltac:(lia) Uq) as (x' & Fx' & (C1 & C2 & C3) & ->).
    pose proof (bits_clash L (takes q) SL TS) as Cl. rewrite <- M in Cl.
    destruct (has (i_fmask i) (bits (takes q))) eqn:Hh.
    + destruct (proj1 Cl eq_refl) as (u & I1 & I2). split; [|intros _; eauto].
      intros N. exfalso. apply (nodup_apart L (takes q ++ concat (map takes (rev qs))) u N I1). apply in_app_iff. now left.
    + assert (NoDup (L ++ takes q)) as ND'.
      { apply nodup_app; auto. intros u I1 I2. enough (false = true) by easy. apply Cl. eauto. }
      assert (span_unit (q_unit q)) as Su by apply Hq.
      edestruct (IH (n + 1) (L ++ takes q) (mkI (next_unit (q_unit q)) (Z.lor (i_fmask i) (bits (takes q))) (i_before i) (i_dtype i)) x' (Some (before_unit (q_unit q)))) as [A B]; auto.
      * unfold state_ok. cbn [i_fmask]. split; [now rewrite bits_app, M|]. split; [exact ND'|]. split; [now apply Forall_app|].
        split; [|exact Fx']. rewrite app_length. destruct (takes q); [easy|]. cbn [length]. lia.
      * intros u E. injection E as <-. cbn [i_ty]. rewrite before_next by exact Su. apply unit_default. now apply before_span.
      * rewrite <- app_assoc in A, B. cbn [i_before i_dtype] in A. split.
        -- intros N. destruct (A N) as (x2 & i2 & n2 & A1 & A2 & A3 & A4 & A5 & A6 & A7). exists x2, i2, n2.
           rewrite !total_app. unfold total at 2 4 6. cbn [map fold_right]. repeat (split; [assumption|]). repeat split; lia.
        -- exact B.
Qed.

(** ** The clock *)
Lemma clock_words_time r t h mi s us : clock_words r t h mi s us -> exists h' mi' s' us', time_words t h' mi' s' us'.
Proof.
  intros C. destruct r; cbn [clock_words] in C; eauto. destruct C as [(a & b & Pa & Pb & -> & _)|[W _]]; [|eauto].
  do 4 eexists. now apply TW_hm.
Qed.

Lemma clock_bounds r t h mi s us : clock_words r t h mi s us -> 0 <= h /\ 0 <= mi /\ 0 <= s /\ 0 <= us < 1000000.
Proof.
  intros C. assert (time_words t h mi s us -> 0 <= h /\ 0 <= mi /\ 0 <= s /\ 0 <= us < 1000000) as K
    by (intros W; pose proof (words_bounds _ _ _ _ _ W); lia).
  destruct r; cbn [clock_words] in C; auto. destruct C as [(a & b & Pa & Pb & _ & -> & -> & -> & ->)|[W _]]; [|auto].
  pose proof (sd_value a Pa). pose proof (sd_value b Pb). lia.
Qed.

Lemma decode_clock md r t h mi s us x : clock_words r t h mi s us -> mi <= 59 -> s <= 60 ->
  decode_time md t (range_code r) x = (put_clock h mi s us x, Ok tt).
Proof.
  intros C Hm Hs.
  assert (time_words t h mi s us -> (range_code r =? INTERVAL_MASK_MS = false \/ (exists a b c, t = a ++ 58 :: b ++ 58 :: c \/ t = a ++ 58 :: b ++ 46 :: c)) ->
    decode_time md t (range_code r) x = (put_clock h mi s us x, Ok tt)) as K.
  { intros W N. rewrite (decode_words_in md _ t h mi s us) by assumption. destruct (Z.leb_spec mi 59), (Z.leb_spec s 60); try lia. reflexivity. }
  destruct r; cbn [clock_words] in C; try (apply K; [exact C|left; reflexivity]).
  destruct C as [(a & b & Pa & Pb & -> & -> & -> & -> & ->)|[W N]]; [|apply K; auto].
  change (range_code RMinuteSecond) with INTERVAL_MASK_MS. rewrite decode_minutes by assumption.
  destruct (Z.leb_spec (digits_value a) 59), (Z.leb_spec (digits_value b) 60); try lia. reflexivity.
Qed.

Definition clock_tok (k : clockpart) : token :=
  (Some (match k_sign k with Unsigned => KTime | _ => KTz end), sign_text (k_sign k) ++ k_text k).

Lemma words_chars t h mi s us : time_words t h mi s us -> forallb signed_char t = true /\ existsb (fun b => b =? 58) t = true.
Proof.
  intros W. destruct (words_shape _ _ _ _ _ W) as (a & r & -> & Pa & Fr). split.
  - rewrite forallb_app, (digits_signed a) by now apply sd_digits. cbn [forallb]. change (signed_char 58) with true. cbn [andb].
    apply (forallb_weaken time_char); [|exact Fr]. intros c. unfold time_char, signed_char. intros E. now rewrite E.
  - rewrite existsb_app. cbn. apply orb_true_r.
Qed.

Lemma clock_piece r k : clock_ok r k -> piece (sign_text (k_sign k) ++ k_text k) (clock_tok k).
Proof.
  intros (C & _). destruct (clock_words_time _ _ _ _ _ _ C) as (h & mi & s & us & W).
  pose proof (words_head _ _ _ _ _ [] W) as Hd. rewrite app_nil_r in Hd.
  unfold clock_tok. destruct (k_sign k); cbn [sign_text app].
  - split; [destruct (k_text k); easy|]. intros fuel n room rest R Bn B. apply (tokenize_words _ h mi s us); auto. now apply ends_stops.
  - apply piece_signed; [auto|exact Hd|now apply (words_chars _ _ _ _ _ W)].
  - apply piece_signed; [auto|exact Hd|now apply (words_chars _ _ _ _ _ W)].
Qed.

Definition sgn (s : sign) (v : Z) : Z := signed s v.
Lemma clock_step md r k i x : clock_ok r k -> i_fmask i = 0 ->
  interval_field md (range_code r) (clock_tok k) i x =
  (put_clock (signed (k_sign k) (k_h k)) (signed (k_sign k) (k_mi k)) (signed (k_sign k) (k_s k)) (signed (k_sign k) (k_us k)) x,
   Ok (mkI (unit_code UDay) (bits clock_takes) (i_before i) (i_dtype i))).
Proof.
  intros (C & Hh & Hm & Hs) M. destruct (clock_words_time _ _ _ _ _ _ C) as (h & mi & s & us & W).
  destruct (words_chars _ _ _ _ _ W) as [_ Co]. pose proof (clock_bounds _ _ _ _ _ _ C) as B.
  assert (forall y, merge_i DTK_TIME_M (i_set_ty (kcode KDay) i) y = (y, Ok (mkI (unit_code UDay) (bits clock_takes) (i_before i) (i_dtype i)))) as Mg.
  { intros y. unfold merge_i. cbn [i_set_ty i_fmask i_ty i_before i_dtype]. rewrite M. reflexivity. }
  unfold clock_tok. destruct (k_sign k); cbn [sign_text signed app]; unfold interval_field; cbn [fst snd].
  - rewrite (decode_clock md r _ (k_h k) (k_mi k) (k_s k) (k_us k)) by assumption. cbn [step_bind]. apply Mg.
  - assert (debug_assert md ((43 =? 45) || (43 =? 43)) = Ok tt) as -> by now destruct md. cbv iota.
    cbn [existsb]. rewrite Co, orb_true_r.
    rewrite (decode_clock md r _ (k_h k) (k_mi k) (k_s k) (k_us k)) by assumption. cbn [step_bind].
    change (43 =? 45) with false. cbv iota. cbn [step_bind]. apply Mg.
  - assert (debug_assert md ((45 =? 45) || (45 =? 43)) = Ok tt) as -> by now destruct md. cbv iota.
    cbn [existsb]. rewrite Co, orb_true_r.
    rewrite (decode_clock md r _ (k_h k) (k_mi k) (k_s k) (k_us k)) by assumption. cbn [step_bind].
    change (45 =? 45) with true. cbv iota. unfold put_clock. destruct x as [[s0 mi0 h0 d0 mo0 y0 w0 yd0 ds0] us0].
    cbn [fst set_hour set_min set_sec]. unfold set_hour, set_min, set_sec. cbn [tm_sec tm_min tm_hour tm_mday tm_mon tm_year tm_wday tm_yday tm_isdst].
    rewrite negate_clock_ok by (rng; lia). cbn [step_bind]. apply Mg.
Qed.

(** ** Assembling the interval *)
Lemma carry_gen md x n : fits n x -> 0 <= n <= 12 ->
  exists x', carry_fsec md x = (x', Ok tt) /\ fits 13 x' /\ months_in x' = months_in x /\ days_in x' = days_in x /\ micros_in x' = micros_in x.
Proof.
  intros F Hn. pose proof F as F0. unfold fits, small in F. destruct F as (F1 & F2 & F3 & F4 & F5 & F6 & F7).
  assert (fits 13 x) as F13 by (unfold fits, small; repeat split; lia).
  unfold carry_fsec, nz. destruct (Z.eqb_spec (snd x) 0) as [E|E]; cbn [negb]; [exists x; auto|].
  unfold USECS_PER_SEC. destruct x as [tm us]. cbn [fst snd] in *.
  pose proof (Z.quot_rem' us 1000000) as QR. pose proof (Z.rem_bound_abs us 1000000 ltac:(lia)) as RB.
  set (c := us ÷ 1000000) in *. set (m := Z.rem us 1000000) in *.
  assert (Z.abs c <= 2000) as Bc by (clear - QR RB F7 Hn; clearbody c m; lia). clearbody c m.
  assert (wrap32 c = c) as -> by (apply wrap32_id; rng; lia).
  unfold add32. rewrite ar32_ok by (rng; lia). cbn [step_set s_sec fst snd].
  eexists. split; [reflexivity|]. unfold fits, small, months_in, days_in, micros_in, clock, s_sec. destruct tm. cbn in *.
  repeat split; lia.
Qed.

Lemma negate_gen md x : fits 13 x ->
  exists x', negate_all md x = (x', Ok tt) /\ fits 13 x' /\ months_in x' = - months_in x /\ days_in x' = - days_in x /\ micros_in x' = - micros_in x.
Proof.
  intros F. pose proof (fits_bounds 13 x F ltac:(lia)) as (F1 & F2 & F3 & F4 & F5 & F6 & F7).
  assert (forall v, Z.abs v <= 1352000000 -> neg32 md v = Ok (- v)) as E1.
  { intros v V. unfold neg32. apply ar32_ok. rng. lia. }
  destruct x as [[s mi h d mo y w yd ds] us]. cbn [fst snd tm_sec tm_min tm_hour tm_mday tm_mon tm_year] in *.
  assert (neg64 md us = Ok (- us)) as E4 by (unfold neg64; apply ar64_ok; rng; lia).
  exists (mkTm (- s) (- mi) (- h) (- d) (- mo) (- y) w yd ds, - us). split; [|split].
  - unfold negate_all. cbn [fst snd]. rewrite E4.
    cbv beta iota zeta delta [step_set step_bind s_fsec fst snd tm_sec]. rewrite (E1 s F6).
    cbv beta iota zeta delta [s_sec set_sec fst snd tm_sec tm_min tm_hour tm_mday tm_mon tm_year tm_wday tm_yday tm_isdst]. rewrite (E1 mi F5).
    cbv beta iota zeta delta [s_min set_min fst snd tm_sec tm_min tm_hour tm_mday tm_mon tm_year tm_wday tm_yday tm_isdst]. rewrite (E1 h ltac:(lia)).
    cbv beta iota zeta delta [s_hour set_hour fst snd tm_sec tm_min tm_hour tm_mday tm_mon tm_year tm_wday tm_yday tm_isdst]. rewrite (E1 d F3).
    cbv beta iota zeta delta [s_mday set_mday fst snd tm_sec tm_min tm_hour tm_mday tm_mon tm_year tm_wday tm_yday tm_isdst]. rewrite (E1 mo F2).
    cbv beta iota zeta delta [s_mon set_mon fst snd tm_sec tm_min tm_hour tm_mday tm_mon tm_year tm_wday tm_yday tm_isdst]. rewrite (E1 y F1).
    reflexivity.
  - unfold fits, small. cbn. rewrite !Z.abs_opp. repeat split; lia.
  - unfold months_in, days_in, micros_in, clock. cbn. repeat split; lia.
Qed.

Lemma from_pgtime_gen md x : fits 13 x ->
  interval_from_pgtime md (fst x) (snd x) =
  if (i32_min <=? months_in x) && (months_in x <=? i32_max) then Ok (from_mdt (months_in x) (days_in x) (micros_in x)) else Err EOverflow.
Proof.
  intros F. pose proof (fits_bounds 13 x F ltac:(lia)) as (F1 & F2 & F3 & F4 & F5 & F6 & F7).
  destruct x as [[s mi h d mo y w yd ds] us]. cbn [fst snd tm_sec tm_min tm_hour tm_mday tm_mon tm_year] in *.
  unfold interval_from_pgtime, months_in, days_in, micros_in. cbn [fst snd tm_sec tm_min tm_hour tm_mday tm_mon tm_year].
  assert (rep (fadd (fmul (f64_of_Z y) (f64_of_Z MONTHS_PER_YEAR)) (f64_of_Z mo)) (Rdefinitions.IZR (12 * y + mo))) as R.
  { replace (12 * y + mo) with (y * 12 + mo) by lia. unfold MONTHS_PER_YEAR. apply rep_add_int; [apply rep_mul_int|..]; try apply rep_int; change (2 ^ 53) with 9007199254740992; lia. }
  cbv zeta. set (total := fadd _ _) in *. clearbody total.
  unfold fgt. rewrite (rep_lt_int _ _ i32_max (12 * y + mo)); [|apply rep_int; unfold i32_max; lia|exact R].
  rewrite (rep_lt_int _ _ (12 * y + mo) i32_min); [|exact R|apply rep_int; unfold i32_min; lia].
  destruct (Z.ltb_spec i32_max (12 * y + mo)), (Z.leb_spec i32_min (12 * y + mo)), (Z.leb_spec (12 * y + mo) i32_max), (Z.ltb_spec (12 * y + mo) i32_min);
    try (exfalso; clear - H H0 H1 H2; unfold i32_min, i32_max in *; lia); cbn [orb andb]; try reflexivity.
  rewrite (rep_to_i32 _ (12 * y + mo) R) by (unfold in_i32; lia). clear R H H0 H1 H2.
  unfold mul32, add32, mul64, add64, USECS_PER_SEC. rewrite ar32_ok by (rng; lia). cbn [bind]. rewrite ar32_ok by (rng; lia). cbn [bind].
  rewrite ar64_ok by (rng; lia). cbn [bind]. rewrite ar64_ok by (rng; lia). cbn [bind]. rewrite ar64_ok by (rng; lia). cbn [bind].
  rewrite ar64_ok by (rng; lia). cbn [bind]. unfold clock. reflexivity.
Qed.

(** ** The whole text *)
Definition clock_toks (w : wordy) : list token := match w_clock w with None => [] | Some k => [clock_tok k] end.
Definition ago_toks (w : wordy) : list token := if w_ago w then [(Some KString, [97; 103; 111])] else [].
Definition wordy_toks (w : wordy) : list token := concat (map toks (w_qs w)) ++ clock_toks w ++ ago_toks w.

Definition signs (p : bytes) : bool * bool := match p with c :: _ => (c =? 43, c =? 45) | [] => (false, false) end.
Definition piece_of (p : bytes) (t : token) : Prop := piece p t /\ signs p = signs (snd t) /\ snd t <> [].

Lemma alpha_signs w : forallb is_alpha w = true -> signs w = (false, false).
Proof. destruct w as [|c r]; [reflexivity|]. cbn. intros E. apply andb_prop in E as [E _]. unfold is_alpha, is_upper, is_lower in E. f_equal; lia. Qed.

Lemma quantity_pieces_of q : quantity_ok q -> Forall2 piece_of (quantity_pieces q) (toks q).
Proof.
  intros H. unfold quantity_pieces, toks, word_toks. constructor.
  - split; [now apply number_piece|]. split; [reflexivity|]. destruct (number_piece q H) as [N _]. exact N.
  - destruct H as (_ & W & _). destruct (q_word q) as [w|]; [|constructor]. destruct W as (word & I & C).
    destruct (any_case_facts _ _ C) as (A & L & Ln).
    assert (w <> []) as Nw.
    { intros ->. destruct word; [|discriminate Ln].
      clear - I. cbn in I. unfold unit_words in I. vm_compute in I. repeat (destruct I as [I|I]; [discriminate I|]). exact I. }
    constructor; [split; [now apply piece_word|split; [|destruct w; [easy|discriminate]]]|constructor].
    + cbn [snd]. rewrite (alpha_signs w A). symmetry. apply alpha_signs. clear - A. induction w as [|c w IH]; [reflexivity|]. change (lowers (c :: w)) with (lower c :: lowers w). cbn [forallb] in *.
      apply andb_prop in A as [A B]. rewrite IH by exact B. rewrite andb_true_r. unfold lower. destruct (is_upper c) eqn:U; [|exact A].
      unfold is_alpha, is_upper, is_lower in *. lia.
Qed.

Lemma wordy_pieces_of r w : wordy_ok r w -> Forall2 piece_of (wordy_pieces w) (wordy_toks w).
Proof.
  intros (F & C & _). unfold wordy_pieces, wordy_toks. apply Forall2_app; [|apply Forall2_app].
  - clear C. induction F as [|q qs Hq _ IH]; [constructor|]. cbn [map concat]. apply Forall2_app; [now apply quantity_pieces_of|exact IH].
  - unfold clock_toks. destruct (w_clock w) as [k|]; [|constructor]. constructor; [|constructor]. pose proof (clock_piece r k (C k eq_refl)) as P. split; [exact P|]. split; [reflexivity|]. apply P.
  - unfold ago_toks. destruct (w_ago w); [|constructor]. constructor; [|constructor]. split; [|split; [reflexivity|discriminate]].
    apply (piece_word [97; 103; 111]); [reflexivity|discriminate].
Qed.

Lemma joined_spaced ps : ps <> [] -> 32 :: joined_text ps = spaced ps.
Proof.
  induction ps as [|p ps IH]; [easy|]. intros _. rewrite spaced_cons. destruct ps as [|p' ps]; cbn [joined_text].
  - now rewrite app_nil_r.
  - rewrite <- IH by discriminate. reflexivity.
Qed.

Lemma wordy_nonempty r w : wordy_ok r w -> wordy_pieces w <> [].
Proof.
  intros (_ & _ & N & _). unfold wordy_pieces. destruct (w_qs w) as [|q qs]; [|discriminate].
  destruct (w_clock w); [discriminate|]. destruct N; easy.
Qed.

(** The state before the quantities *)
Definition start_units (w : wordy) : list iunit := match w_clock w with None => [] | Some _ => clock_takes end.

Lemma start_step md r w rest : (forall k, w_clock w = Some k -> clock_ok r k) ->
  exists i x n, interval_fields md (range_code r) (rev (clock_toks w ++ ago_toks w) ++ rest) init_i (tm_new, 0)
      = interval_fields md (range_code r) rest i x
    /\ state_ok n (start_units w) i x /\ i_before i = w_ago w /\ i_dtype i = KDelta
    /\ months_in x = 0 /\ days_in x = 0 /\ micros_in x = match w_clock w with None => 0 | Some k => clock_micros k end
    /\ (forall u, last_unit r w = Some u -> default_unit (i_ty i) (range_code r) = unit_code u).
Proof.
  intros C.
  assert (exists i, i_fmask i = 0 /\ i_before i = w_ago w /\ i_dtype i = KDelta /\ (w_ago w = false -> i_ty i = tt_code IgnoreDtf) /\
    interval_fields md (range_code r) (rev (clock_toks w ++ ago_toks w) ++ rest) init_i (tm_new, 0) =
    interval_fields md (range_code r) (clock_toks w ++ rest) i (tm_new, 0)) as (i & M & B & D & T & ->).
  { unfold ago_toks. destruct (w_ago w).
    - exists (mkI 0 0 true KDelta). repeat (split; [reflexivity||discriminate|]).
      rewrite rev_app_distr. cbn [rev app]. assert (rev (clock_toks w) = clock_toks w) as -> by (unfold clock_toks; destruct (w_clock w); reflexivity).
      set (more := clock_toks w ++ rest). clearbody more.
      cbn [interval_fields]. unfold interval_field at 1. cbn [fst snd].
      assert (decode_units [97; 103; 111] = Ok (AGO, 0)) as -> by (vm_compute; reflexivity). reflexivity.
    - exists init_i. repeat (split; [reflexivity|]). rewrite app_nil_r. unfold clock_toks. destruct (w_clock w); reflexivity. }
  unfold clock_toks, start_units, last_unit. destruct (w_clock w) as [k|].
  - specialize (C k eq_refl). cbn [app interval_fields]. rewrite (clock_step md r k i _ C M). cbn [step_bind].
    eexists. eexists. exists 1. split; [reflexivity|]. cbn [i_before i_dtype i_ty].
    destruct C as (C & Hh & Hm & Hs). pose proof (clock_bounds _ _ _ _ _ _ C) as Bc. split; [|split; [exact B|split; [exact D|]]].
    + split; [reflexivity|]. split; [repeat constructor; cbn; intuition discriminate|]. split; [repeat constructor|]. split; [cbn; lia|].
      unfold fits, small, put_clock. cbn. rewrite !signed_abs. repeat split; lia.
    + unfold months_in, days_in, micros_in, put_clock, clock_micros. cbn. split; [reflexivity|]. split; [reflexivity|]. split.
      * destruct (k_sign k); cbn [signed]; unfold clock; lia.
      * intros u E. injection E as <-. reflexivity.
  - exists i, (tm_new, 0), 0. split; [reflexivity|]. split; [|split; [exact B|split; [exact D|]]].
    + split; [exact M|]. split; [constructor|]. split; [constructor|]. split; [cbn; lia|]. unfold fits, small. cbn. lia.
    + split; [reflexivity|]. split; [reflexivity|]. split; [reflexivity|].
      intros u E. destruct (w_ago w); [discriminate E|]. injection E as <-. rewrite T by reflexivity. destruct r; reflexivity.
Qed.

Lemma takes_rev w : Permutation (wordy_takes w) (start_units w ++ concat (map takes (rev (w_qs w)))).
Proof.
  unfold wordy_takes, start_units. rewrite Permutation_app_comm. apply Permutation_app_head.
  induction (w_qs w) as [|q qs IH]; [reflexivity|]. cbn [map concat rev]. rewrite map_app, concat_app. cbn [map concat]. rewrite app_nil_r.
  rewrite Permutation_app_comm. now apply Permutation_app_tail.
Qed.

Lemma nodup_few w r : wordy_ok r w -> NoDup (wordy_takes w) -> (length (wordy_pieces w) <= 25)%nat.
Proof.
  intros (F & _) N.
  assert (Forall span_unit (concat (map takes (w_qs w))) /\ (length (w_qs w) <= length (concat (map takes (w_qs w))))%nat
    /\ (length (concat (map quantity_pieces (w_qs w))) <= 2 * length (w_qs w))%nat) as (S & L & P).
  { clear N. induction F as [|q qs Hq _ (IH1 & IH2 & IH3)]; [repeat constructor|]. cbn [map concat]. rewrite !app_length.
    destruct (takes_span q Hq) as (T1 & _ & T2). split; [now apply Forall_app|]. cbn [length]. split.
    - destruct (takes q); [easy|]. cbn [length]. lia.
    - unfold quantity_pieces at 1. destruct (q_word q); cbn [length]; lia. }
  unfold wordy_takes in N. assert (Forall span_unit (concat (map takes (w_qs w)) ++ match w_clock w with None => [] | Some _ => clock_takes end)) as S'.
  { apply Forall_app. split; [exact S|]. destruct (w_clock w); repeat constructor. }
  pose proof (span_few _ N S') as K. unfold wordy_pieces. rewrite !app_length in *. destruct (w_clock w), (w_ago w); cbn [length clock_takes] in *; lia.
Qed.

Lemma bits_nonzero L : Forall span_unit L -> L <> [] -> bits L <> 0.
Proof.
  intros F N E. destruct L as [|u L]; [easy|]. assert (has (bits (u :: L)) (bit u) = true) as H.
  { apply has_bits; [exact F|now inversion F|now left]. }
  rewrite E in H. discriminate H.
Qed.

Lemma first_char r w : wordy_ok r w -> exists c t, wordy_text w = c :: t /\ c <> 80.
Proof.
  intros H. pose proof (wordy_nonempty r w H) as N. unfold wordy_text.
  assert (exists c p ps, wordy_pieces w = (c :: p) :: ps /\ c <> 80) as (c & p & ps & -> & Hc).
  { destruct H as (F & C & _). revert N. unfold wordy_pieces. destruct (w_qs w) as [|q qs].
    - cbn [map concat app]. intros N. destruct (w_clock w) as [k|]; cbn [app] in *.
      + destruct (C k eq_refl) as (W & _). destruct (clock_words_time _ _ _ _ _ _ W) as (? & ? & ? & ? & T).
        pose proof (words_head _ _ _ _ _ [] T) as Hd. rewrite app_nil_r in Hd.
        destruct (k_sign k); cbn [sign_text app]; try (do 3 eexists; split; [reflexivity|discriminate]).
        destruct (k_text k) as [|c t]; [easy|]. do 3 eexists. split; [reflexivity|]. intros ->. discriminate Hd.
      + destruct (w_ago w); [|easy]. do 3 eexists. split; [reflexivity|discriminate].
    - intros _. inversion F as [|? ? (P & _) _]; subst. cbn [map concat app quantity_pieces]. unfold number_text.
      destruct (q_sign q); cbn [sign_text app]; try (do 3 eexists; split; [reflexivity|discriminate]).
      pose proof (sd_nonempty _ P) as Ne. pose proof (sd_digits _ P) as D.
      destruct (q_int q) as [|c t]; [easy|]. cbn [app]. do 3 eexists. split; [reflexivity|]. intros ->. discriminate D. }
  destruct ps; cbn; eauto.
Qed.

Lemma lone_tokens ps ts t rest : Forall2 piece_of ps ts -> ts = t :: rest ->
  exists b, starts_minus (snd t) = Ok b /\
    b && negb (existsb starts_sign rest) =
    match ps with (45 :: _) :: more => negb (existsb (fun p => match p with c :: _ => is_sign c | [] => false end) more) | _ => false end.
Proof.
  intros F ->. inversion F as [|p ? ps' ? ([Np _] & S & Nt) F' E1]; subst. clear F.
  destruct p as [|c p]; [easy|]. destruct t as [k f]. cbn [snd] in *. destruct f as [|d f]; [easy|].
  cbn in S. injection S as S1 S2. exists (d =? 45). split; [reflexivity|].
  assert (existsb starts_sign rest = existsb (fun p => match p with c :: _ => is_sign c | [] => false end) ps') as ->.
  { clear - F'. induction F' as [|p t ps ts ([Np _] & S & Nt) _ IH]; [reflexivity|]. cbn [existsb]. rewrite IH. f_equal.
    unfold starts_sign, is_sign. destruct p as [|c p]; [easy|]. destruct (snd t) as [|d f]; [easy|]. cbn in S. injection S as -> ->. apply orb_comm. }
  rewrite <- S2. set (e := existsb _ _). clearbody e. clear. destruct (Z.eqb_spec c 45) as [->|N]; [reflexivity|].
  assert (forall A (a b : A), match c with 45 => a | _ => b end = b) as K.
  { intros. destruct c as [|z|z]; try reflexivity. repeat (destruct z as [z|z|]; try reflexivity). easy. }
  now rewrite K.
Qed.

(** ** Reading *)
Lemma typmod_range r p prec : 0 <= prec <= 65535 -> p = range_code r * 65536 + prec \/ p < 0 /\ r = RFull ->
  (if 0 <=? p then interval_range p else INTERVAL_FULL_RANGE) = range_code r.
Proof.
  intros Hp [->|[H ->]].
  - assert (0 <= range_code r <= 32767) as B by (destruct r; cbn; lia).
    destruct (Z.leb_spec 0 (range_code r * 65536 + prec)); [|lia]. now apply TimeP.range_bits.
  - destruct (Z.leb_spec 0 p); [lia|reflexivity].
Qed.

Section Read.
Variables (md : Base.mode) (st : interval_style) (r : irange) (p prec : Z) (w : wordy).
Hypothesis W : wordy_ok r w.
Hypothesis Hprec : 0 <= prec <= 65535.
Hypothesis Hp : p = range_code r * 65536 + prec \/ p < 0 /\ r = RFull.

Lemma wordy_parse : (length (wordy_pieces w) <= 25)%nat -> parse_date_time (wordy_text w) = Ok (wordy_toks w).
Proof.
  intros L. apply (parse_pieces _ (wordy_pieces w)).
  - apply joined_spaced. now apply (wordy_nonempty r).
  - pose proof (wordy_pieces_of r w W) as F. clear - F. induction F as [|a b la lb [H _] _ IH]; constructor; auto.
  - exact L.
  - apply W.
Qed.

Lemma wordy_rev : rev (wordy_toks w) = rev (clock_toks w ++ ago_toks w) ++ rev (concat (map toks (w_qs w))).
Proof. unfold wordy_toks. apply rev_app_distr. Qed.

Lemma wordy_accepted : (st = ISQLStandard -> lone_minus w = false) -> NoDup (wordy_takes w) ->
  interval_try_from_str md (wordy_text w) p st =
  if (i32_min <=? wordy_months w) && (wordy_months w <=? i32_max)
  then interval_adjust_by_typmod md (from_mdt (wordy_months w) (wordy_days w) (wordy_time w)) p else Err EOverflow.
Proof.
  intros Sq N. unfold interval_try_from_str. rewrite (typmod_range r p prec Hprec Hp).
  rewrite wordy_parse by now apply (nodup_few w r). cbn [bind].
  unfold decode_interval. fold init_i. cbn [fst]. rewrite wordy_rev.
  destruct (start_step md r w (rev (concat (map toks (w_qs w)))) (proj1 (proj2 W))) as (i & x & n & E & St & Bf & Dt & M0 & D0 & T0 & Ty).
  rewrite E. clear E.
  assert (NoDup (start_units w ++ concat (map takes (rev (w_qs w))))) as N' by (eapply Permutation_NoDup; [apply takes_rev|exact N]).
  pose proof W as (Fq & _ & Ne & _ & Ui).
  destruct (quantities_step md (range_code r) (w_qs w) n (start_units w) i x (last_unit r w) Fq St Ui Ty) as [A _].
  destruct (A N') as (x' & i' & n' & E & (Fm & _ & Sp & Bn & Fx) & Bf' & Dt' & M1 & D1 & T1). rewrite E. clear A E.
  cbn [step_bind]. pose proof (span_few _ N' Sp) as Few.
  destruct (Z.eqb_spec (i_fmask i') 0) as [Z0|_].
  { exfalso. rewrite Fm in Z0. revert Z0. apply bits_nonzero; [exact Sp|]. unfold start_units.
    destruct (w_clock w); [discriminate|]. destruct Ne as [Ne|Ne]; [|easy]. cbn [app]. intros E.
    destruct (w_qs w) as [|q qs]; [easy|]. cbn [rev] in E. rewrite map_app, concat_app in E. cbn [map concat] in E. rewrite app_nil_r in E.
    apply app_eq_nil in E as [_ E]. inversion Fq; subst. now apply (takes_span q). }
  destruct (carry_gen md x' n' Fx ltac:(lia)) as (y & E & Fy & M2 & D2 & T2). rewrite E. clear E. cbn [step_bind].
  pose proof (wordy_pieces_of r w W) as FP. destruct (wordy_toks w) as [|t rest] eqn:Et.
  { exfalso. apply (wordy_nonempty r w W). now inversion FP. }
  destruct (lone_tokens _ _ t rest FP eq_refl) as (b & -> & Lo).
  assert ((match st with ISQLStandard => true | _ => false end) && b && negb (existsb starts_sign rest) = false) as ->.
  { assert (b && negb (existsb starts_sign rest) = lone_minus w) as Lo2 by exact Lo. rewrite <- andb_assoc, Lo2. destruct st; try reflexivity. now rewrite Sq. }
  assert (exists z, (if i_before i' then negate_all md y else (y, Ok tt)) = (z, Ok tt) /\ fits 13 z
    /\ months_in z = wordy_months w /\ days_in z = wordy_days w /\ micros_in z = wordy_time w) as (z & Ez & Fz & M3 & D3 & T3).
  { unfold wordy_months, wordy_days, wordy_time. rewrite Bf', Bf. destruct (w_ago w); cbn [sign_of].
    - destruct (negate_gen md y Fy) as (z & Ez & Fz & M3 & D3 & T3). exists z. repeat (split; [assumption|]). repeat split; lia.
    - exists y. repeat (split; [reflexivity||assumption|]). repeat split; lia. }
  destruct st; cbv iota; rewrite Ez; cbn [step_bind]; rewrite Dt', Dt; cbn [bind]; rewrite from_pgtime_gen by exact Fz;
    rewrite M3, D3, T3; destruct ((i32_min <=? wordy_months w) && (wordy_months w <=? i32_max)); reflexivity.
Qed.

Lemma wordy_refused : (length (wordy_pieces w) <= 25)%nat -> ~ NoDup (wordy_takes w) ->
  interval_try_from_str md (wordy_text w) p st = Err EInvalid.
Proof.
  intros L N. unfold interval_try_from_str. rewrite (typmod_range r p prec Hprec Hp).
  rewrite wordy_parse by exact L. cbn [bind].
  unfold decode_interval. fold init_i. cbn [fst]. rewrite wordy_rev.
  destruct (start_step md r w (rev (concat (map toks (w_qs w)))) (proj1 (proj2 W))) as (i & x & n & E & St & Bf & Dt & M0 & D0 & T0 & Ty).
  rewrite E. clear E. pose proof W as (Fq & _ & Ne & _ & Ui).
  destruct (quantities_step md (range_code r) (w_qs w) n (start_units w) i x (last_unit r w) Fq St Ui Ty) as [_ A].
  destruct A as (x' & ->).
  { intros N'. apply N. eapply Permutation_NoDup; [apply Permutation_sym, takes_rev|exact N']. }
  cbn [step_bind]. destruct (first_char r w W) as (c & t & -> & Hc). unfold decode_iso8601_interval.
  apply Z.eqb_neq in Hc. destruct t as [|d t]; [reflexivity|]. now rewrite Hc.
Qed.
End Read.
