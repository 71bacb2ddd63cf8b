(** Intervals in the ISO 8601 notation. *)
From Verif Require Import Model.Parse Spec.Calendar Spec.Ranges Spec.Clock Spec.Text Spec.DateText Spec.TimeText Spec.IntervalS Spec.Keywords
  Spec.DateWords Spec.IntervalWords Spec.IsoText
  Proofs.Arith Proofs.TsP Proofs.IntervalP Proofs.FloatP Proofs.ClockP Proofs.IvTruncP Proofs.DigitsP Proofs.ParseP Proofs.RoundTripP
  Proofs.NumDateP Proofs.ClockTextP Proofs.IvParseP Proofs.IvReadP Proofs.PartsP Proofs.FractP Proofs.IvIsoP Proofs.IvWordsP.
From Coq Require Import Reals Lra.
From Flocq Require Import Core IEEE754.BinarySingleNaN.
From Coq Require Import List ZArith Bool Lia.
From Verif Require Import Spec.Keywords Proofs.IvWordsP.
Import List.
Import ListNotations.
Open Scope Z_scope.

(** ** Numbers *)
Definition f_num (fo : option (list Z)) : Z := match fo with None => 0 | Some f => digits_value f end.
Definition f_len (fo : option (list Z)) : nat := match fo with None => 0 | Some f => length f end.
Definition number_end (r : bytes) : Prop := match r with [] => True | c :: _ => is_digit c = false /\ c <> 46 end.

Lemma str2d_number ds fo r : short_digits ds -> seconds_ok fo -> number_end r ->
  str2d (ds ++ seconds_part fo ++ r) =
  Ok (match fo with None => f64_of_Z (digits_value ds)
      | Some f => fdiv (f64_of_Z (digits_value ds * 10 ^ Z.of_nat (length f) + digits_value f)) (f64_of_Z (10 ^ Z.of_nat (length f))) end, r).
Proof.
  intros P F R. pose proof (sd_digits _ P) as D. pose proof (sd_nonempty _ P) as N. destruct P as [_ L].
  destruct ds as [|d ds]; [easy|].
  assert (is_digit d = true) as Dd by (cbn in D; now apply andb_prop in D).
  unfold str2d. cbn [app]. rewrite eat_ws_cons by (apply digit_not_space; now apply is_digit_iff).
  unfold extract_sign. apply is_digit_iff, digit_not_sign in Dd as [-> ->].
  change (d :: ds ++ seconds_part fo ++ r) with ((d :: ds) ++ seconds_part fo ++ r). unfold eat_digits.
  assert (stops is_digit (seconds_part fo ++ r)) as St.
  { destruct fo; cbn; [reflexivity|]. destruct r; [exact I|]. apply R. }
  assert (stops is_digit r) as Sr by (destruct r; [exact I|apply R]).
  rewrite eat_app by easy.
  unfold blen. destruct (Z.ltb_spec 10 (Z.of_nat (length (d :: ds)))); [lia|].
  destruct fo as [f|]; cbn [seconds_part app].
  - destruct F as [Df Lf]. change (46 =? 46) with true. cbv iota.
    rewrite eat_app by (auto; now apply digits_forallb).
    destruct (Z.ltb_spec 7 (Z.of_nat (length f))); [lia|].
    rewrite !Z.mul_1_r, (dval_value (d :: ds)), dval_acc. destruct f; [cbn in Lf; lia|reflexivity].
  - destruct r as [|c r].
    + change (7 <? Z.of_nat (length (@nil Z))) with false. cbv iota. now rewrite dval_value, Z.mul_1_r.
    + destruct R as [_ R]. destruct (Z.eqb_spec c 46); [easy|].
      change (7 <? Z.of_nat (length (@nil Z))) with false. cbv iota. now rewrite dval_value, Z.mul_1_r.
Qed.

Lemma rnd_quarter m : Z.abs m < 2 ^ 53 -> rnd (IZR m / 4) = (IZR m / 4)%R.
Proof.
  intros H. apply rnd_id. replace (IZR m / 4)%R with (F2R (Float radix2 m (-2))) by (unfold F2R, Rdiv; cbn [Fnum Fexp]; f_equal; cbn; f_equal; lra).
  destruct (Z.eq_dec m 0) as [->|Nz]; [unfold F2R; cbn; rewrite Rmult_0_l; apply generic_format_0|].
  apply generic_format_F2R. intros _. cbn [Fnum Fexp]. unfold cexp, fx, SpecFloat.fexp, SpecFloat.emin. 
  rewrite mag_F2R by exact Nz.
  assert (mag radix2 (IZR m) <= 53)%Z.
  { apply mag_le_bpow; [apply IZR_neq; exact Nz|]. rewrite <- abs_IZR. rewrite <- IZR_Zpower by lia. apply IZR_lt. exact H. }
  lia.
Qed.

Lemma iso_value ds fo r : short_digits ds -> seconds_ok fo -> number_end r ->
  exists f, parse_iso8601_number (ds ++ seconds_part fo ++ r) = Ok (digits_value ds, f, r)
    /\ close f (IZR (f_num fo) / IZR (10 ^ Z.of_nat (f_len fo))) ((IZR (digits_value ds) + 4) / 9000000000000000)
    /\ (digits_value ds = 0 \/ (exists j, 4 * f_num fo = j * 10 ^ Z.of_nat (f_len fo)) ->
        rep f (rnd (IZR (f_num fo) / IZR (10 ^ Z.of_nat (f_len fo)))))
    /\ (fnz f = false -> f_num fo = 0) /\ 0 <= f_num fo < 10 ^ Z.of_nat (f_len fo) /\ (f_len fo <= 6)%nat.
Proof.
  intros Pd F Er. pose proof (str2d_number ds fo r Pd F Er) as S2. pose proof (sd_value _ Pd) as Bv.
  pose proof (sd_digits _ Pd) as Dd. pose proof (sd_nonempty _ Pd) as Nd.
  assert (0 <= f_num fo < 10 ^ Z.of_nat (f_len fo)) as BN.
  { destruct fo as [f|]; [|cbn; lia]. destruct F as [F _]. apply digits_value_bound in F. exact F. }
  assert (f_len fo <= 6)%nat as Bk by (destruct fo; cbn in F |- *; lia).
  assert (10 ^ Z.of_nat (f_len fo) <= 10 ^ 6) as P6 by (apply Z.pow_le_mono_r; lia). change (10 ^ 6) with 1000000 in P6.
  set (v := digits_value ds) in *. clearbody v.
  assert (exists w, str2d (ds ++ seconds_part fo ++ r) = Ok (w, r) /\ rep w (rnd (IZR v + IZR (f_num fo) / IZR (10 ^ Z.of_nat (f_len fo))))) as (w & Ew & Rw).
  { eexists. split; [exact S2|]. destruct fo as [f|]; cbn [f_num f_len] in *.
    - destruct F as [_ F].
      pose proof (rep_frac (v * 10 ^ Z.of_nat (length f) + digits_value f) (length f)) as R.
      replace (IZR v + IZR (digits_value f) / IZR (10 ^ Z.of_nat (length f)))%R
        with (IZR (v * 10 ^ Z.of_nat (length f) + digits_value f) / IZR (10 ^ Z.of_nat (length f)))%R.
      + apply R; [change (2 ^ 53) with 9007199254740992; nia|lia].
      + rewrite plus_IZR, mult_IZR. field. apply not_0_IZR. lia.
    - replace (IZR v + IZR 0 / IZR (10 ^ Z.of_nat 0))%R with (IZR v) by (change (10 ^ Z.of_nat 0) with 1; field).
      rewrite rnd_int by (change (2 ^ 53) with 9007199254740992; lia). apply rep_int. change (2 ^ 53) with 9007199254740992; lia. }
  clear S2. set (N := f_num fo) in *. set (k := f_len fo) in *. set (P := 10 ^ Z.of_nat k) in *. clearbody N.
  assert (1 <= IZR P <= 1000000)%R as RP by (split; apply IZR_le; lia). clearbody P.
  assert (0 <= IZR v <= 999999999)%R as Rv by (split; apply IZR_le; lia).
  assert (0 < / IZR P)%R as IP by (apply Rinv_0_lt_compat; lra).
  assert (IZR P * / IZR P = 1)%R as IP1 by (apply Rinv_r; lra).
  assert (/ 1000000 <= / IZR P)%R as IP2 by (apply Rinv_le_contravar; lra).
  assert (0 <= IZR N <= IZR P - 1)%R as RN by (rewrite <- minus_IZR; split; apply IZR_le; lia).
  assert (0 <= IZR N / IZR P <= 1 - 1 / 1000000)%R as Bq by (unfold Rdiv; split; nra).
  assert (N <> 0 -> (1 / 1000000 <= IZR N / IZR P)%R) as Bq'.
  { intros Nz. assert (1 <= IZR N)%R by (apply IZR_le; lia). unfold Rdiv. nra. }
  set (a := (IZR N / IZR P)%R) in *.
  pose proof (rnd_close (IZR v + a) (IZR v + 1) ltac:(apply rabs_le; lra)) as H. unfold eps in H. apply of_rabs in H.
  assert (N = 0 -> rnd (IZR v + a) = IZR v) as R0.
  { intros N0. unfold a. rewrite N0. replace (IZR v + 0 / IZR P)%R with (IZR v) by (field; lra). apply rnd_int. change (2 ^ 53) with 9007199254740992; lia. }
  assert (IZR v <= rnd (IZR v + a) < IZR v + 1)%R as Bx.
  { destruct (Z.eq_dec N 0) as [N0|N0]; [rewrite (R0 N0); lra|]. specialize (Bq' N0). lra. }
  assert (rep (fsub w (f64_of_Z v)) (rnd (rnd (IZR v + a) - IZR v))) as Rf.
  { apply rep_sub; [exact Rw|apply rep_int; change (2 ^ 53) with 9007199254740992; lia|]. apply big_bound, rabs_le. lra. }
  pose proof (rnd_close (rnd (IZR v + a) - IZR v) 2 ltac:(apply rabs_le; lra)) as H2. unfold eps in H2. apply of_rabs in H2.
  exists (fsub w (f64_of_Z v)). split; [|split; [|split; [|split; [|split; [exact BN|exact Bk]]]]].
  - apply (iso_number _ w (rnd (IZR v + a))); auto.
    + lra.
    + apply Zfloor_imp. rewrite plus_IZR. lra.
    + apply Rle_trans with 1000000000%R; [lra|]. apply IZR_le. vm_compute. discriminate.
    + destruct ds as [|d ds]; [easy|]. cbn in Dd |- *. now apply andb_prop in Dd.
    + rewrite !app_length. destruct ds; [easy|]. cbn [length]. lia.
  - exists (rnd (rnd (IZR v + a) - IZR v)). split; [exact Rf|]. apply rabs_le. lra.
  - intros [V0|(j & Ej)].
    + replace (rnd a) with (rnd (rnd (IZR v + a) - IZR v)); [exact Rf|]. rewrite V0. rewrite Rplus_0_l, Rminus_0_r.
      apply rnd_id. apply generic_format_round; [apply fexp_correct; reflexivity|apply valid_rnd_N].
    + assert (a = IZR j / 4)%R as Ea.
      { unfold a. assert (4 * IZR N = IZR j * IZR P)%R as Q by (rewrite <- !mult_IZR; now f_equal).
        apply Rmult_eq_reg_r with (IZR P); [|lra]. field_simplify; lra. }
      assert (0 <= j < 4) as Bj by nia.
      assert (rnd (IZR v + a) = IZR v + a)%R as E1.
      { rewrite Ea. replace (IZR v + IZR j / 4)%R with (IZR (4 * v + j) / 4)%R by (rewrite plus_IZR, mult_IZR; field).
        apply rnd_quarter. change (2 ^ 53) with 9007199254740992; lia. }
      rewrite E1 in Rf. replace (IZR v + a - IZR v)%R with a in Rf by ring. exact Rf.
  - intros Nz. unfold fnz in Nz. rewrite (rep_eq _ _ _ _ Rf rep_f0) in Nz. apply negb_false_iff in Nz.
    destruct (Req_bool_spec (rnd (rnd (IZR v + a) - IZR v)) 0) as [Z0|]; [|discriminate Nz].
    destruct (Z.eq_dec N 0) as [N0|N0]; [exact N0|]. specialize (Bq' N0). lra.
Qed.

(** Whole parts of scaled fractions *)
Lemma trunc_close f e N k S : scale S -> close f (IZR N / IZR (10 ^ Z.of_nat k)) e -> (0 <= e)%R -> (e * IZR S <= 9 / 100000000)%R ->
  (k <= 6)%nat -> 0 <= N < 10 ^ Z.of_nat k ->
  (Z.rem (S * N) (10 ^ Z.of_nat k) = 0 -> rep f (rnd (IZR N / IZR (10 ^ Z.of_nat k)))) ->
  f64_to_i32 (fmul f (f64_of_Z S)) = Z.quot (S * N) (10 ^ Z.of_nat k) /\ 0 <= Z.quot (S * N) (10 ^ Z.of_nat k) <= 30.
Proof.
  intros HS C Be BeS Hk HN HR. pose proof (pow10_pos k) as Pk. pose proof (scale_bounds S HS) as BS.
  assert (10 ^ Z.of_nat k <= 10 ^ 6) as P6 by (apply Z.pow_le_mono_r; lia). change (10 ^ 6) with 1000000 in P6.
  set (P := 10 ^ Z.of_nat k) in *. clearbody P. clear Hk k.
  assert (7 <= IZR S <= 30)%R as RS by (split; apply IZR_le; lia).
  assert (1 <= IZR P <= 1000000)%R as RP by (split; apply IZR_le; lia).
  assert (0 < / IZR P)%R as IP by (apply Rinv_0_lt_compat; lra).
  assert (IZR P * / IZR P = 1)%R as IP1 by (apply Rinv_r; lra).
  assert (/ 1000000 <= / IZR P)%R as IP2 by (apply Rinv_le_contravar; lra).
  assert (0 <= IZR N <= IZR P)%R as RN by (split; apply IZR_le; lia).
  assert (0 <= IZR N / IZR P <= 1)%R as Bq by (unfold Rdiv; split; nra).
  rewrite Z.quot_div_nonneg by lia. rewrite Z.rem_mod_nonneg in HR by lia.
  pose proof (Z.div_mod (S * N) P ltac:(lia)) as DM. pose proof (Z.mod_pos_bound (S * N) P ltac:(lia)) as BM.
  assert (0 <= S * N / P < S) as Bd by (split; [apply Z.div_pos; lia|apply Z.div_lt_upper_bound; nia]).
  split; [|lia].
  assert (exists v, rep (fmul f (f64_of_Z S)) v /\ Ztrunc v = S * N / P) as (v & R1 & T).
  { destruct (Z.eq_dec ((S * N) mod P) 0) as [M0|M0].
    - specialize (HR M0). exists (rnd (rnd (IZR N / IZR P) * IZR S)). split.
      + apply rep_mul; [exact HR|apply rep_int; change (2 ^ 53) with 9007199254740992; lia|].
        pose proof (rnd_close (IZR N / IZR P) 1 ltac:(apply rabs_le; lra)) as H. unfold eps in H. apply of_rabs in H.
        apply big_bound, rabs_le. nra.
      + rewrite trunc_scale_pos by (auto; lia). apply Z.quot_div_nonneg; lia.
    - assert (-30 <= IZR N / IZR P * IZR S <= 30)%R as Ba by nra.
      assert (close (fmul f (f64_of_Z S)) (IZR N / IZR P * IZR S) (1 / 10000000)) as (v & R1 & Hv).
      { eapply close_weaken; [apply (close_mul f _ _ S 31 C); [lia| |lra]|]; unfold eps; lra. }
      exists v. split; [exact R1|].
      set (d := S * N / P) in *. set (m := (S * N) mod P) in *. clearbody d m.
      assert (IZR N / IZR P * IZR S = IZR d + IZR m / IZR P)%R as Q.
      { assert (IZR S * IZR N = IZR P * IZR d + IZR m)%R as Q by (rewrite <- !mult_IZR, <- plus_IZR; f_equal; lia).
        apply Rmult_eq_reg_r with (IZR P); [|lra]. field_simplify; lra. }
      assert (1 <= IZR m <= IZR P - 1)%R as Rm by (rewrite <- minus_IZR; split; apply IZR_le; lia).
      assert (1 / 1000000 <= IZR m / IZR P <= 1 - 1 / 1000000)%R as Bm by (unfold Rdiv; split; nra).
      apply trunc_apart with (IZR N / IZR P * IZR S)%R; [rewrite Q; lra|exact Hv|lia]. }
  unfold f64_to_i32. rewrite (rep_to_int i32_min i32_max _ _) with (2 := R1) by (vm_compute; intuition discriminate).
  rewrite T. unfold i32_min, i32_max. lia.
Qed.

(** ** What a fraction adds *)
Definition read_as (v : Z) (f : f64) (N : Z) (k : nat) : Prop :=
  close f (IZR N / IZR (10 ^ Z.of_nat k)) ((IZR v + 4) / 9000000000000000)
  /\ (v = 0 \/ (exists j, 4 * N = j * 10 ^ Z.of_nat k) -> rep f (rnd (IZR N / IZR (10 ^ Z.of_nat k))))
  /\ (fnz f = false -> N = 0) /\ 0 <= N < 10 ^ Z.of_nat k /\ (k <= 6)%nat.

Lemma read_zero v f k : read_as v f 0 k -> rep f (IZR 0).
Proof.
  intros (_ & R & _ & _ & _). specialize (R ltac:(right; exists 0; lia)). pose proof (pow10_pos k).
  replace (IZR 0 / IZR (10 ^ Z.of_nat k))%R with (IZR 0) in R by (field; apply not_0_IZR; lia). rewrite rnd_int in R by (vm_compute; discriminate). exact R.
Qed.

Lemma iso_seconds md v f N k S x : read_as v f N k -> 0 <= v -> N = 0 \/ v * S <= 1000000000 ->
  1 <= S <= 86400 -> Z.abs (tm_sec (fst x)) <= 2000000000 -> Z.abs (snd x) <= 2000000000 ->
  exists q r, fract_secs md f S x = Ok (shift 0 0 0 0 0 q r x)
    /\ q * 1000000 + r = N * (S * 1000000) / 10 ^ Z.of_nat k /\ Z.abs q <= 100000 /\ Z.abs r <= 3000000.
Proof.
  intros RA Hv Hs HS B1 B2. destruct (Z.eq_dec N 0) as [->|Nz].
  - exists 0, 0. rewrite shift_0. split; [apply fract_secs_zero; now apply (read_zero v _ k)|]. split; [|lia].
    symmetry. apply Z.div_0_l. pose proof (pow10_pos k). lia.
  - destruct RA as (C & _ & _ & BN & Bk). destruct Hs as [|Hs]; [easy|].
    assert (0 <= IZR v)%R by (apply IZR_le; lia). assert (1 <= IZR S <= 86400)%R by (split; apply IZR_le; lia).
    assert (IZR v * IZR S <= 1000000000)%R by (rewrite <- mult_IZR; apply IZR_le; lia).
    destruct (seconds_close md f _ N k S x C ltac:(lra) ltac:(lra) Bk ltac:(lia) HS B1 B2) as (q & r & E & Q).
    exists q, r. split; [|exact Q]. unfold fract_secs. now rewrite E.
Qed.

Lemma iso_days_part md v f N k S x : read_as v f N k -> 0 <= v -> S = 7 \/ S = 30 -> 
  N = 0 \/ v * (S * 86400) <= 1000000000 /\ (S = 30 -> month_fraction v N (10 ^ Z.of_nat k)) ->
  Z.abs (tm_mday (fst x)) <= 2000000000 -> Z.abs (tm_sec (fst x)) <= 2000000000 -> Z.abs (snd x) <= 2000000000 ->
  exists d q r, fract_days md f S x = Ok (shift 0 0 d 0 0 q r x) /\ d = Z.quot (S * N) (10 ^ Z.of_nat k)
    /\ q * 1000000 + r = Z.rem (S * N) (10 ^ Z.of_nat k) * usecs_day / 10 ^ Z.of_nat k /\ Z.abs q <= 100000 /\ Z.abs r <= 3000000 /\ Z.abs d <= 30.
Proof.
  intros RA Hv HS H B1 B2 B3. pose proof (pow10_pos k) as Pk. destruct (Z.eq_dec N 0) as [->|Nz].
  - exists 0, 0, 0. rewrite shift_0, Z.mul_0_r, Z.quot_0_l, Z.rem_0_l by lia. split; [apply fract_days_zero; now apply (read_zero v _ k)|]. split; [lia|].
    split; [|lia]. symmetry. apply Z.div_0_l. lia.
  - destruct H as [|[Hs Hm]]; [easy|]. destruct RA as (C & Rx & Nf & BN & Bk).
    assert (0 <= IZR v)%R by (apply IZR_le; lia). assert (IZR S = 7 \/ IZR S = 30)%R as RS by (destruct HS as [->| ->]; auto).
    assert (IZR v * (IZR S * 86400) <= 1000000000)%R by (rewrite <- !mult_IZR; apply IZR_le; lia).
    assert ((IZR v + 4) / 9000000000000000 * IZR S <= 2 / 1000000000000)%R as Be by (destruct RS as [RE|RE]; rewrite RE in *; lra).
    assert (Z.rem (S * N) (10 ^ Z.of_nat k) = 0 -> rep f (rnd (IZR N / IZR (10 ^ Z.of_nat k)))) as HR.
    { intros R0. apply Rx. destruct HS as [->| ->].
      - exfalso. pose proof (Z.quot_rem' (7 * N) (10 ^ Z.of_nat k)) as Q. rewrite R0 in Q. clear - Q Nz BN Bk.
        set (d := Z.quot _ _) in Q. clearbody d.
        do 7 (destruct k as [|k]; [cbn in Q, BN; lia|]). lia.
      - destruct (Hm eq_refl) as [V0|[M2|[M2|M2]]]; [now left| |easy|easy]. right. exists 2. lia. }
    destruct (trunc_close f _ N k S ltac:(unfold scale; lia) C ltac:(lra) ltac:(lra) Bk BN HR) as [T BT].
    destruct (days_result_of md f N k S x Bk ltac:(lia) HS) as (q & r & E & Q).
    { destruct x as [tm us]. apply (adjust_days_close md f _ N k S tm us C); auto; try lra. lia. }
    exists (Z.quot (S * N) (10 ^ Z.of_nat k)), q, r. split; [unfold fract_days; now rewrite E|]. split; [reflexivity|exact Q].
Qed.

Lemma iso_months_part v f N k : read_as v f N k -> 0 <= v -> N = 0 \/ v * 100 <= 1000000000 ->
  exists m, f64_to_i32 (fmul f (f64_of_Z MONTHS_PER_YEAR)) = m /\ m = Z.quot (12 * N) (10 ^ Z.of_nat k) /\ 0 <= m <= 30.
Proof.
  intros RA Hv H. pose proof (pow10_pos k) as Pk. exists (Z.quot (12 * N) (10 ^ Z.of_nat k)). destruct (Z.eq_dec N 0) as [->|Nz].
  - rewrite Z.mul_0_r, Z.quot_0_l by lia. split; [|lia]. apply year_frac_zero. now apply (read_zero v _ k).
  - destruct H as [|H]; [easy|]. destruct RA as (C & Rx & _ & BN & Bk).
    assert (0 <= IZR v)%R by (apply IZR_le; lia). assert (IZR v * 100 <= 1000000000)%R by (rewrite <- mult_IZR; apply IZR_le; lia).
    assert (Z.rem (12 * N) (10 ^ Z.of_nat k) = 0 -> rep f (rnd (IZR N / IZR (10 ^ Z.of_nat k)))) as HR.
    { intros R0. apply Rx. right. pose proof (Z.quot_rem' (12 * N) (10 ^ Z.of_nat k)) as Q. rewrite R0 in Q. clear - Q Nz BN Bk.
      set (d := Z.quot _ _) in Q. clearbody d. exists (d / 3).
      do 7 (destruct k as [|k]; [cbn in Q, BN |- *; lia|]). lia. }
    destruct (trunc_close f _ N k 12 ltac:(unfold scale; lia) C ltac:(lra) ltac:(lra) Bk BN HR) as [T BT].
    split; [exact T|]. split; [reflexivity|lia].
Qed.

(** ** Amounts *)
Definition letter_of (dp : bool) : iunit -> option Z := if dp then date_letter else time_letter.

Lemma amount_value a r : amount_ok a -> number_end r ->
  exists f, parse_iso8601_number (a_int a ++ seconds_part (a_frac a) ++ r) = Ok (digits_value (a_int a), f, r)
    /\ read_as (digits_value (a_int a)) f (f_num (a_frac a)) (f_len (a_frac a))
    /\ (f_num (a_frac a) = 0 \/ digits_value (a_int a) * frac_weight (a_unit a) <= 1000000000
          /\ (a_unit a = UMonth -> month_fraction (digits_value (a_int a)) (f_num (a_frac a)) (10 ^ Z.of_nat (f_len (a_frac a))))).
Proof.
  intros (P & _ & F) E. destruct (iso_value (a_int a) (a_frac a) r P) as (f & R & H); auto.
  - destruct (a_frac a); cbn; [tauto|exact I].
  - exists f. split; [exact R|]. split; [exact H|]. destruct (a_frac a) as [t|]; [right|now left]. cbn [f_num f_len]. tauto.
Qed.

Lemma amount_text_split letter a c r : letter (a_unit a) = Some c -> amount_text letter a ++ r = a_int a ++ seconds_part (a_frac a) ++ c :: r.
Proof.
  intros E. unfold amount_text. rewrite E. rewrite <- !app_assoc. now destruct (a_frac a).
Qed.

Lemma letter_end dp u c r : letter_of dp u = Some c -> number_end (c :: r).
Proof. destruct dp, u; cbn; intros E; try discriminate E; injection E as <-; split; (reflexivity || discriminate). Qed.

Ltac getv H := destruct H as (?q & ?r & ?Ea & ?Eq & ?B1 & ?B2).

Lemma amount_step md dp a fuel hf x n r : amount_ok a -> letter_of dp (a_unit a) <> None -> fits n x -> 0 <= n <= 12 ->
  exists dy dmo dd dh dmi ds dus,
    iso_loop md (S fuel) (amount_text (letter_of dp) a ++ r) dp hf x = iso_loop md fuel r dp true (shift dy dmo dd dh dmi ds dus x)
    /\ effect (as_quantity a) dy dmo dd dh dmi ds dus.
Proof.
  intros H L F Hn. pose proof (fits_bounds n x F ltac:(lia)) as (Fy & Fmo & Fd & Fh & Fmi & Fs & Fus).
  destruct (letter_of dp (a_unit a)) as [c|] eqn:El; [|easy]. clear L.
  rewrite (amount_text_split _ a c r El). pose proof (letter_end dp _ c r El) as Le.
  destruct (amount_value a (c :: r) H Le) as (f & E & RA & W).
  destruct H as (P & Bw & _). pose proof (sd_value _ P) as Bv. pose proof (sd_digits _ P) as D. pose proof (sd_nonempty _ P) as Nn.
  assert (match a_int a ++ seconds_part (a_frac a) ++ c :: r with [] => False | c0 :: _ => (c0 =? 84) = false end) as H84.
  { destruct (a_int a) as [|d t]; [easy|]. cbn in D |- *. apply andb_prop in D as [D _]. unfold is_digit in D. lia. }
  destruct (a_int a ++ seconds_part (a_frac a) ++ c :: r) as [|c0 t] eqn:Et; [easy|].
  cbn [iso_loop]. rewrite H84. rewrite E. cbn [bind].
  unfold effect, q_months, q_days, q_micros, pow10.
  change (q_val (as_quantity a)) with (digits_value (a_int a)). change (q_unit (as_quantity a)) with (a_unit a).
  change (q_num (as_quantity a)) with (f_num (a_frac a)). change (q_len (as_quantity a)) with (f_len (a_frac a)).
  set (v := digits_value (a_int a)) in *. set (N := f_num (a_frac a)) in *. set (k := f_len (a_frac a)) in *. clearbody v N k.
  clear E Et H84 D Nn P.
  destruct dp; cbn [letter_of date_letter time_letter] in El.
  - destruct (a_unit a) eqn:Eu; try discriminate El; injection El as <-; cbn [weight frac_weight] in Bw, W;
      cbn [unit_months unit_days unit_micros part_months part_days part_micros].
    + (* days *)
      change (68 =? 89) with false. change (68 =? 77) with false. change (68 =? 87) with false. change (68 =? 68) with true. cbv iota.
      unfold add_mday. rewrite add32_small by lia. cbn [upd bind]. rewrite s_mday_shift.
      destruct (iso_seconds md v f N k SECS_PER_DAY (shift 0 0 v 0 0 0 0 x) RA ltac:(lia) ltac:(unfold SECS_PER_DAY; tauto) ltac:(vm_compute; intuition discriminate)
        ltac:(cbn; lia) ltac:(cbn; lia)) as (q & u & Ea & Eq & B1 & B2).
      rewrite Ea. cbn [bind]. rewrite shift_add. change (SECS_PER_DAY * 1000000) with usecs_day in Eq. rewrite <- Eq. clear Eq Ea RA W. finish.
    + (* weeks *)
      change (87 =? 89) with false. change (87 =? 77) with false. change (87 =? 87) with true. cbv iota.
      rewrite mul32_small by lia. cbn [bind]. unfold add_mday. rewrite add32_small by lia. cbn [upd bind]. rewrite s_mday_shift.
      destruct (iso_days_part md v f N k 7 (shift 0 0 (v * 7) 0 0 0 0 x) RA ltac:(lia) ltac:(lia)) as (d & q & u & Ea & Ed & Eq & B1 & B2 & B3);
        [destruct W as [W|[W _]]; [now left|right; split; [lia|discriminate]]|cbn; lia..|].
      rewrite Ea. cbn [bind]. rewrite shift_add, <- Eq, <- Ed. clear Eq Ea Ed RA W. finish.
    + (* months *)
      change (77 =? 89) with false. change (77 =? 77) with true. cbv iota.
      unfold add_mon. rewrite add32_small by lia. cbn [upd bind]. rewrite s_mon_shift.
      destruct (iso_days_part md v f N k DAYS_PER_MONTH (shift 0 v 0 0 0 0 0 x) RA ltac:(lia) ltac:(vm_compute; auto)) as (d & q & u & Ea & Ed & Eq & B1 & B2 & B3);
        [destruct W as [W|[W W2]]; [now left|right; split; [unfold DAYS_PER_MONTH; lia|intros _; exact (W2 eq_refl)]]|cbn; lia..|].
      rewrite Ea. cbn [bind]. unfold DAYS_PER_MONTH in *. rewrite shift_add, <- Eq, <- Ed. clear Eq Ea Ed RA W. finish.
    + (* years *)
      change (89 =? 89) with true. cbv iota.
      unfold add_year. rewrite add32_small by lia. cbn [upd bind]. rewrite s_year_shift.
      destruct (iso_months_part v f N k RA ltac:(lia) ltac:(tauto)) as (m & -> & Em & Bm).
      unfold add_mon. rewrite add32_small by (cbn; lia). cbn [upd bind]. rewrite s_mon_shift, shift_add, <- Em. clear Em RA W. finish.
  - destruct (a_unit a) eqn:Eu; try discriminate El; injection El as <-; cbn [weight frac_weight] in Bw, W;
      cbn [unit_months unit_days unit_micros part_months part_days part_micros].
    + (* seconds *)
      change (83 =? 72) with false. change (83 =? 77) with false. change (83 =? 83) with true. cbv iota.
      unfold add_sec. rewrite add32_small by lia. cbn [upd bind]. rewrite s_sec_shift.
      destruct (iso_seconds md v f N k 1 (shift 0 0 0 0 0 v 0 x) RA ltac:(lia) ltac:(tauto) ltac:(lia)
        ltac:(cbn; lia) ltac:(cbn; lia)) as (q & u & Ea & Eq & B1 & B2).
      rewrite Ea. cbn [bind]. rewrite shift_add. change (1 * 1000000) with 1000000 in Eq. rewrite <- Eq. clear Eq Ea RA W. finish.
    + (* minutes *)
      change (77 =? 72) with false. change (77 =? 77) with true. cbv iota.
      unfold add_min. rewrite add32_small by lia. cbn [upd bind]. rewrite s_min_shift.
      destruct (iso_seconds md v f N k SECS_PER_MINUTE (shift 0 0 0 0 v 0 0 x) RA ltac:(lia) ltac:(unfold SECS_PER_MINUTE; tauto) ltac:(vm_compute; intuition discriminate)
        ltac:(cbn; lia) ltac:(cbn; lia)) as (q & u & Ea & Eq & B1 & B2).
      rewrite Ea. cbn [bind]. rewrite shift_add. change (SECS_PER_MINUTE * 1000000) with 60000000 in Eq. rewrite <- Eq. clear Eq Ea RA W. finish.
    + (* hours *)
      change (72 =? 72) with true. cbv iota.
      unfold add_hour. rewrite add32_small by lia. cbn [upd bind]. rewrite s_hour_shift.
      destruct (iso_seconds md v f N k SECS_PER_HOUR (shift 0 0 0 v 0 0 0 x) RA ltac:(lia) ltac:(unfold SECS_PER_HOUR; tauto) ltac:(vm_compute; intuition discriminate)
        ltac:(cbn; lia) ltac:(cbn; lia)) as (q & u & Ea & Eq & B1 & B2).
      rewrite Ea. cbn [bind]. rewrite shift_add. change (SECS_PER_HOUR * 1000000) with 3600000000 in Eq. rewrite <- Eq. clear Eq Ea RA W. finish.
Qed.

Lemma effect_fits q dy dmo dd dh dmi ds dus n x : effect q dy dmo dd dh dmi ds dus -> fits n x -> 0 <= n ->
  fits (n + 1) (shift dy dmo dd dh dmi ds dus x)
  /\ months_in (shift dy dmo dd dh dmi ds dus x) = months_in x + q_months q
  /\ days_in (shift dy dmo dd dh dmi ds dus x) = days_in x + q_days q
  /\ micros_in (shift dy dmo dd dh dmi ds dus x) = micros_in x + q_micros q.
Proof.
  intros (E1 & E2 & E3 & B1 & B2 & B3 & B4 & B5 & B6 & B7) F Hn. destruct x as [[s mi h d mo y w yd is] us].
  unfold fits, small, months_in, days_in, micros_in, clock, shift in *. cbn [fst snd tm_sec tm_min tm_hour tm_mday tm_mon tm_year] in *.
  destruct F as (F1 & F2 & F3 & F4 & F5 & F6 & F7).
  split; [|split; [clear - E1; lia|split; [clear - E2; lia|clear - E3; lia]]].
  split; [clear - F1 B1; lia|]. split; [clear - F2 B2; lia|]. split; [clear - F3 B3; lia|]. split; [clear - F4 B4; lia|].
  split; [clear - F5 B5; lia|]. split; [clear - F6 B6; lia|]. clear - F7 B7; lia.
Qed.

Lemma amount_len letter a : amount_ok a -> (1 <= length (amount_text letter a))%nat.
Proof. intros (P & _). destruct P as [_ L]. unfold amount_text. rewrite app_length. lia. Qed.

Lemma amounts_steps md dp : forall l n x hf fuel r, Forall amount_ok l -> Forall (fun a => letter_of dp (a_unit a) <> None) l ->
  fits n x -> 0 <= n -> n + Z.of_nat (length l) <= 13 -> (length (concat (map (amount_text (letter_of dp)) l) ++ r) < fuel)%nat ->
  exists fuel' hf' x', (length r < fuel')%nat
    /\ iso_loop md fuel (concat (map (amount_text (letter_of dp)) l) ++ r) dp hf x = iso_loop md fuel' r dp hf' x'
    /\ fits (n + Z.of_nat (length l)) x' /\ months_in x' = months_in x + half_total q_months l
    /\ days_in x' = days_in x + half_total q_days l /\ micros_in x' = micros_in x + half_total q_micros l.
Proof.
  induction l as [|a l IH]; intros n x hf fuel r F1 F2 F Hn Hl L.
  - exists fuel, hf, x. cbn in *. rewrite !Z.add_0_r. auto 10.
  - inversion F1 as [|? ? A1 A2]; subst. inversion F2 as [|? ? L1 L2]; subst. cbn [map concat] in *. rewrite <- app_assoc in *.
    pose proof (amount_len (letter_of dp) a A1) as La. rewrite app_length in L. cbn [length] in Hl.
    destruct fuel as [|fuel]; [lia|].
    destruct (amount_step md dp a fuel hf x n (concat (map (amount_text (letter_of dp)) l) ++ r) A1 L1 F ltac:(lia)) as (dy & dmo & dd & dh & dmi & ds & dus & E & Ef).
    rewrite E. destruct (effect_fits _ _ _ _ _ _ _ _ n x Ef F Hn) as (F' & M & D & T).
    destruct (IH (n + 1) _ true fuel r A2 L2 F' ltac:(lia) ltac:(lia) ltac:(lia)) as (fuel' & hf' & x' & Lf & E' & F'' & M' & D' & T').
    exists fuel', hf', x'. split; [exact Lf|]. split; [exact E'|]. cbn [length]. split; [replace (n + Z.of_nat (S (length l))) with (n + 1 + Z.of_nat (length l)) by lia; exact F''|].
    unfold half_total, total in *. cbn [map fold_right]. lia.
Qed.

(** ** The alternative format *)
Lemma iso_plain ds r : short_digits ds -> number_end r ->
  exists z, parse_iso8601_number (ds ++ r) = Ok (digits_value ds, z, r) /\ rep z (IZR 0).
Proof.
  intros P E. destruct (iso_value ds None r P I E) as (z & R & H). exists z. split; [exact R|].
  now apply (read_zero (digits_value ds) z 0).
Qed.

Lemma add_year_ok md v x : Z.abs (tm_year (fst x)) <= 1352000000 -> Z.abs v <= 104000000 -> add_year md v x = Ok (shift v 0 0 0 0 0 0 x).
Proof. intros. unfold add_year. rewrite add32_small by lia. cbn [upd bind]. now rewrite s_year_shift. Qed.
Lemma add_mon_ok md v x : Z.abs (tm_mon (fst x)) <= 1352000000 -> Z.abs v <= 104000000 -> add_mon md v x = Ok (shift 0 v 0 0 0 0 0 x).
Proof. intros. unfold add_mon. rewrite add32_small by lia. cbn [upd bind]. now rewrite s_mon_shift. Qed.
Lemma add_mday_ok md v x : Z.abs (tm_mday (fst x)) <= 1352000000 -> Z.abs v <= 104000000 -> add_mday md v x = Ok (shift 0 0 v 0 0 0 0 x).
Proof. intros. unfold add_mday. rewrite add32_small by lia. cbn [upd bind]. now rewrite s_mday_shift. Qed.
Lemma add_hour_ok md v x : Z.abs (tm_hour (fst x)) <= 1352000000 -> Z.abs v <= 104000000 -> add_hour md v x = Ok (shift 0 0 0 v 0 0 0 x).
Proof. intros. unfold add_hour. rewrite add32_small by lia. cbn [upd bind]. now rewrite s_hour_shift. Qed.
Lemma add_min_ok md v x : Z.abs (tm_min (fst x)) <= 1352000000 -> Z.abs v <= 104000000 -> add_min md v x = Ok (shift 0 0 0 0 v 0 0 x).
Proof. intros. unfold add_min. rewrite add32_small by lia. cbn [upd bind]. now rewrite s_min_shift. Qed.
Lemma add_sec_ok md v x : Z.abs (tm_sec (fst x)) <= 1352000000 -> Z.abs v <= 104000000 -> add_sec md v x = Ok (shift 0 0 0 0 0 v 0 x).
Proof. intros. unfold add_sec. rewrite add32_small by lia. cbn [upd bind]. now rewrite s_sec_shift. Qed.

Definition half_end (r : bytes) : Prop := r = [] \/ exists r', r = 84 :: r'.
Lemma half_end_number r : half_end r -> number_end r.
Proof. intros [->|(r' & ->)]; cbn; [exact I|split; [reflexivity|discriminate]]. Qed.

Definition start : tmf := (tm_new, 0).
Definition after_date md fuel (r : bytes) (x : tmf) : res tmf := match r with [] => Ok x | _ :: r' => iso_loop md fuel r' false false x end.

Lemma digits_width ds r : forallb is_digit ds = true -> ds <> [] -> number_end r -> iso8601_integer_width (ds ++ r) = Z.of_nat (length ds).
Proof.
  intros D N E. unfold iso8601_integer_width. destruct ds as [|d ds]; [easy|]. cbn [app].
  assert (is_digit d = true) as Dd by (cbn in D; now apply andb_prop in D). apply is_digit_iff, digit_not_sign in Dd as [_ ->].
  change (d :: ds ++ r) with ((d :: ds) ++ r). rewrite eat_app; [reflexivity|exact D|]. destruct r; [exact I|apply E].
Qed.

Lemma digits_app a b : digits_value (a ++ b) = digits_value a * 10 ^ Z.of_nat (length b) + digits_value b.
Proof.
  induction a as [|c a IH]; [reflexivity|]. cbn [app digits_value]. rewrite IH, app_length, Nat2Z.inj_add, Z.pow_add_r by lia. ring.
Qed.

Ltac tidy := rewrite ?shift_add; repeat (rewrite Z.add_0_l || rewrite Z.add_0_r).
Ltac unit_test := match goal with |- context [?a =? ?b] => let r := eval vm_compute in (a =? b) in (match r with true => idtac | false => idtac end); change (a =? b) with r end.

Lemma alt_date md t y m d fuel r : iso_date t y m d -> y <= 100000000 -> m <= 100000000 -> d <= 100000000 -> half_end r ->
  (length (t ++ r) < fuel)%nat ->
  exists fuel', (length r <= fuel')%nat /\ iso_loop md fuel (t ++ r) true false start = after_date md fuel' r (shift y m d 0 0 0 0 start)
    /\ 0 <= y /\ 0 <= m /\ 0 <= d.
Proof.
  intros I By Bm Bd He L. pose proof (half_end_number r He) as Ne.
  assert (forall Y r1, short_digits Y -> match Y ++ r1 with [] => False | c :: _ => (c =? 84) = false end) as H84.
  { intros Y r1 P. pose proof (sd_digits _ P) as D. pose proof (sd_nonempty _ P) as N. destruct Y as [|c Y]; [easy|].
    cbn in D |- *. apply andb_prop in D as [D _]. unfold is_digit in D. lia. }
  assert (forall c, In c [0; 45; 84] -> number_end (c :: r)) as _ by (intros c; cbn; intros [<-|[<-|[<-|[]]]]; split; (reflexivity || discriminate)).
  destruct I as [Y M D PY PM PD|Y M PY PM|Y PY L8|Y M D DY LY [DM LM] [DD LD]].
  - pose proof (sd_value _ PY) as VY. pose proof (sd_value _ PM) as VM. pose proof (sd_value _ PD) as VD.
    destruct fuel as [|fuel]; [lia|]. rewrite <- !app_assoc in *. cbn [app] in *. rewrite <- app_assoc in *. cbn [app] in *.
    assert (forall u, number_end (45 :: u)) as N45 by (intros u; split; [reflexivity|discriminate]).
    destruct (iso_plain Y (45 :: M ++ 45 :: D ++ r) PY (N45 _)) as (z1 & E1 & R1).
    destruct (iso_plain M (45 :: D ++ r) PM (N45 _)) as (z2 & E2 & R2).
    destruct (iso_plain D r PD Ne) as (z3 & E3 & R3).
    specialize (H84 Y (45 :: M ++ 45 :: D ++ r) PY).
    rewrite app_length in L. cbn [length] in L.
    destruct (Y ++ 45 :: M ++ 45 :: D ++ r) as [|c0 t]; [easy|]. cbn [iso_loop]. rewrite H84, E1. cbn [bind].
    repeat (unit_test; cbv iota). cbn [orb].
    unfold decode_date_part_left. rewrite year_frac_zero by exact R1.
    rewrite add_year_ok by (cbn; lia). cbn [bind]. rewrite add_mon_ok by (cbn; lia). cbn [bind].
    repeat (unit_test; cbv iota). rewrite E2. cbn [bind]. rewrite add_mon_ok by (cbn; lia). cbn [bind].
    rewrite fract_days_zero by exact R2. cbn [bind]. repeat (unit_test; cbv iota). cbn [negb]. rewrite E3. cbn [bind].
    rewrite add_mday_ok by (cbn; lia). cbn [bind]. rewrite fract_secs_zero by exact R3. cbn [bind]. tidy.
    rewrite !app_length in L. cbn [length] in L. rewrite app_length in L.
    destruct He as [->|(r' & ->)].
    + exists 0%nat. cbn. split; [lia|]. split; [reflexivity|lia].
    + destruct fuel as [|fuel]; [cbn in L; lia|]. exists fuel. cbn [length] in L. split; [cbn [length]; lia|]. split; [|lia].
      repeat (unit_test; cbv iota). cbn [bind iso_loop after_date]. repeat (unit_test; cbv iota). reflexivity.
  - pose proof (sd_value _ PY) as VY. pose proof (sd_value _ PM) as VM.
    destruct fuel as [|fuel]; [lia|]. rewrite <- !app_assoc in *. cbn [app] in *.
    assert (forall u, number_end (45 :: u)) as N45 by (intros u; split; [reflexivity|discriminate]).
    destruct (iso_plain Y (45 :: M ++ r) PY (N45 _)) as (z1 & E1 & R1).
    destruct (iso_plain M r PM Ne) as (z2 & E2 & R2).
    specialize (H84 Y (45 :: M ++ r) PY).
    rewrite app_length in L. cbn [length] in L.
    destruct (Y ++ 45 :: M ++ r) as [|c0 t]; [easy|]. cbn [iso_loop]. rewrite H84, E1. cbn [bind].
    repeat (unit_test; cbv iota). cbn [orb].
    unfold decode_date_part_left. rewrite year_frac_zero by exact R1.
    rewrite add_year_ok by (cbn; lia). cbn [bind]. rewrite add_mon_ok by (cbn; lia). cbn [bind].
    repeat (unit_test; cbv iota). rewrite E2. cbn [bind]. rewrite add_mon_ok by (cbn; lia). cbn [bind].
    rewrite fract_days_zero by exact R2. cbn [bind]. tidy.
    rewrite !app_length in L.
    destruct He as [->|(r' & ->)].
    + exists 0%nat. cbn. split; [lia|]. split; [reflexivity|lia].
    + destruct fuel as [|fuel]; [cbn in L; lia|]. exists fuel. cbn [length] in L. split; [cbn [length]; lia|]. split; [|lia].
      repeat (unit_test; cbv iota). cbn [bind iso_loop after_date]. repeat (unit_test; cbv iota). reflexivity.
  - pose proof (sd_value _ PY) as VY. pose proof (digits_width Y r (sd_digits _ PY) (sd_nonempty _ PY) Ne) as W.
    destruct fuel as [|fuel]; [lia|].
    destruct (iso_plain Y r PY Ne) as (z1 & E1 & R1). specialize (H84 Y r PY). rewrite app_length in L.
    destruct (Y ++ r) as [|c0 t]; [easy|]. cbn [iso_loop]. rewrite H84, E1. cbn [bind].
    exists fuel. assert (0 < length Y)%nat as LY by (pose proof (sd_nonempty _ PY); destruct Y; [easy|cbn; lia]).
    split; [lia|]. split; [|lia].
    destruct He as [->|(r' & ->)]; repeat (unit_test; cbv iota); cbn [orb]; rewrite W;
      (destruct (Z.eqb_spec (Z.of_nat (length Y)) 8) as [Q|_]; [lia|]); cbn [andb];
      unfold decode_date_part_left; rewrite year_frac_zero by exact R1;
      rewrite add_year_ok by (cbn; lia); cbn [bind]; rewrite add_mon_ok by (cbn; lia); cbn [bind];
      repeat (unit_test; cbv iota); cbn [bind after_date]; tidy; reflexivity.
  - set (ds := Y ++ M ++ D) in *.
    assert (short_digits ds) as P.
    { split; [unfold ds; apply Forall_app; split; [exact DY|apply Forall_app; split; assumption]|].
      unfold ds. rewrite !app_length. lia. }
    assert (length ds = 8)%nat as L8 by (unfold ds; rewrite !app_length; lia).
    assert (digits_value ds = digits_value Y * 10000 + digits_value M * 100 + digits_value D) as V.
    { unfold ds. rewrite !digits_app, app_length, LM, LD. change (10 ^ Z.of_nat (2 + 2)) with 10000. change (10 ^ Z.of_nat 2) with 100. ring. }
    pose proof (digits_value_bound _ DY) as VY. pose proof (digits_value_bound _ DM) as VM. pose proof (digits_value_bound _ DD) as VD.
    rewrite LY in VY. rewrite LM in VM. rewrite LD in VD. change (10 ^ Z.of_nat 4) with 10000 in VY. change (10 ^ Z.of_nat 2) with 100 in VM, VD.
    pose proof (digits_width ds r (sd_digits _ P) (sd_nonempty _ P) Ne) as W. rewrite L8 in W. change (Z.of_nat 8) with 8 in W.
    destruct fuel as [|fuel]; [lia|].
    destruct (iso_plain ds r P Ne) as (z1 & E1 & R1). specialize (H84 ds r P). rewrite app_length in L. clearbody ds.
    destruct (ds ++ r) as [|c0 t]; [easy|]. cbn [iso_loop]. rewrite H84, E1. cbn [bind]. rewrite V.
    assert ((digits_value Y * 10000 + digits_value M * 100 + digits_value D) ÷ 10000 = digits_value Y) as Q1 by (clear - VY VM VD; lia).
    assert (Z.rem ((digits_value Y * 10000 + digits_value M * 100 + digits_value D) ÷ 100) 100 = digits_value M) as Q2.
    { replace ((digits_value Y * 10000 + digits_value M * 100 + digits_value D) ÷ 100) with (digits_value Y * 100 + digits_value M) by (clear - VY VM VD; lia). clear - VY VM VD; lia. }
    assert (Z.rem (digits_value Y * 10000 + digits_value M * 100 + digits_value D) 100 = digits_value D) as Q3 by (clear - VY VM VD; lia).
    exists fuel. split; [lia|]. split; [|lia].
    destruct He as [->|(r' & ->)]; repeat (unit_test; cbv iota); cbn [orb]; rewrite W; change (8 =? 8) with true; cbn [andb negb];
      rewrite Q1, Q2, Q3; clear Q1 Q2 Q3; rewrite add_year_ok by (cbn; lia); cbn [bind]; rewrite add_mon_ok by (cbn; lia); cbn [bind];
      rewrite add_mday_ok by (cbn; lia); cbn [bind]; rewrite fract_secs_zero by exact R1; cbn [bind];
      repeat (unit_test; cbv iota); cbn [bind after_date]; tidy; reflexivity.
Qed.

Lemma clock_fraction md v f fo s x : read_as v f (f_num fo) (f_len fo) -> 0 <= v <= 100000000 -> 
  Z.abs (tm_sec (fst x)) <= 1500000000 -> Z.abs (snd x) <= 1500000000 -> Z.abs s <= 100000000 ->
  exists a b, fract_secs md f 1 (shift 0 0 0 0 0 s 0 x) = Ok (shift 0 0 0 0 0 (s + a) b x) /\ a * 1000000 + b = micros_part fo
    /\ Z.abs a <= 100000 /\ Z.abs b <= 3000000.
Proof.
  intros RA Bv B1 B2 Bs.
  destruct (iso_seconds md v f _ _ 1 (shift 0 0 0 0 0 s 0 x) RA ltac:(lia) ltac:(lia) ltac:(lia) ltac:(cbn; lia) ltac:(cbn; lia)) as (q & r & E & Q & Bq & Br).
  exists q, r. split; [|split; [|split; assumption]].
  - rewrite E. f_equal. now tidy.
  - rewrite Q. unfold micros_part, pow10. destruct fo as [t|]; reflexivity.
Qed.

Lemma seconds_number s fo : short_digits s -> seconds_ok fo ->
  exists f, parse_iso8601_number (s ++ seconds_part fo) = Ok (digits_value s, f, []) /\ read_as (digits_value s) f (f_num fo) (f_len fo).
Proof.
  intros P F. destruct (iso_value s fo [] P F I) as (f & E & H). rewrite app_nil_r in E. eauto.
Qed.

Lemma alt_time md t h mi s us fuel n x : iso_clock t h mi s us -> h <= 1000000 -> mi <= 100000000 -> s <= 100000000 ->
  fits n x -> 0 <= n <= 12 -> (length t < fuel)%nat ->
  exists a b, iso_loop md fuel t false false x = Ok (shift 0 0 0 h mi (s + a) b x) /\ a * 1000000 + b = us
    /\ 0 <= h /\ 0 <= mi /\ 0 <= s /\ Z.abs a <= 100000 /\ Z.abs b <= 3000000.
Proof.
  intros I Bh Bmi Bs F Hn L. pose proof (fits_bounds n x F ltac:(lia)) as (Fy & Fmo & Fd & Fh & Fmi & Fs & Fus).
  assert (forall Y r1, short_digits Y -> match Y ++ r1 with [] => False | c :: _ => (c =? 84) = false end) as H84.
  { intros Y r1 P. pose proof (sd_digits _ P) as D. pose proof (sd_nonempty _ P) as N. destruct Y as [|c Y]; [easy|].
    cbn in D |- *. apply andb_prop in D as [D _]. unfold is_digit in D. lia. }
  assert (forall u, number_end (58 :: u)) as N58 by (intros u; split; [reflexivity|discriminate]).
  destruct fuel as [|fuel]; [lia|].
  destruct I as [H M S fo PH PM PS Ff|H M PH PM|H PH L6|H M S fo [DH LH] [DM LM] [DS LS] Ff].
  - pose proof (sd_value _ PH) as VH. pose proof (sd_value _ PM) as VM. pose proof (sd_value _ PS) as VS.
    destruct (iso_plain H (58 :: M ++ 58 :: S ++ seconds_part fo) PH (N58 _)) as (z1 & E1 & R1).
    destruct (iso_plain M (58 :: S ++ seconds_part fo) PM (N58 _)) as (z2 & E2 & R2).
    destruct (seconds_number S fo PS Ff) as (f & E3 & RA). specialize (H84 H (58 :: M ++ 58 :: S ++ seconds_part fo) PH).
    destruct (H ++ 58 :: M ++ 58 :: S ++ seconds_part fo) as [|c0 t]; [easy|]. cbn [iso_loop]. rewrite H84, E1. cbn [bind].
    repeat (unit_test; cbv iota). unfold decode_time_part_left.
    rewrite add_hour_ok by lia. cbn [bind]. rewrite fract_secs_zero by exact R1. cbn [bind]. repeat (unit_test; cbv iota).
    rewrite E2. cbn [bind]. rewrite add_min_ok by (cbn; lia). cbn [bind]. rewrite fract_secs_zero by exact R2. cbn [bind].
    repeat (unit_test; cbv iota). cbn [negb]. rewrite E3. cbn [bind].
    destruct (clock_fraction md _ f fo (digits_value S) (shift 0 0 0 0 (digits_value M) 0 0 (shift 0 0 0 (digits_value H) 0 0 0 x)) RA)
      as (a & b & E & Q & Ba & Bb); [lia|cbn; lia..|].
    exists a, b. rewrite add_sec_ok by (cbn; lia). cbn [bind]. rewrite E. cbn [bind]. split; [f_equal; now tidy|]. repeat (split; [lia|]). lia.
  - pose proof (sd_value _ PH) as VH. pose proof (sd_value _ PM) as VM.
    destruct (iso_plain H (58 :: M) PH (N58 _)) as (z1 & E1 & R1).
    destruct (iso_plain M [] PM I) as (z2 & E2 & R2). rewrite app_nil_r in E2. specialize (H84 H (58 :: M) PH).
    destruct (H ++ 58 :: M) as [|c0 t]; [easy|]. cbn [iso_loop]. rewrite H84, E1. cbn [bind].
    repeat (unit_test; cbv iota). unfold decode_time_part_left.
    rewrite add_hour_ok by lia. cbn [bind]. rewrite fract_secs_zero by exact R1. cbn [bind]. repeat (unit_test; cbv iota).
    rewrite E2. cbn [bind]. rewrite add_min_ok by (cbn; lia). cbn [bind]. rewrite fract_secs_zero by exact R2. cbn [bind].
    exists 0, 0. split; [f_equal; now tidy|]. repeat (split; [lia|]). lia.
  - pose proof (sd_value _ PH) as VH. pose proof (digits_width H [] (sd_digits _ PH) (sd_nonempty _ PH) I) as W.
    destruct (iso_plain H [] PH I) as (z1 & E1 & R1). specialize (H84 H [] PH). rewrite app_nil_r in *.
    destruct H as [|c0 t]; [easy|]. cbn [iso_loop]. rewrite H84, E1. cbn [bind]. rewrite W.
    repeat (unit_test; cbv iota). destruct (Z.eqb_spec (Z.of_nat (length (c0 :: t))) 6) as [Q|_]; [lia|]. cbn [andb].
    unfold decode_time_part_left. rewrite add_hour_ok by lia. cbn [bind]. rewrite fract_secs_zero by exact R1. cbn [bind]. repeat (unit_test; cbv iota).
    exists 0, 0. split; [f_equal; now tidy|]. repeat (split; [lia|]). lia.
  - assert (H ++ M ++ S ++ seconds_part fo = (H ++ M ++ S) ++ seconds_part fo) as Ea by now rewrite <- !app_assoc.
    rewrite Ea in *. clear Ea. set (ds := H ++ M ++ S) in *.
    assert (short_digits ds) as P.
    { split; [unfold ds; apply Forall_app; split; [exact DH|apply Forall_app; split; assumption]|].
      unfold ds. rewrite !app_length. lia. }
    assert (length ds = 6)%nat as L6 by (unfold ds; rewrite !app_length; lia).
    assert (digits_value ds = digits_value H * 10000 + digits_value M * 100 + digits_value S) as V.
    { unfold ds. rewrite !digits_app, app_length, LM, LS. change (10 ^ Z.of_nat (2 + 2)) with 10000. change (10 ^ Z.of_nat 2) with 100. ring. }
    pose proof (digits_value_bound _ DH) as VH. pose proof (digits_value_bound _ DM) as VM. pose proof (digits_value_bound _ DS) as VS.
    rewrite LH in VH. rewrite LM in VM. rewrite LS in VS. change (10 ^ Z.of_nat 2) with 100 in VH, VM, VS.
    assert (iso8601_integer_width (ds ++ seconds_part fo) = 6) as W.
    { unfold iso8601_integer_width. pose proof (sd_digits _ P) as D6. destruct ds as [|c0 t]; [discriminate L6|]. cbn [app].
      assert (is_digit c0 = true) as Dd by (cbn in D6; now apply andb_prop in D6). apply is_digit_iff, digit_not_sign in Dd as [_ ->].
      change (c0 :: t ++ seconds_part fo) with ((c0 :: t) ++ seconds_part fo). rewrite eat_app; [|exact D6|].
      - cbn [fst]. unfold blen. rewrite L6. reflexivity.
      - destruct fo; [reflexivity|exact I]. }
    destruct (seconds_number ds fo P Ff) as (f & E3 & RA). specialize (H84 ds (seconds_part fo) P). clearbody ds.
    destruct (ds ++ seconds_part fo) as [|c0 t]; [easy|]. cbn [iso_loop]. rewrite H84, E3. cbn [bind]. rewrite V in *. 
    repeat (unit_test; cbv iota). rewrite W. change (6 =? 6) with true. cbn [andb negb].
    assert ((digits_value H * 10000 + digits_value M * 100 + digits_value S) ÷ 10000 = digits_value H) as -> by (clear - VH VM VS; lia).
    assert (Z.rem ((digits_value H * 10000 + digits_value M * 100 + digits_value S) ÷ 100) 100 = digits_value M) as ->.
    { replace ((digits_value H * 10000 + digits_value M * 100 + digits_value S) ÷ 100) with (digits_value H * 100 + digits_value M) by (clear - VH VM VS; lia). clear - VH VM VS; lia. }
    assert (Z.rem (digits_value H * 10000 + digits_value M * 100 + digits_value S) 100 = digits_value S) as -> by (clear - VH VM VS; lia).
    destruct (clock_fraction md _ f fo (digits_value S) (shift 0 0 0 0 (digits_value M) 0 0 (shift 0 0 0 (digits_value H) 0 0 0 x)) RA)
      as (a & b & E & Q & Ba & Bb); [clear - VH VM VS; lia|cbn; lia..|].
    exists a, b. rewrite add_hour_ok by lia. cbn [bind]. rewrite add_min_ok by (cbn; lia). cbn [bind]. rewrite add_sec_ok by (cbn; lia). cbn [bind]. rewrite E.
    split; [f_equal; now tidy|]. repeat (split; [lia|]). lia.
Qed.

(** ** The whole text *)
Lemma few_amounts dp l : amounts_ok (letter_of dp) l -> Z.of_nat (length l) <= 4.
Proof.
  intros (_ & L & N). rewrite Forall_forall in L. rewrite <- (map_length a_unit).
  apply (Nat2Z.inj_le _ 4). destruct dp.
  - refine (NoDup_incl_length (l' := [UYear; UMonth; UWeek; UDay]) N _). intros u I. apply in_map_iff in I as (a & <- & I).
    specialize (L a I). destruct (a_unit a); cbn in *; intuition congruence.
  - transitivity 3%nat; [|lia].
    refine (NoDup_incl_length (l' := [UHour; UMinute; USecond]) N _). intros u I. apply in_map_iff in I as (a & <- & I).
    specialize (L a I). destruct (a_unit a); cbn in *; intuition congruence.
Qed.

Lemma fits_start : fits 0 start. Proof. unfold fits, small, start. cbn. lia. Qed.

Lemma fits_more n m x : fits n x -> n <= m -> fits m x.
Proof. unfold fits, small. intros. lia. Qed.

Definition summed (d : date_half) (t : time_half) (x : tmf) : Prop :=
  fits 13 x /\ months_in x = iso_months d /\ days_in x = iso_days d /\ micros_in x = iso_time d t.

Lemma time_no_days l : Forall (fun a => time_letter (a_unit a) <> None) l -> half_total q_months l = 0 /\ half_total q_days l = 0.
Proof.
  unfold half_total, total. induction 1 as [|a l H _ [E1 E2]]; [split; reflexivity|]. cbn [map fold_right].
  rewrite E1, E2. unfold q_months, q_days, as_quantity. cbn [q_unit]. destruct (a_unit a); cbn in H; try easy; split; cbn; lia.
Qed.

Lemma time_steps md t n x hf fuel : time_half_ok t -> fits n x -> 0 <= n <= 5 -> (length (time_half_text t) < fuel)%nat -> forall dp,
  exists x', iso_loop md fuel (time_half_text t) dp hf x = Ok x' /\ fits 13 x' /\ months_in x' = months_in x
    /\ days_in x' = days_in x /\ micros_in x' = micros_in x + iso_time (DAmounts []) t.
Proof.
  intros T F Hn L dp. destruct t as [|l|t h mi s us]; cbn [time_half_text time_half_ok] in *.
  - exists x. destruct fuel; [cbn in L; lia|]. split; [reflexivity|]. split; [apply (fits_more n _ _ F); lia|]. change (iso_time (DAmounts []) TNothing) with 0. lia.
  - destruct T as [T Ne]. pose proof (few_amounts false l T) as Few. destruct T as (A & Le & _). cbn [length] in L.
    destruct fuel as [|fuel]; [lia|].
    destruct (amounts_steps md false l n x false fuel [] A Le F ltac:(lia) ltac:(lia)) as (f' & hf' & x' & Lf & E & F' & M & D & T); [rewrite app_nil_r; cbn [letter_of]; lia|].
    rewrite app_nil_r in E. destruct f' as [|f']; [cbn in Lf; lia|].
    exists x'. split; [|split; [apply (fits_more _ 13 _ F'); lia|]].
    + cbn [iso_loop]. change (84 =? 84) with true. cbv iota. exact E.
    + change (iso_time (DAmounts []) (TAmounts l)) with (0 + half_total q_micros l). destruct (time_no_days l Le). lia.
  - destruct T as (C & Bh & Bmi & Bs). cbn [length] in L. destruct fuel as [|fuel]; [lia|].
    destruct (alt_time md t h mi s us fuel n x C Bh Bmi Bs F ltac:(lia) ltac:(lia)) as (a & b & E & Q & Ph & Pmi & Ps & Ba & Bb).
    exists (shift 0 0 0 h mi (s + a) b x). split; [|].
    + cbn [iso_loop]. change (84 =? 84) with true. cbv iota. exact E.
    + destruct x as [[s0 m0 h0 d0 mo0 y0 w yd is] us0].
      unfold fits, small, months_in, days_in, micros_in, iso_time, half_total, clock, shift in *. cbn [fst snd tm_sec tm_min tm_hour tm_mday tm_mon tm_year total map fold_right] in *.
      destruct F as (F1 & F2 & F3 & F4 & F5 & F6 & F7). clear E C L.
      split; [|split; [lia|split; [lia|lia]]]. repeat (split; [lia|]). lia.
Qed.

Lemma iso_decoded md d t : iso_text_ok d t -> exists x, decode_iso8601_interval md (iso_text d t) start = Ok x /\ summed d t x.
Proof.
  intros (Hd & Ht & Ne & L). unfold iso_text, decode_iso8601_interval in *.
  assert (exists x, iso_loop md (S (length (date_half_text d ++ time_half_text t))) (date_half_text d ++ time_half_text t) true false start = Ok x /\ summed d t x) as (x & E & S).
  2:{ exists x. split; [|exact S]. destruct (date_half_text d ++ time_half_text t) as [|c r]; [easy|]. exact E. }
  unfold summed. destruct d as [l|tx y m dd]; cbn [date_half_text date_half_ok] in *.
  - pose proof (few_amounts true l Hd) as Few. destruct Hd as (A & Le & _).
    destruct (amounts_steps md true l 0 start false (S (length (concat (map (amount_text date_letter) l) ++ time_half_text t))) (time_half_text t) A Le fits_start ltac:(lia) ltac:(lia))
      as (f' & hf' & x' & Lf & E & F' & M & D & T); [cbn [letter_of]; lia|].
    cbn [letter_of] in E. rewrite E. clear E.
    destruct (time_steps md t _ x' hf' f' Ht F' ltac:(lia) Lf true) as (x2 & E2 & F2 & M2 & D2 & T2).
    exists x2. split; [exact E2|]. split; [exact F2|]. cbn [iso_months iso_days iso_time].
    change (months_in start) with 0 in M. change (days_in start) with 0 in D. change (micros_in start) with 0 in T.
    unfold iso_time, half_total in *. cbn [map total fold_right] in T2. lia.
  - destruct Hd as (I & By & Bm & Bd).
    assert (half_end (time_half_text t)) as He by (destruct t; [now left|right; eexists; reflexivity..]).
    destruct (alt_date md tx y m dd (S (length (tx ++ time_half_text t))) (time_half_text t) I By Bm Bd He ltac:(lia)) as (f' & Lf & E & Py & Pm & Pd).
    rewrite E. clear E. set (x := shift y m dd 0 0 0 0 start).
    assert (fits 1 x) as F.
    { unfold x, fits, small, shift, start. cbn. lia. }
    destruct (time_steps md t 1 x false (S f') Ht F ltac:(lia) ltac:(lia) true) as (x2 & E2 & F2 & M2 & D2 & T2).
    exists x2. split; [|split; [exact F2|]].
    + destruct t; cbn [time_half_text after_date iso_loop] in *; exact E2.
    + change (months_in x) with (12 * (0 + y) + (0 + m)) in M2. change (days_in x) with (0 + dd) in D2. change (micros_in x) with 0 in T2.
      cbn [iso_months iso_days]. unfold iso_time, half_total in *. cbn [map total fold_right] in T2. lia.
Qed.

Lemma dwc_digits t : Forall digit t -> forallb date_word_char t = true.
Proof.
  intros F. apply digits_forallb in F. apply (forallb_weaken is_digit); [|exact F]. intros x E. unfold date_word_char, is_alnum. now rewrite E, !orb_true_r.
Qed.

Lemma amounts_chars dp l : Forall amount_ok l -> forallb date_word_char (concat (map (amount_text (letter_of dp)) l)) = true.
Proof.
  induction 1 as [|a l (P & _ & F) _ IH]; [reflexivity|]. cbn [map concat]. rewrite forallb_app, IH, andb_true_r. unfold amount_text.
  rewrite !forallb_app. rewrite dwc_digits by apply P. cbn [andb].
  assert (forallb date_word_char match a_frac a with Some f => 46 :: f | None => [] end = true) as ->.
  { destruct (a_frac a); [|reflexivity]. cbn [forallb]. rewrite dwc_digits by apply F. reflexivity. }
  destruct dp, (a_unit a); reflexivity.
Qed.

Lemma fraction_chars fo : seconds_ok fo -> forallb date_word_char (seconds_part fo) = true.
Proof. destruct fo; [|reflexivity]. intros [F _]. cbn [seconds_part forallb]. rewrite dwc_digits by apply F. reflexivity. Qed.

Lemma halves_chars d t : date_half_ok d -> time_half_ok t -> forallb date_word_char (date_half_text d ++ time_half_text t) = true.
Proof.
  intros Hd Ht. rewrite forallb_app. apply andb_true_intro. split.
  - destruct d as [l|tx y m dd]; cbn [date_half_text date_half_ok] in *.
    + apply (amounts_chars true). apply Hd.
    + destruct Hd as [I _]. destruct I as [Y M D PY PM PD|Y M PY PM|Y PY L8|Y M D DY LY [DM LM] [DD LD]];
        repeat (rewrite forallb_app || cbn [forallb]);
        rewrite ?(dwc_digits Y), ?(dwc_digits M), ?(dwc_digits D) by (apply PY || apply PM || apply PD || assumption); reflexivity.
  - destruct t as [|l|tx h mi s us]; cbn [time_half_text time_half_ok] in *; [reflexivity|..].
    + cbn [forallb]. rewrite (amounts_chars false) by apply Ht. reflexivity.
    + destruct Ht as [I _]. cbn [forallb]. destruct I as [H M S fo PH PM PS Ff|H M PH PM|H PH L6|H M S fo [DH LH] [DM LM] [DS LS] Ff];
        repeat (rewrite forallb_app || cbn [forallb]); rewrite ?fraction_chars by exact Ff;
        rewrite ?(dwc_digits H), ?(dwc_digits M), ?(dwc_digits S) by (apply PH || apply PM || apply PS || assumption); reflexivity.
Qed.

Lemma sd_head t r : short_digits t -> exists c u, t ++ r = c :: u /\ is_digit c = true.
Proof.
  intros P. pose proof (sd_digits _ P) as D. pose proof (sd_nonempty _ P) as N. destruct t as [|c t]; [easy|].
  exists c, (t ++ r). split; [reflexivity|]. cbn in D. now apply andb_prop in D.
Qed.

Lemma clock_head t h mi s us : iso_clock t h mi s us -> exists c u, t = c :: u /\ is_digit c = true.
Proof.
  intros [H M S fo PH PM PS Ff|H M PH PM|H PH L6|H M S fo [DH LH] [DM LM] [DS LS] Ff]; try (now apply sd_head).
  - destruct (sd_head H [] PH) as (c & u & E & D). rewrite app_nil_r in E. eauto.
  - destruct H as [|c u]; [discriminate|]. cbn [app]. exists c. eexists. split; [reflexivity|]. inversion DH; subst. now apply is_digit_iff.
Qed.
Lemma date_head t y m d r : iso_date t y m d -> exists c u, t ++ r = c :: u /\ is_digit c = true.
Proof.
  intros [Y M D PY PM PD|Y M PY PM|Y PY L8|Y M D DY LY [DM LM] [DD LD]]; rewrite <- ?app_assoc; try (now apply sd_head).
  destruct Y as [|c u]; [discriminate|]. cbn [app]. exists c. eexists. split; [reflexivity|]. inversion DY; subst. now apply is_digit_iff.
Qed.
Lemma amounts_head dp l r : Forall amount_ok l -> l <> [] -> exists c u, concat (map (amount_text (letter_of dp)) l) ++ r = c :: u /\ is_digit c = true.
Proof.
  intros F N. destruct l as [|a l]; [easy|]. inversion F as [|? ? (P & _) _]; subst. cbn [map concat]. unfold amount_text at 1. rewrite <- !app_assoc. now apply sd_head.
Qed.

Lemma iso_accepted md st r p prec d t : iso_text_ok d t -> 0 <= prec <= 65535 -> p = range_code r * 65536 + prec \/ p < 0 /\ r = RFull ->
  interval_try_from_str md (iso_text d t) p st =
  if (i32_min <=? iso_months d) && (iso_months d <=? i32_max)
  then interval_adjust_by_typmod md (from_mdt (iso_months d) (iso_days d) (iso_time d t)) p else Err EOverflow.
Proof.
  intros H Hprec Hp. destruct (iso_decoded md d t H) as (x & E & F & M & D & T). destruct H as (Hd & Ht & Ne & L).
  unfold interval_try_from_str. rewrite (typmod_range r p prec Hprec Hp).
  destruct (iso_tokens (date_half_text d ++ time_half_text t)) as (u & Eu).
  { now apply halves_chars. }
  { unfold iso_text in L. cbn [length] in L. lia. }
  { assert (forall tt, time_half_ok tt -> tt = TNothing \/ exists c u, time_half_text tt = 84 :: c :: u /\ is_digit c = true) as TH.
    { intros [|l|tx h mi s us] Htt; cbn [time_half_text time_half_ok] in *; [now left|right..].
      - destruct Htt as [(A & _) Nl]. destruct (amounts_head false l [] A Nl) as (c & u & Ec & Dc). rewrite app_nil_r in Ec. cbn [letter_of] in Ec. rewrite Ec. eauto.
      - destruct Htt as [C _]. destruct (clock_head _ _ _ _ _ C) as (c & u & -> & Dc). eauto. }
    destruct d as [l|tx y m dd]; cbn [date_half_text date_half_ok] in *.
    - destruct l as [|a l].
      + cbn [map concat app] in *. destruct (TH t Ht) as [->|(c & u & -> & Dc)]; [easy|]. exists c, u. auto.
      + destruct Hd as (A & _). destruct (amounts_head true (a :: l) (time_half_text t) A ltac:(discriminate)) as (c & u & Ec & Dc). exists c, u. auto.
    - destruct Hd as [I _]. destruct (date_head _ _ _ _ (time_half_text t) I) as (c & u & Ec & Dc). exists c, u. auto. }
  assert (decode_interval md [(Some KDate, 112 :: u)] (range_code r) st (tm_new, 0) = ((tm_new, 0), Err EInvalid)) as Ed by (destruct st; reflexivity).
  unfold iso_text in *. rewrite Eu. cbn [bind]. rewrite Ed.
  fold start. rewrite E. cbn [bind]. rewrite from_pgtime_gen by exact F. rewrite M, D, T.
  destruct ((i32_min <=? iso_months d) && (iso_months d <=? i32_max)); reflexivity.
Qed.
