(** Interval text in the ISO 8601 style: layout, length and reading back. *)
From Verif Require Import Model.Parse Spec.Calendar Spec.Ranges Spec.Clock Spec.Text Spec.IntervalS
  Proofs.Arith Proofs.TsP Proofs.IntervalP Proofs.FloatP Proofs.ClockP Proofs.IvTruncP Proofs.DigitsP Proofs.FormatP
  Proofs.ParseP Proofs.RoundTripP Proofs.IvParseP Proofs.IvReadP Proofs.IvPostgresP Proofs.IvVerboseP Proofs.IvSqlP.
From Coq Require Import Reals Lra.
From Flocq Require Import Core IEEE754.BinarySingleNaN.
Open Scope Z_scope.

(** ** Rounding down *)
Lemma rep_floor x a : rep x a -> rep (ffloor x) (IZR (Zfloor a)).
Proof.
  intros (b & F & <- & <-). destruct b as [s|s| |s m e Hb]; try discriminate F.
  - cbn. change 0%R with (IZR 0). rewrite Zfloor_IZR. exists (B754_zero s). repeat split.
  - cbn [B2SF ffloor B2R]. unfold F2R. cbn [Fnum Fexp].
    replace (cond_Zopp s (Z.pos m)) with (fsign s (Z.pos m)) by (destruct s; reflexivity).
    destruct (Z.leb_spec 0 e).
    + exists (B754_finite s m e Hb). split; [reflexivity|]. split; [reflexivity|]. cbn [B2R].
      unfold F2R. cbn [Fnum Fexp]. replace (cond_Zopp s (Z.pos m)) with (fsign s (Z.pos m)) by (destruct s; reflexivity).
      rewrite <- IZR_Zpower by lia. rewrite <- mult_IZR. now rewrite Zfloor_IZR.
    + assert (Zfloor (IZR (fsign s (Z.pos m)) * bpow radix2 e) = fsign s (Z.pos m) / 2 ^ (- e)) as E.
      { replace (bpow radix2 e) with (/ bpow radix2 (- e))%R by (rewrite bpow_opp; field; apply Rgt_not_eq, bpow_gt_0).
        rewrite <- IZR_Zpower by lia. fold (IZR (fsign s (Z.pos m)) / IZR (Zpower radix2 (- e)))%R.
        rewrite Zfloor_div; [reflexivity|]. cbn [radix_val radix2]. lia. }
      rewrite E. set (z := fsign s (Z.pos m) / 2 ^ (- e)) in *.
      destruct (Z.eqb_spec z 0) as [Z0|Z0].
      * rewrite Z0. exists (B754_zero s). split; [reflexivity|]. split; reflexivity.
      * apply rep_int.
        assert (Z.pos m <= 2 ^ 53)%Z as Hm.
        { pose proof (andb_prop _ _ Hb) as [Hb1 _]. apply Zeq_bool_eq in Hb1. clear F Hb. rename Hb1 into Hb.
          unfold SpecFloat.fexp, SpecFloat.emin in Hb.
          pose proof (Zpos_digits2_pos m) as Hd.
          pose proof (Zpower_gt_Zdigits radix2 53 (Z.pos m)) as Hg.
          rewrite <- Hd in Hg. cbn [radix_val radix2 Z.abs] in Hg.
          assert (Z.pos (digits2_pos m) <= 53)%Z by lia. apply Z.lt_le_incl, Hg. lia. }
        assert (1 <= 2 ^ (- e))%Z as P by (change 1%Z with (2 ^ 0)%Z at 1; apply Z.pow_le_mono_r; lia).
        subst z. set (p := 2 ^ (- e)) in *. set (B := 2 ^ 53) in *. clearbody p B.
        assert (- B <= fsign s (Z.pos m) / p <= B).
        { assert (- B <= fsign s (Z.pos m) <= B) as Hs by (destruct s; cbn [fsign]; lia).
          set (q := fsign s (Z.pos m)) in *. clearbody q.
          split; [apply Z.div_le_lower_bound; nia|apply Z.div_le_upper_bound; nia]. }
        lia.
Qed.

(** ** Numbers *)
Lemma str2d_int n ds c r : decimal n ds -> n <= i32_max -> is_digit c = false -> c <> 46 ->
  str2d (ds ++ c :: r) = Ok (f64_of_Z n, c :: r).
Proof.
  intros D L Hc Nc. destruct (decimal_facts _ _ D) as (F & N & P).
  assert (length ds <= 10)%nat as Ld by (apply (decimal_len n); [easy|change (10 ^ Z.of_nat 10) with 10000000000; unfold i32_max in L; lia|lia]).
  assert (digits_value ds = n) as V by (destruct D as [(_ & _ & V) _]; exact V).
  destruct ds as [|d ds]; [easy|].
  assert (is_digit d = true) as Dd by (cbn in F; now apply andb_prop in F).
  unfold str2d. cbn [app]. rewrite eat_ws_cons by (apply digit_not_space; now apply is_digit_iff).
  unfold extract_sign. apply is_digit_iff, digit_not_sign in Dd as [-> ->].
  change (d :: ds ++ c :: r) with ((d :: ds) ++ c :: r). unfold eat_digits. rewrite eat_app by easy.
  unfold blen. destruct (Z.ltb_spec 10 (Z.of_nat (length (d :: ds)))); [lia|].
  destruct (Z.eqb_spec c 46); [easy|]. change (7 <? Z.of_nat (length (@nil Z))) with false. cbv iota.
  now rewrite dval_value, V, Z.mul_1_r.
Qed.

Lemma iso_number s v a n r : rep v a -> (0 <= a)%R -> Zfloor a = n -> (a <= IZR i32_max)%R ->
  match s with c :: _ => is_digit c = true | [] => False end ->
  str2d s = Ok (v, r) -> (length r < length s)%nat ->
  parse_iso8601_number s = Ok (n, fsub v (f64_of_Z n), r).
Proof.
  intros Rv Ha E Hb Hs S L. unfold parse_iso8601_number. destruct s as [|c s]; [easy|]. rewrite Hs. cbn [orb negb].
  rewrite S. cbn [bind]. destruct (Nat.eqb_spec (length r) (length (c :: s))) as [Q|_]; [lia|].
  assert (rep (f64_of_Z i32_min) (IZR i32_min)) as Rm by (apply rep_int; vm_compute; discriminate).
  assert (rep (f64_of_Z i32_max) (IZR i32_max)) as RM by (apply rep_int; vm_compute; discriminate).
  rewrite (rep_lt _ _ _ _ Rv Rm). unfold fgt. rewrite (rep_lt _ _ _ _ RM Rv).
  assert (IZR i32_min <= 0)%R by (apply IZR_le; vm_compute; discriminate).
  rewrite !Rlt_bool_false by lra. cbn [orb].
  unfold fge. rewrite (rep_le _ _ _ _ rep_f0 Rv). rewrite Rle_bool_true by lra.
  assert (f64_to_i32 (ffloor v) = n) as ->; [|reflexivity].
  apply rep_to_i32; [rewrite <- E; now apply rep_floor|].
  assert (0 <= n <= i32_max) as B.
  { subst n. split.
    - apply Zfloor_lub. exact Ha.
    - apply le_IZR. eapply Rle_trans; [apply Zfloor_lb|exact Hb]. }
  rng. unfold i32_max in *. lia.
Qed.

Lemma iso_int n ds c r : decimal n ds -> n <= i32_max -> is_digit c = false -> c <> 46 ->
  exists z, parse_iso8601_number (ds ++ c :: r) = Ok (n, z, c :: r) /\ rep z (IZR 0).
Proof.
  intros D L Hc Nc. destruct (decimal_facts _ _ D) as (F & N & P).
  assert (rep (f64_of_Z n) (IZR n)) as Rn.
  { apply rep_int. unfold i32_max in L. change (2 ^ 53) with 9007199254740992. lia. }
  eexists. split.
  - apply (iso_number _ (f64_of_Z n) (IZR n)); auto.
    + apply IZR_le; lia.
    + apply Zfloor_IZR.
    + apply IZR_le; lia.
    + destruct ds as [|d ds]; [easy|]. cbn in F |- *. now apply andb_prop in F.
    + now apply str2d_int.
    + destruct ds; [easy|]. rewrite app_length. cbn [length]. lia.
  - replace 0 with (n - n) by lia. apply rep_sub_int; auto. rewrite Z.sub_diag. vm_compute. discriminate.
Qed.

Lemma fract_secs_zero md z k x : rep z (IZR 0) -> fract_secs md z k x = Ok x.
Proof.
  intros Rz. unfold fract_secs, adjust_fract_seconds, fnz. rewrite (rep_eq _ _ _ _ Rz rep_f0), Req_bool_true by reflexivity.
  reflexivity.
Qed.
Lemma fract_days_zero md z k x : rep z (IZR 0) -> fract_days md z k x = Ok x.
Proof.
  intros Rz. unfold fract_days, adjust_fract_days, fnz. rewrite (rep_eq _ _ _ _ Rz rep_f0), Req_bool_true by reflexivity.
  reflexivity.
Qed.
Lemma year_frac_zero z : rep z (IZR 0) -> f64_to_i32 (fmul z (f64_of_Z MONTHS_PER_YEAR)) = 0.
Proof.
  intros Rz. apply rep_to_i32; [|rng; lia]. change 0 with (0 * 12). apply rep_mul_int; auto; [apply rep_int|];
    vm_compute; discriminate.
Qed.

(** The fraction left after the whole seconds are removed still rounds to the same microseconds. *)
Lemma rest_of_seconds s us : 0 <= s < 60 -> 0 < us < 1000000 ->
  let q := (IZR (s * 1000000 + us) / 1000000)%R in
  (IZR s <= rnd q < IZR s + 1)%R /\ (0 < rnd (rnd q - IZR s) < 1)%R /\
  ZnearestA (rnd (rnd (rnd q - IZR s) * 1000000)) = us.
Proof.
  intros Hs Hu. cbv zeta.
  set (q := (IZR (s * 1000000 + us) / 1000000)%R).
  assert (q = IZR s + IZR us / 1000000)%R as Eq.
  { unfold q. rewrite plus_IZR, mult_IZR. field. }
  assert (0 <= IZR s <= 59)%R as Bs by (split; apply IZR_le; lia).
  assert (1 <= IZR us <= 999999)%R as Bu by (split; apply IZR_le; lia).
  assert (/ 1000000 <= IZR us / 1000000 <= 1 - / 1000000)%R as Bf by lra.
  assert (Rabs (rnd q - q) <= 1 / 100000000)%R as E1.
  { eapply Rle_trans; [apply rnd_err_simple|].
    - rewrite Rabs_pos_eq by lra. apply Rle_trans with 60%R; [lra|]. pw; lra.
    - rewrite Rabs_pos_eq by lra.
      apply Rle_trans with (60 * / IZR (2 ^ 53) + / IZR (2 ^ 200))%R; [|pw; lra].
      apply Rplus_le_compat_r, Rmult_le_compat_r; [|lra]. apply Rlt_le, Rinv_0_lt_compat, IZR_lt. lia. }
  set (v := rnd q) in *. clearbody v. apply Rabs_le_inv in E1.
  assert (IZR s <= v < IZR s + 1)%R as Bv by lra.
  split; [exact Bv|].
  set (d := (v - IZR s)%R).
  assert (Rabs (d - IZR us / 1000000) <= 1 / 100000000)%R as E2 by (unfold d; apply Rabs_le; lra).
  assert (Rabs (rnd d - d) <= 1 / 100000000)%R as E3.
  { apply Rabs_le_inv in E2. eapply Rle_trans; [apply rnd_err_simple|].
    - rewrite Rabs_pos_eq by lra. apply Rle_trans with 60%R; [lra|]. pw; lra.
    - rewrite Rabs_pos_eq by lra.
      apply Rle_trans with (60 * / IZR (2 ^ 53) + / IZR (2 ^ 200))%R; [|pw; lra].
      apply Rplus_le_compat_r, Rmult_le_compat_r; [|lra]. apply Rlt_le, Rinv_0_lt_compat, IZR_lt. lia. }
  apply Rabs_le_inv in E2, E3. set (w := rnd d) in *. clearbody w.
  split; [lra|].
  set (p := (w * 1000000)%R).
  assert (Rabs (p - IZR us) <= 1 / 10)%R as E4 by (unfold p; apply Rabs_le; lra).
  assert (Rabs (rnd p - p) <= 1 / 100)%R as E5.
  { apply Rabs_le_inv in E4. eapply Rle_trans; [apply rnd_err_simple|].
    - rewrite Rabs_pos_eq by lra. apply Rle_trans with 1000001%R; [lra|]. pw; lra.
    - rewrite Rabs_pos_eq by lra.
      apply Rle_trans with (1000001 * / IZR (2 ^ 53) + / IZR (2 ^ 200))%R; [|pw; lra].
      apply Rplus_le_compat_r, Rmult_le_compat_r; [|lra]. apply Rlt_le, Rinv_0_lt_compat, IZR_lt. lia. }
  apply near_unique. apply Rabs_le_inv in E4, E5. apply Rabs_lt. lra.
Qed.

Lemma iso_sec md s us t c r tm : seconds_text 1 s us t -> 0 <= s < 60 -> 0 <= us < 1000000 -> is_digit c = false -> c <> 46 ->
  tm_sec tm = s ->
  exists fv, parse_iso8601_number (t ++ c :: r) = Ok (s, fv, c :: r) /\ fract_secs md fv 1 (tm, 0) = Ok (tm, us).
Proof.
  intros (ds & P & [[-> ->]|[N (fr & Fr & ->)]]) Hs Hu Hc Nc Tm.
  - destruct (iso_int s ds c r) as (z & E & Rz); auto; [now apply decimal_padded1|unfold i32_max; lia|].
    exists z. split; [exact E|]. now apply fract_secs_zero.
  - destruct (fraction_facts _ _ Fr) as (Ff & Lf & Ev & _).
    pose proof (padded_digits _ _ _ P) as Fd. destruct (padded_cons _ _ _ P) as (d0 & dr & Ed & Dd).
    assert (digits_value ds = s) as Vd by (apply padded_numeral in P; now destruct P as (_ & _ & V)).
    assert (length ds <= 2)%nat as Ld.
    { apply (padded_len _ _ _ _ P); [|lia]. change (10 ^ Z.of_nat 2) with 100. lia. }
    set (k := length fr) in *. set (m := dval s fr).
    assert (1 <= k <= 6)%nat as Hk by (unfold blen in Lf; fold k in Lf; lia).
    assert (m = s * 10 ^ Z.of_nat k + digits_value fr) as Em by (unfold m; rewrite dval_acc; reflexivity).
    pose proof (pow10_pos k) as Pk. pose proof (pow10_pos (6 - k)) as Pk'.
    assert (10 ^ Z.of_nat k * 10 ^ Z.of_nat (6 - k) = 1000000) as PP.
    { rewrite <- Z.pow_add_r by lia. replace (Z.of_nat k + Z.of_nat (6 - k)) with 6 by lia. reflexivity. }
    assert (m * 10 ^ Z.of_nat (6 - k) = s * 1000000 + us) as Emk.
    { rewrite Em, Ev, <- PP. ring. }
    assert (IZR m / IZR (10 ^ Z.of_nat k) = IZR (s * 1000000 + us) / 1000000)%R as Q.
    { change 1000000%R with (IZR 1000000). rewrite <- PP at 2. rewrite <- Emk, !mult_IZR. field. split; apply not_0_IZR; lia. }
    assert (0 <= m <= 60000000) as Bm.
    { assert (m <= m * 10 ^ Z.of_nat (6 - k)) by (assert (0 <= m) by (pose proof (digits_value_bound fr ltac:(now apply digits_forallb)); nia); nia).
      pose proof (digits_value_bound fr ltac:(now apply digits_forallb)). nia. }
    set (v := fdiv (f64_of_Z m) (f64_of_Z (10 ^ Z.of_nat k))).
    pose proof (rep_frac m k ltac:(change (2 ^ 53) with 9007199254740992; lia) ltac:(lia)) as Rv. fold v in Rv. rewrite Q in Rv.
    destruct (rest_of_seconds s us Hs ltac:(lia)) as (B1 & B2 & B3).
    set (q := (IZR (s * 1000000 + us) / 1000000)%R) in *.
    assert (str2d (ds ++ 46 :: fr ++ c :: r) = Ok (v, c :: r)) as S.
    { unfold str2d. rewrite Ed. cbn [app]. rewrite eat_ws_cons by (apply digit_not_space; now apply is_digit_iff).
      unfold extract_sign. apply is_digit_iff, digit_not_sign in Dd as [-> ->].
      change (d0 :: dr ++ 46 :: fr ++ c :: r) with ((d0 :: dr) ++ 46 :: fr ++ c :: r). rewrite <- Ed.
      unfold eat_digits. rewrite eat_app by easy.
      unfold blen. destruct (Z.ltb_spec 10 (Z.of_nat (length ds))); [lia|].
      change (46 =? 46) with true. cbv iota. rewrite eat_app by easy. unfold blen in Lf.
      destruct (Z.ltb_spec 7 (Z.of_nat (length fr))); [lia|].
      rewrite dval_value, Vd, !Z.mul_1_r. fold k m v. destruct fr; [cbn in Lf; lia|reflexivity]. }
    rewrite <- app_assoc. cbn [app].
    assert (IZR s <= 59)%R as Bs by (apply IZR_le; lia). assert (0 <= IZR s)%R as Bs0 by (apply IZR_le; lia).
    exists (fsub v (f64_of_Z s)). split.
    + apply (iso_number _ v (rnd q)); auto.
      * lra.
      * apply Zfloor_imp. rewrite plus_IZR. lra.
      * apply Rle_trans with 60%R; [lra|]. apply IZR_le. vm_compute. discriminate.
      * now rewrite Ed.
      * rewrite app_length. cbn [length]. rewrite app_length. cbn [length]. lia.
    + assert (rep (f64_of_Z s) (IZR s)) as Rs by (apply rep_int; change (2 ^ 53) with 9007199254740992; lia).
      assert (rep (fsub v (f64_of_Z s)) (rnd (rnd q - IZR s))) as Rf.
      { apply rep_sub; auto. apply small_bound with 60; [rewrite Rabs_pos_eq by lra; lra|vm_compute; discriminate]. }
      set (w := rnd (rnd q - IZR s)) in *. set (fv := fsub v (f64_of_Z s)) in *.
      assert (generic_format radix2 (SpecFloat.fexp 53 1024) w) as Gw.
      { unfold w. apply generic_format_round; [apply fexp_correct; reflexivity|apply valid_rnd_N]. }
      unfold fract_secs, adjust_fract_seconds, fnz. rewrite (rep_eq _ _ _ _ Rf rep_f0), Req_bool_false by lra. cbn [negb].
      assert (rep (fmul fv (f64_of_Z 1)) w) as R1.
      { rewrite <- (rnd_id w) by exact Gw. rewrite <- (Rmult_1_r w) at 1. apply rep_mul; auto; [apply (rep_int 1); vm_compute; discriminate|].
        apply small_bound with 1; [rewrite Rabs_pos_eq by lra; lra|vm_compute; discriminate]. }
      assert (f64_to_i32 (fmul fv (f64_of_Z 1)) = 0) as E0.
      { unfold f64_to_i32. rewrite (rep_to_int i32_min i32_max _ w) by (auto; vm_compute; intuition discriminate).
        rewrite Ztrunc_floor by lra. rewrite (Zfloor_imp 0) by (change (0 + 1) with 1; lra). reflexivity. }
      rewrite E0. change (f64_of_Z 0) with f0.
      assert (rep (fsub (fmul fv (f64_of_Z 1)) f0) w) as R2.
      { rewrite <- (rnd_id w) by exact Gw. rewrite <- (Rminus_0_r w) at 1. apply rep_sub; auto; [apply rep_f0|].
        apply small_bound with 1; [rewrite Rabs_pos_eq by lra; lra|vm_compute; discriminate]. }
      assert (usecs_of (fsub (fmul fv (f64_of_Z 1)) f0) = us) as E1.
      { rewrite usecs_of_f, (f_usecs_ok _ _ R2), B3.
        - unfold i64_min, i64_max. clear - Hu. lia.
        - apply small_bound with 1000000; [rewrite Rabs_pos_eq by lra; lra|vm_compute; discriminate]. }
      cbv zeta. cbn [fst]. rewrite Tm, Z.add_0_r, E1. unfold chk32.
      rewrite in32b_true by (rng; lia). cbn [ok_or step_set step_bind done]. unfold s_sec. cbn [fst snd].
      unfold add64. rewrite Z.add_0_l, ar64_ok by (rng; lia). cbn. destruct tm; cbn in *. subst. reflexivity.
Qed.

(** ** The ISO reader *)
Definition date_unit (u : unit5) : bool := match u with UHour | UMin => false | _ => true end.
Definition uletter (u : unit5) : Z :=
  match u with UYear => 89 | UMon => 77 | UDay => 68 | UHour => 72 | UMin => 77 end.
Definition iso_part (u : unit5) (v : Z) (t : bytes) : Prop :=
  if v =? 0 then t = [] else exists ds, decimal v ds /\ t = ds ++ [uletter u].

Lemma iso_step md u v t r fuel hf x : iso_part u v t -> 0 <= v <= i32_max -> uget u x = 0 ->
  in_i32 (tm_mon (fst x)) ->
  (length (t ++ r) < fuel)%nat ->
  exists fuel' hf', (length r < fuel')%nat /\
  iso_loop md fuel (t ++ r) (date_unit u) hf x = iso_loop md fuel' r (date_unit u) hf' (uset u v x).
Proof.
  intros P B X M L. unfold iso_part in P. destruct (Z.eqb_spec v 0) as [->|N].
  - subst t. exists fuel, hf. split; [exact L|]. now rewrite uset_same.
  - destruct P as (ds & D & ->). rewrite <- app_assoc in *. cbn [app] in *.
    assert (is_digit (uletter u) = false /\ uletter u <> 46) as [U1 U2] by (destruct u; split; (reflexivity || discriminate)).
    destruct (iso_int v ds (uletter u) r D ltac:(lia) U1 U2) as (z & E & Rz).
    destruct (decimal_facts _ _ D) as (F & Ne & _).
    destruct fuel as [|fuel]; [lia|]. exists fuel, true. rewrite app_length in L. cbn [length] in L.
    split; [destruct ds; [easy|cbn [length] in L; lia]|].
    destruct ds as [|d ds]; [easy|]. cbn [app] in *. cbn [iso_loop].
    assert (is_digit d = true) as Dd by (cbn in F; now apply andb_prop in F).
    destruct (Z.eqb_spec d 84) as [->|_]; [discriminate|].
    rewrite E. cbn [bind].
    assert (forall y, in_i32 y -> add32 md 0 y = Ok y) as A1 by (intros y Hy; unfold add32; rewrite Z.add_0_l; now apply ar32_ok).
    assert (in_i32 v) as Rv by (rng; unfold i32_max in *; lia).
    destruct u; cbn [uget] in X; cbn [date_unit uletter uset] in *.
    + change (89 =? 89) with true. cbv iota. unfold add_year. rewrite X, A1 by easy. cbn [upd bind].
      rewrite year_frac_zero by easy. unfold add_mon, add32. rewrite Z.add_0_r.
      replace (tm_mon (fst (s_year v x))) with (tm_mon (fst x)) by now destruct x as [[] ?].
      rewrite (ar32_ok md _ M). cbn [upd bind]. f_equal.
    + change (77 =? 89) with false. change (77 =? 77) with true. cbv iota. unfold add_mon. rewrite X, A1 by easy.
      cbn [upd bind]. now rewrite fract_days_zero.
    + change (68 =? 89) with false. change (68 =? 77) with false. change (68 =? 87) with false. change (68 =? 68) with true.
      cbv iota. unfold add_mday. rewrite X, A1 by easy. cbn [upd bind]. now rewrite fract_secs_zero.
    + change (72 =? 72) with true. cbv iota. unfold add_hour. rewrite X, A1 by easy. cbn [upd bind]. now rewrite fract_secs_zero.
    + change (77 =? 72) with false. change (77 =? 77) with true.
      cbv iota. unfold add_min. rewrite X, A1 by easy. cbn [upd bind]. now rewrite fract_secs_zero.
Qed.

Lemma iso_sec_step md s us t fuel hf tm : seconds_text 1 s us t -> 0 <= s < 60 -> 0 <= us < 1000000 ->
  tm_sec tm = 0 -> (length (t ++ [83%Z]) < fuel)%nat ->
  iso_loop md fuel (t ++ [83]) false hf (tm, 0) = Ok (s_fsec us (s_sec s (tm, 0))).
Proof.
  intros Sc Hs Hu X L.
  destruct (iso_sec md s us t 83 [] (set_sec s tm) Sc Hs Hu eq_refl ltac:(discriminate)) as (fv & E & Q); [now destruct tm|].
  assert (exists d r, t = d :: r /\ is_digit d = true) as (d & r & -> & Dd).
  { destruct Sc as (ds & P & H). destruct (padded_cons _ _ _ P) as (c & q & -> & Dc).
    destruct H as [[_ ->]|[_ (fr & _ & ->)]]; cbn [app]; eauto. }
  destruct fuel as [|[|fuel]]; [cbn in L; lia..|]. cbn [app] in *.
  assert (forall f, iso_loop md (S f) [] false true (set_sec s tm, us) = Ok (set_sec s tm, us)) as Fin by reflexivity.
  remember (S fuel) as f1. cbn [iso_loop].
  destruct (Z.eqb_spec d 84) as [->|_]; [discriminate|]. rewrite E. cbn [bind].
  change (83 =? 72) with false. change (83 =? 77) with false. change (83 =? 83) with true. cbv iota.
  unfold add_sec. cbn [fst]. unfold add32. rewrite X, Z.add_0_l, ar32_ok by (rng; lia). cbn [upd bind].
  change (s_sec s (tm, 0)) with (set_sec s tm, 0). rewrite Q. cbn [bind]. subst f1. apply Fin.
Qed.

(** ** The text as a single field *)
Lemma iso_tokens b : forallb date_word_char b = true -> (length b <= 126)%nat ->
  (exists d r, is_digit d = true /\ (b = d :: r \/ b = 84 :: d :: r)) ->
  exists t, parse_date_time (80 :: b) = Ok [(Some KDate, 112 :: t)].
Proof.
  intros F L (d & r & Dd & H).
  assert (is_alpha d = false) as Ad by (destruct (is_alpha d) eqn:A; [|easy]; now rewrite alpha_not_digit in Dd).
  assert (exists t, alpha_begin (80 :: b) = Ok ((Some KDate, 112 :: t), []) /\ blen (112 :: t) <= 127) as (t & E & Lt).
  { assert ((d =? 45) || (d =? 47) || (d =? 46) = false) as E1
      by (apply is_digit_iff in Dd; unfold digit in Dd; lia).
    unfold blen. destruct H as [-> | ->].
    - exists (d :: r). split; [|cbn [length] in *; lia]. unfold alpha_begin, eat_alphabetics.
      change (80 :: d :: r) with ([80] ++ d :: r). rewrite eat_app by easy. rewrite E1, Dd, orb_true_r.
      change (search_date_token (lowers [80])) with (Ok (A := option date_token) None). cbn [bind].
      now rewrite eat_all.
    - exists (116 :: d :: r). split; [|cbn [length] in *; lia]. unfold alpha_begin, eat_alphabetics.
      change (80 :: 84 :: d :: r) with ([80; 84] ++ d :: r). rewrite eat_app by easy. rewrite E1, Dd, orb_true_r.
      change (search_date_token (lowers [80; 84])) with (Ok (A := option date_token) None). cbn [bind].
      rewrite eat_all; [reflexivity|]. cbn [forallb] in F. now apply andb_prop in F. }
  exists t. unfold parse_date_time. remember (length (80 :: b)) as n. destruct n as [|n]; [discriminate|].
  cbn [tokenize]. rewrite eat_ws_cons by easy. change (MAX_DATE_FIELDS <=? 0) with false. cbv iota.
  change (is_digit 80) with false. change (80 =? 46) with false. change (is_alpha 80) with true. cbv iota.
  rewrite E. cbn [bind fst snd]. unfold use_buf, MAX_DATE_LEN. destruct (Z.leb_spec (blen (112 :: t)) 128); [|lia].
  reflexivity.
Qed.

(** ** Reading and the whole round trip *)
Lemma iso_field md t : interval_fields md INTERVAL_FULL_RANGE [(Some KDate, 112 :: t)] init_i (tm_new, 0)
  = ((tm_new, 0), Err EInvalid).
Proof. reflexivity. Qed.

Lemma iso_chars v u t : iso_part u v t -> forallb date_word_char t = true.
Proof.
  unfold iso_part. destruct (v =? 0); [now intros ->|]. intros (ds & D & ->). destruct (decimal_facts _ _ D) as (F & _).
  rewrite forallb_app'. rewrite (forallb_weaken is_digit) by (auto; intros x E; unfold date_word_char, is_alnum; now rewrite E, !orb_true_r).
  now destruct u.
Qed.
Lemma iso_len v u t : iso_part u v t -> v <= i32_max -> (length t <= 11)%nat.
Proof.
  unfold iso_part. destruct (v =? 0); [intros -> _; cbn; lia|]. intros (ds & D & ->) L. rewrite app_length. cbn [length].
  enough (length ds <= 10)%nat by lia. apply (decimal_len v); [easy| |lia].
  change (10 ^ Z.of_nat 10) with 10000000000. unfold i32_max in L. lia.
Qed.
Lemma iso_head v u t : iso_part u v t -> (v = 0 /\ t = []) \/ exists d r, t = d :: r /\ is_digit d = true.
Proof.
  unfold iso_part. destruct (Z.eqb_spec v 0) as [->|]; [auto|]. intros (ds & D & ->). right.
  destruct (decimal_cons _ _ D) as (c & r & -> & E). cbn [app]. eauto.
Qed.
Lemma iso_int_part v u : 0 <= v <= i32_max -> exists t, add_iso8601_int_part v (uletter u) = Ok t /\ iso_part u v t.
Proof.
  intros B. unfold add_iso8601_int_part, iso_part. destruct (Z.eqb_spec v 0); [eauto|].
  destruct (pg_ltostr_ok v) as (t & -> & I & _); [rng; unfold i32_max in *; lia|]. cbn [bind].
  unfold int_text in I. destruct (Z.ltb_spec v 0); [lia|]. eauto.
Qed.

Definition iso_secs (s us : Z) (t : bytes) : Prop :=
  if nz s || nz us then exists ts, seconds_text 1 s us ts /\ t = ts ++ [83] else t = [].

Lemma sec_chars w s us t : seconds_text w s us t -> forallb date_word_char t = true.
Proof.
  intros T. apply time_chars in T. revert T. apply forallb_weaken. intros x. unfold time_char, date_word_char, is_alnum.
  destruct (is_digit x), (x =? 58), (x =? 46); cbn; rewrite ?orb_true_r; easy.
Qed.
Lemma sec_head w s us t : seconds_text w s us t -> exists d r, t = d :: r /\ is_digit d = true.
Proof.
  intros (ds & P & H). destruct (padded_cons _ _ _ P) as (c & q & -> & Dc).
  destruct H as [[_ ->]|[_ (fr & _ & ->)]]; cbn [app]; eauto.
Qed.
Lemma sec_len s us t : seconds_text 1 s us t -> 0 <= s < 60 -> (length t <= 9)%nat.
Proof.
  intros (ds & P & H) B.
  assert (length ds <= 2)%nat as L.
  { apply (padded_len _ _ _ _ P); [|lia]. change (10 ^ Z.of_nat 2) with 100. lia. }
  destruct H as [[_ ->]|[_ (fr & F & ->)]]; [lia|]. apply fraction_facts in F as (_ & F & _). unfold blen in F.
  rewrite app_length. cbn [length]. lia.
Qed.

Lemma iso_body md y mo d h mi s us ty tmo td th tmi ts fuel :
  iso_part UYear y ty -> iso_part UMon mo tmo -> iso_part UDay d td -> iso_part UHour h th -> iso_part UMin mi tmi ->
  iso_secs s us ts -> 0 <= y <= i32_max -> 0 <= mo <= i32_max -> 0 <= d <= i32_max -> 0 <= h <= i32_max -> 0 <= mi <= i32_max ->
  0 <= s < 60 -> 0 <= us < 1000000 ->
  let b := ty ++ tmo ++ td ++ (if nz h || nz mi || nz s || nz us then [84] else []) ++ th ++ tmi ++ ts in
  (length b < fuel)%nat ->
  iso_loop md fuel b true false (tm_new, 0) = Ok (mkTm s mi h d mo y 0 0 (-1), us).
Proof.
  intros Py Pmo Pd Ph Pmi Ps By Bmo Bd Bh Bmi Bs Bus. cbv zeta. intros L.
  destruct (iso_step md UYear y ty (tmo ++ td ++ (if nz h || nz mi || nz s || nz us then [84] else []) ++ th ++ tmi ++ ts)
    fuel false (tm_new, 0) Py By eq_refl ltac:(rng; cbn; lia) L) as (f1 & hf1 & L1 & E1).
  change true with (date_unit UYear). rewrite E1. clear E1 L. change (date_unit UYear) with (date_unit UMon).
  destruct (iso_step md UMon mo tmo (td ++ (if nz h || nz mi || nz s || nz us then [84] else []) ++ th ++ tmi ++ ts)
    f1 hf1 (uset UYear y (tm_new, 0)) Pmo Bmo eq_refl ltac:(rng; cbn; lia) L1) as (f2 & hf2 & L2 & E2).
  rewrite E2. clear E2 L1. change (date_unit UMon) with (date_unit UDay).
  destruct (iso_step md UDay d td ((if nz h || nz mi || nz s || nz us then [84] else []) ++ th ++ tmi ++ ts)
    f2 hf2 (uset UMon mo (uset UYear y (tm_new, 0))) Pd Bd eq_refl ltac:(rng; cbn; unfold i32_max in *; lia) L2) as (f3 & hf3 & L3 & E3).
  rewrite E3. clear E3 L2.
  change (uset UDay d (uset UMon mo (uset UYear y (tm_new, 0)))) with (mkTm 0 0 0 d mo y 0 0 (-1), 0).
  destruct (nz h || nz mi || nz s || nz us) eqn:T.
  - cbn [app length] in *. destruct f3 as [|f3]; [lia|].
    assert (iso_loop md (S f3) (84 :: th ++ tmi ++ ts) (date_unit UDay) hf3 (mkTm 0 0 0 d mo y 0 0 (-1), 0) =
      iso_loop md f3 (th ++ tmi ++ ts) (date_unit UHour) false (mkTm 0 0 0 d mo y 0 0 (-1), 0)) as -> by reflexivity.
    destruct (iso_step md UHour h th (tmi ++ ts) f3 false (mkTm 0 0 0 d mo y 0 0 (-1), 0) Ph Bh eq_refl
      ltac:(rng; cbn; unfold i32_max in *; lia) ltac:(lia)) as (f4 & hf4 & L4 & E4).
    rewrite E4. clear E4 L3. change (date_unit UHour) with (date_unit UMin).
    change (uset UHour h (mkTm 0 0 0 d mo y 0 0 (-1), 0)) with (mkTm 0 0 h d mo y 0 0 (-1), 0).
    destruct (iso_step md UMin mi tmi ts f4 hf4 (mkTm 0 0 h d mo y 0 0 (-1), 0) Pmi Bmi eq_refl
      ltac:(rng; cbn; unfold i32_max in *; lia) L4) as (f5 & hf5 & L5 & E5).
    rewrite E5. clear E5 L4.
    change (uset UMin mi (mkTm 0 0 h d mo y 0 0 (-1), 0)) with (mkTm 0 mi h d mo y 0 0 (-1), 0).
    unfold iso_secs in Ps. destruct (nz s || nz us) eqn:Q.
    + destruct Ps as (t & S' & ->). change (date_unit UMin) with false. now rewrite (iso_sec_step md s us t).
    + subst ts. destruct f5; [cbn in L5; lia|]. unfold nz in Q.
      assert (s = 0 /\ us = 0) as [-> ->] by lia. reflexivity.
  - unfold nz in T. assert (h = 0 /\ mi = 0 /\ s = 0 /\ us = 0) as (-> & -> & -> & ->) by lia.
    unfold iso_part in Ph, Pmi. cbn in Ph, Pmi, Ps. subst th tmi ts. cbn [app].
    destruct f3; [cbn in L3; lia|]. reflexivity.
Qed.

Theorem iso_ok md a : writable_iv a -> 0 <= iv_month a -> 0 <= iv_day a -> 0 <= iv_time a ->
  exists txt, interval_format md a IISO8601 = Ok txt /\ (length txt <= 127)%nat /\
  forall st, read_back md a (interval_try_from_str md txt (-1) st).
Proof.
  intros V Nm Nd Nt. destruct (fields_of md a V) as (ny & y & mo & nt & h & mi & s & us & F & (My & Mm & Mn) & (Th & Tm & Ts & Tu & Tn) & D & Em & Et & Rm).
  assert (ny = false) as -> by (destruct ny; [specialize (Mn eq_refl); cbn [sg] in Em; lia|easy]).
  assert (nt = false) as -> by (destruct nt; [specialize (Tn eq_refl); cbn [sg] in Et; unfold clock in Et; lia|easy]).
  cbn [sg] in *. clear Mn Tn.
  unfold interval_format. rewrite F. cbn [bind fst snd format_interval]. unfold format_iso8601.
  cbn [tm_year tm_mon tm_mday tm_hour tm_min tm_sec].
  assert (forall x st, read_back md a (interval_from_pgtime md (fst x) (snd x)) -> forall txt t, parse_date_time txt = Ok [(Some KDate, 112 :: t)] ->
    decode_iso8601_interval md txt (tm_new, 0) = Ok x -> read_back md a (interval_try_from_str md txt (-1) st)) as Fin.
  { intros x st E txt t P R. unfold interval_try_from_str. change (0 <=? -1) with false. cbv iota. rewrite P. cbn [bind].
    unfold decode_interval. fold init_i. cbn [rev app fst]. rewrite iso_field. cbn [step_bind]. rewrite R. cbn [bind].
    match type of E with read_back _ _ ?r => destruct r end; exact E. }
  assert (read_back md a (interval_from_pgtime md (mkTm s mi h (iv_day a) mo y 0 0 (-1)) us)) as A.
  { apply from_pgtime_back; auto; try lia; [now rewrite <- Em|rng; lia|left; lia]. }
  destruct (negb _) eqn:Z0.
  - unfold nz in Z0. assert (y = 0 /\ mo = 0 /\ iv_day a = 0 /\ h = 0 /\ mi = 0 /\ s = 0 /\ us = 0) as (-> & -> & Ed & -> & -> & -> & ->) by lia.
    rewrite Ed in A. eexists. split; [reflexivity|]. split; [vm_compute; lia|]. intros st.
    apply (Fin (mkTm 0 0 0 0 0 0 0 0 (-1), 0) st A (bs "PT0S") (bs "t0S")); [reflexivity|]. destruct md; vm_compute; reflexivity.
  - assert (y <= i32_max) as By by (unfold i32_max; lia). assert (mo <= i32_max) as Bmo by (unfold i32_max; lia).
    assert (h <= i32_max) as Bh by (unfold i32_max; lia). assert (mi <= i32_max) as Bmi by (unfold i32_max; lia).
    assert (iv_day a <= i32_max) as Bd by lia.
    destruct (iso_int_part y UYear ltac:(lia)) as (ty & E1 & P1). cbn [uletter] in E1. rewrite E1. cbn [bind].
    destruct (iso_int_part mo UMon ltac:(lia)) as (tmo & E2 & P2). cbn [uletter] in E2. rewrite E2. cbn [bind].
    destruct (iso_int_part (iv_day a) UDay ltac:(lia)) as (td & E3 & P3). cbn [uletter] in E3. rewrite E3. cbn [bind].
    destruct (iso_int_part h UHour ltac:(lia)) as (th & E4 & P4). cbn [uletter] in E4. rewrite E4. cbn [bind].
    destruct (iso_int_part mi UMin ltac:(lia)) as (tmi & E5 & P5). cbn [uletter] in E5. rewrite E5. cbn [bind].
    assert (exists ts, (if nz s || nz us then
        let* s0 := append_seconds md s us MAX_PRECISION false in
        Ok ((if (s <? 0) || (us <? 0) then [45] else []) ++ s0 ++ [83])
      else Ok []) = Ok ts /\ iso_secs s us ts) as (ts & E6 & P6).
    { unfold iso_secs. destruct (nz s || nz us); [|eauto].
      destruct (append_seconds_ok md s us false) as (t & E & T); [lia..|]. unfold MAX_PRECISION. rewrite E. cbn [bind].
      rewrite !Z.abs_eq in T by lia. destruct (Z.ltb_spec s 0); [lia|]. destruct (Z.ltb_spec us 0); [lia|]. cbn [orb app]. eauto. }
    rewrite E6. cbn [bind].
    set (b := ty ++ tmo ++ td ++ (if nz h || nz mi || nz s || nz us then [84] else []) ++ th ++ tmi ++ ts).
    assert (length b <= 66)%nat as Lb.
    { unfold b. rewrite !app_length.
      pose proof (iso_len _ _ _ P1 ltac:(lia)). pose proof (iso_len _ _ _ P2 ltac:(lia)). pose proof (iso_len _ _ _ P3 ltac:(lia)).
      pose proof (iso_len _ _ _ P4 ltac:(lia)). pose proof (iso_len _ _ _ P5 ltac:(lia)).
      assert (length ts <= 10)%nat.
      { unfold iso_secs in P6. destruct (nz s || nz us); [|subst; cbn; lia]. destruct P6 as (t & T & ->).
        apply sec_len in T; [|easy]. rewrite app_length. cbn [length]. lia. }
      assert (length (if nz h || nz mi || nz s || nz us then [84%Z] else []) <= 1)%nat by (destruct (nz h || nz mi || nz s || nz us); cbn; lia). lia. }
    assert (forallb date_word_char b = true) as Fb.
    { unfold b. rewrite !forallb_app'. rewrite (iso_chars _ _ _ P1), (iso_chars _ _ _ P2), (iso_chars _ _ _ P3), (iso_chars _ _ _ P4), (iso_chars _ _ _ P5).
      assert (forallb date_word_char ts = true) as ->.
      { unfold iso_secs in P6. destruct (nz s || nz us); [|now subst]. destruct P6 as (t & T & ->).
        rewrite forallb_app', (sec_chars _ _ _ _ T). reflexivity. }
      now destruct (nz h || nz mi || nz s || nz us). }
    assert (exists d r, is_digit d = true /\ (b = d :: r \/ b = 84 :: d :: r)) as Hb.
    { unfold b.
      destruct (iso_head _ _ _ P1) as [[Y1 ->]|(c & r & -> & Dc)]; [|cbn [app]; eauto].
      destruct (iso_head _ _ _ P2) as [[Y2 ->]|(c & r & -> & Dc)]; [|cbn [app]; eauto].
      destruct (iso_head _ _ _ P3) as [[Y3 ->]|(c & r & -> & Dc)]; [|cbn [app]; eauto].
      assert (nz h || nz mi || nz s || nz us = true) as ->.
      { rewrite Y1, Y2, Y3 in Z0. change (nz 0) with false in Z0. cbn [orb] in Z0. now apply negb_false_iff in Z0. }
      cbn [app].
      destruct (iso_head _ _ _ P4) as [[Y4 ->]|(c & r & -> & Dc)]; [|cbn [app]; eauto].
      destruct (iso_head _ _ _ P5) as [[Y5 ->]|(c & r & -> & Dc)]; [|cbn [app]; eauto].
      unfold iso_secs in P6. destruct (nz s || nz us) eqn:Q.
      - destruct P6 as (t & T & ->). destruct (sec_head _ _ _ _ T) as (c & r & -> & Dc). cbn [app]. eauto.
      - rewrite Y1, Y2, Y3, Y4, Y5 in Z0. change (nz 0) with false in Z0. cbn [orb] in Z0. rewrite Q in Z0. discriminate. }
    exists (80 :: b). split; [apply fits_ok; cbn [length]; lia|]. split; [cbn [length]; lia|]. intros st.
    destruct (iso_tokens b Fb ltac:(lia) Hb) as (t & Et').
    apply (Fin (mkTm s mi h (iv_day a) mo y 0 0 (-1), us) st A (80 :: b) t Et').
    unfold decode_iso8601_interval. cbn [fst]. destruct b as [|c0 b0] eqn:Eb; [destruct Hb as (? & ? & _ & [?|?]); discriminate|].
    change (80 =? 80) with true. cbv iota. rewrite <- Eb. unfold b. apply iso_body; auto; lia.
Qed.
