(** Fractions of units: the floating point conversions are exact for up to six decimals. *)
From Verif Require Import Model.Parse Spec.Calendar Spec.Ranges Spec.Clock Spec.Text Spec.IntervalS
  Proofs.Arith Proofs.TsP Proofs.IntervalP Proofs.FloatP Proofs.ClockP Proofs.DigitsP Proofs.ParseP Proofs.IvReadP Proofs.PartsP.
From Coq Require Import Reals Lra.
From Flocq Require Import Core IEEE754.BinarySingleNaN.
Open Scope Z_scope.

Lemma close_mul f a e k B : close f a e -> 0 <= k <= 2 ^ 53 ->
  (- (B - IZR k * e) <= a * IZR k <= B - IZR k * e)%R -> (B <= 100000000000000000000)%R ->
  close (fmul f (f64_of_Z k)) (a * IZR k) (IZR k * e + eps B).
Proof.
  intros (v & Rv & Hv) Hk HB PB.
  assert (0 <= IZR k)%R as K0 by (apply IZR_le; lia).
  assert (Rabs (v * IZR k - a * IZR k) <= IZR k * e)%R as E.
  { rewrite <- Rmult_minus_distr_r, Rabs_mult, (Rabs_pos_eq (IZR k)) by lra. rewrite Rmult_comm. now apply Rmult_le_compat_l. }
  assert (Rabs (v * IZR k) <= B)%R as Bv.
  { apply of_rabs in E. apply rabs_le. lra. }
  exists (rnd (v * IZR k)). split.
  - apply rep_mul; [exact Rv|apply rep_int; lia|]. apply big_bound. lra.
  - pose proof (rnd_close _ _ Bv) as R. apply of_rabs in E, R. apply rabs_le. lra.
Qed.

Lemma close_sub f a e k B : close f a e -> Z.abs k <= 2 ^ 53 ->
  (- (B - e) <= a - IZR k <= B - e)%R -> (B <= 100000000000000000000)%R ->
  close (fsub f (f64_of_Z k)) (a - IZR k) (e + eps B).
Proof.
  intros (v & Rv & Hv) Hk HB PB. apply of_rabs in Hv.
  assert (Rabs (v - IZR k) <= B)%R as Bv by (apply rabs_le; lra).
  exists (rnd (v - IZR k)). split.
  - apply rep_sub; [exact Rv|apply rep_int; lia|]. apply big_bound. lra.
  - pose proof (rnd_close _ _ Bv) as R. apply of_rabs in R. apply rabs_le. lra.
Qed.

(** Truncation of a float within 1 of its limit stays within 1 of the value. *)
Lemma trunc_near v : (-100000 <= v <= 100000)%R -> exists q, Ztrunc v = q /\ (Rabs (v - IZR q) < 1)%R /\ (-100000 <= q <= 100000)%Z.
Proof.
  intros H. exists (Ztrunc v). split; [reflexivity|]. destruct (Rle_or_lt 0 v) as [P|P].
  - rewrite Ztrunc_floor by exact P. pose proof (Zfloor_lb v) as L. pose proof (Zfloor_ub v) as U. split.
    + apply Rabs_lt. lra.
    + split; apply le_IZR; [apply Rle_trans with 0%R; [lra|apply IZR_le; now apply Zfloor_lub]|lra].
  - rewrite Ztrunc_ceil by lra. pose proof (Zceil_ub v) as U.
    assert (IZR (Zceil v) - 1 < v)%R as L by (unfold Zceil; rewrite opp_IZR; pose proof (Zfloor_ub (- v)); lra).
    split.
    + apply Rabs_lt. lra.
    + split; apply le_IZR; [lra|apply Rle_trans with 0%R; [apply IZR_le; apply Zceil_glb; lra|lra]].
Qed.

Lemma usecs_near f a e n : close f a e -> (a * 1000000 = IZR n)%R -> (-3 <= a <= 3)%R -> (0 <= e <= 4 / 10000000)%R -> usecs_of f = n.
Proof.
  intros (v & Rv & Hv) E Ba Be. apply of_rabs in Hv.
  assert (Rabs (v * 1000000) <= 4000000)%R as B by (apply rabs_le; lra).
  rewrite usecs_of_f, (f_usecs_ok _ _ Rv) by (apply big_bound; lra).
  pose proof (rnd_close _ _ B) as R. unfold eps in R. apply of_rabs in R.
  rewrite (near_unique _ n) by (apply Rabs_lt; lra).
  assert (-3000000 <= n <= 3000000) by (split; apply le_IZR; lra).
  unfold i64_min, i64_max. lia.
Qed.

Lemma set_sec_same tm : set_sec (tm_sec tm) tm = tm.
Proof. destruct tm; reflexivity. Qed.
Lemma set_mday_same tm : set_mday (tm_mday tm) tm = tm.
Proof. destruct tm; reflexivity. Qed.
Lemma set_mon_same tm : set_mon (tm_mon tm) tm = tm.
Proof. destruct tm; reflexivity. Qed.

(** A fraction [a] of [S] seconds that is a whole number [n] of microseconds *)
Lemma adjust_seconds_exact md f a e S n tm us : close f a e -> (-1 <= a <= 1)%R -> (0 <= e)%R -> (e * IZR S <= 2 / 10000000)%R ->
  1 <= S <= 86400 -> (a * IZR S * 1000000 = IZR n)%R ->
  Z.abs (tm_sec tm) <= 2000000000 -> Z.abs us <= 2000000000 ->
  exists q r, adjust_fract_seconds md f S (tm, us) = ((set_sec (tm_sec tm + q) tm, us + r), Ok tt)
    /\ q * 1000000 + r = n /\ Z.abs q <= 100000 /\ Z.abs r <= 3000000.
Proof.
  intros C Ba Be0 BeS HS E Bs Bu. unfold adjust_fract_seconds.
  assert (1 <= IZR S <= 86400)%R as RS by (split; apply IZR_le; lia).
  assert (0 <= e <= 2 / 10000000)%R as Be by nra.
  destruct (fnz f) eqn:NZ; cbn [negb].
  2:{ exists 0, 0. rewrite !Z.add_0_r, set_sec_same. split; [reflexivity|]. split; [|lia].
      destruct C as (v & Rv & Hv). unfold fnz in NZ. rewrite (rep_eq _ _ _ _ Rv rep_f0) in NZ.
      apply negb_false_iff in NZ. apply Req_bool_true in NZ || (destruct (Req_bool_spec v 0) as [->|]; [|discriminate NZ]).
      apply of_rabs in Hv.
      assert (n = 0) as ->; [|reflexivity]. apply eq_IZR. 
      assert (Rabs (IZR n) < 1)%R as L. { rewrite <- E. assert (- (e * IZR S) <= a * IZR S <= e * IZR S)%R by nra. apply Rabs_lt. lra. }
      rewrite <- abs_IZR in L. apply lt_IZR in L. f_equal. lia. }
  assert (close (fmul f (f64_of_Z S)) (a * IZR S) (5 / 20000000)) as C1.
  { eapply close_weaken; [apply (close_mul f a e S 86401 C); [lia|nra|lra]|]. unfold eps. lra. }
  destruct C1 as (v & Rv & Hv). apply of_rabs in Hv. set (p := fmul f (f64_of_Z S)) in *.
  destruct (trunc_near v ltac:(nra)) as (q & Eq & Vq & Bq).
  assert (f64_to_i32 p = q) as Fq.
  { unfold f64_to_i32. rewrite (rep_to_int i32_min i32_max _ v) by (auto; vm_compute; intuition discriminate).
    rewrite Eq. unfold i32_min, i32_max. lia. }
  cbv zeta. rewrite Fq. cbn [fst snd].
  assert (IZR q * 1 = IZR q)%R as Q1 by lra. apply Rabs_def2 in Vq.
  assert (close (fsub p (f64_of_Z q)) (a * IZR S - IZR q) (3 / 10000000)) as C2.
  { eapply close_weaken; [apply (close_sub p (a * IZR S) (5 / 20000000) q 3)|].
    - exists v. split; [exact Rv|]. apply rabs_le. lra.
    - change (2 ^ 53) with 9007199254740992. lia.
    - lra.
    - lra.
    - unfold eps. lra. }
  assert ((a * IZR S - IZR q) * 1000000 = IZR (n - q * 1000000))%R as En.
  { rewrite minus_IZR, mult_IZR, <- E. ring. }
  assert (usecs_of (fsub p (f64_of_Z q)) = n - q * 1000000) as Eu by (apply (usecs_near _ _ _ _ C2 En); lra).
  assert (Z.abs (n - q * 1000000) <= 3000000) as Br.
  { apply le_IZR. rewrite abs_IZR, <- En. apply rabs_le. lra. }
  exists q, (n - q * 1000000). rewrite Eu. unfold chk32. rewrite in32b_true by (rng; lia). cbn [ok_or step_set step_bind].
  unfold s_sec, s_fsec. cbn [fst snd]. unfold add64. rewrite ar64_ok by (rng; lia). cbn [step_set fst snd].
  split; [reflexivity|]. lia.
Qed.

(** ** Fractions of weeks and months *)

Lemma trunc_apart (x v : R) (d : Z) : (IZR d + 1 / 1000000 <= x <= IZR d + 1 - 1 / 1000000)%R -> (Rabs (v - x) <= 1 / 10000000)%R -> (0 <= d) -> Ztrunc v = d.
Proof.
  intros Hx Hv Hd. apply of_rabs in Hv. assert (0 <= IZR d)%R by (apply IZR_le; lia).
  rewrite Ztrunc_floor by lra. apply Zfloor_imp. rewrite plus_IZR. lra.
Qed.

Definition back (S d : Z) : bool := f64_to_i32 (fmul (fdiv (f64_of_Z d) (f64_of_Z S)) (f64_of_Z S)) =? d.
Lemma back_7 : forallb (back 7) [0; 1; 2; 3; 4; 5; 6] = true. Proof. vm_compute. reflexivity. Qed.
Lemma back_12 : forallb (back 12) [0; 1; 2; 3; 4; 5; 6; 7; 8; 9; 10; 11] = true. Proof. vm_compute. reflexivity. Qed.
Lemma back_30 : forallb (back 30) [0; 1; 2; 3; 4; 5; 6; 7; 8; 9; 10; 11; 12; 13; 14; 15; 16; 17; 18; 19; 20; 21; 22; 23; 24; 25; 26; 27; 28; 29] = true.
Proof. vm_compute. reflexivity. Qed.
Definition scale (S : Z) : Prop := S = 7 \/ S = 12 \/ S = 30.
Lemma back_ok S d : scale S -> 0 <= d < S -> back S d = true.
Proof.
  intros [->|[->| ->]] H.
  - apply (proj1 (forallb_forall _ _) back_7). assert (d = 0 \/ d = 1 \/ d = 2 \/ d = 3 \/ d = 4 \/ d = 5 \/ d = 6) as K by lia.
    cbn. intuition.
  - apply (proj1 (forallb_forall _ _) back_12). cbn. lia.
  - apply (proj1 (forallb_forall _ _) back_30). cbn. lia.
Qed.

Lemma scale_bounds S : scale S -> 7 <= S <= 30.
Proof. unfold scale. lia. Qed.

Lemma trunc_back S d : scale S -> 0 <= d < S -> Ztrunc (rnd (rnd (IZR d / IZR S) * IZR S)) = d.
Proof.
  intros HS Hd. pose proof (scale_bounds S HS) as BS. pose proof (back_ok S d HS Hd) as B. unfold back in B.
  assert (7 <= IZR S <= 30)%R as RS by (split; apply IZR_le; lia).
  assert (0 <= IZR d < IZR S)%R as Rd by (split; [apply IZR_le|apply IZR_lt]; lia).
  assert (0 <= IZR d / IZR S <= 1)%R as Bq.
  { split; [apply Rmult_le_pos; [lra|apply Rlt_le, Rinv_0_lt_compat; lra]|]. apply Rmult_le_reg_r with (IZR S); [lra|]. unfold Rdiv. rewrite Rmult_assoc, Rinv_l by lra. lra. }
  assert (rep (fdiv (f64_of_Z d) (f64_of_Z S)) (rnd (IZR d / IZR S))) as R1.
  { apply rep_div; [apply rep_int; change (2 ^ 53) with 9007199254740992; lia|apply rep_int; change (2 ^ 53) with 9007199254740992; lia|lra|].
    apply big_bound. apply rabs_le. lra. }
  assert (Rabs (rnd (IZR d / IZR S) - IZR d / IZR S) <= 1)%R as E1.
  { pose proof (rnd_close (IZR d / IZR S) 1 ltac:(apply rabs_le; lra)) as H. unfold eps in H. apply of_rabs in H. apply rabs_le. lra. }
  apply of_rabs in E1.
  assert (rep (fmul (fdiv (f64_of_Z d) (f64_of_Z S)) (f64_of_Z S)) (rnd (rnd (IZR d / IZR S) * IZR S))) as R2.
  { apply rep_mul; [exact R1|apply rep_int; change (2 ^ 53) with 9007199254740992; lia|].
    apply big_bound. apply rabs_le. nra. }
  apply Z.eqb_eq in B. rewrite <- B at 2. unfold f64_to_i32. rewrite (rep_to_int i32_min i32_max _ _) with (2 := R2) by (vm_compute; intuition discriminate).
  unfold f64_to_i32 in B. rewrite (rep_to_int i32_min i32_max _ _) with (2 := R2) in B by (vm_compute; intuition discriminate).
  unfold i32_min, i32_max in *. lia.
Qed.

Lemma trunc_scale_pos N P S : scale S -> 1 <= P <= 1000000 -> 0 <= N < P ->
  Ztrunc (rnd (rnd (IZR N / IZR P) * IZR S)) = Z.quot (S * N) P.
Proof.
  intros HS HP HN. pose proof (scale_bounds S HS) as BS.
  rewrite Z.quot_div_nonneg by lia.
  pose proof (Z.div_mod (S * N) P ltac:(lia)) as DM. pose proof (Z.mod_pos_bound (S * N) P ltac:(lia)) as BM.
  set (d := S * N / P) in *. set (m := (S * N) mod P) in *.
  assert (0 <= d < S) as Bd by nia.
  assert (1 <= IZR P <= 1000000)%R as RP by (split; apply IZR_le; lia).
  assert (7 <= IZR S <= 30)%R as RS by (split; apply IZR_le; lia).
  assert (0 <= IZR N < IZR P)%R as RN by (split; [apply IZR_le|apply IZR_lt]; lia).
  destruct (Z.eq_dec m 0) as [M0|M0].
  - replace (IZR N / IZR P)%R with (IZR d / IZR S)%R; [now apply trunc_back|].
    assert (IZR S * IZR N = IZR P * IZR d)%R as Q by (rewrite <- !mult_IZR; f_equal; lia).
    apply Rmult_eq_reg_r with (IZR S * IZR P)%R; [|nra]. field_simplify; lra.
  - assert (IZR N / IZR P * IZR S = IZR d + IZR m / IZR P)%R as Q.
    { assert (IZR S * IZR N = IZR P * IZR d + IZR m)%R as Q by (rewrite <- !mult_IZR, <- plus_IZR; f_equal; lia).
      apply Rmult_eq_reg_r with (IZR P); [|lra]. field_simplify; lra. }
    assert (1 <= IZR m <= IZR P - 1)%R as Rm by (rewrite <- minus_IZR; split; apply IZR_le; lia).
    assert (1 / 1000000 <= IZR m / IZR P <= 1 - 1 / 1000000)%R as Bm.
    { assert (/ 1000000 <= / IZR P)%R as I1 by (apply Rinv_le_contravar; lra).
      assert (IZR m / IZR P = 1 - (IZR P - IZR m) * / IZR P)%R as I2 by (field; lra).
      assert (0 < / IZR P)%R by (apply Rinv_0_lt_compat; lra). split; [unfold Rdiv; nra|rewrite I2; nra]. }
    assert (0 <= IZR N / IZR P <= 1)%R as Bq.
    { assert (0 < / IZR P)%R by (apply Rinv_0_lt_compat; lra). unfold Rdiv. split; [nra|].
      apply Rmult_le_reg_r with (IZR P); [lra|]. rewrite Rmult_assoc, Rinv_l by lra. lra. }
    apply trunc_apart with (IZR N / IZR P * IZR S)%R; [rewrite Q; lra| |lia].
    pose proof (rnd_close (IZR N / IZR P) 1 ltac:(apply rabs_le; lra)) as H. set (w := rnd (IZR N / IZR P)) in *. clearbody w.
    set (x := (IZR N / IZR P)%R) in *. clearbody x. unfold eps in H. apply of_rabs in H.
    assert (Rabs (w * IZR S) <= 31)%R as Bw by (apply rabs_le; nra).
    pose proof (rnd_close _ _ Bw) as G. unfold eps in G. apply of_rabs in G. apply rabs_le. nra.
Qed.

Lemma trunc_scale N P S : scale S -> 1 <= P <= 1000000 -> Z.abs N < P ->
  Ztrunc (rnd (rnd (IZR N / IZR P) * IZR S)) = Z.quot (S * N) P.
Proof.
  intros HS HP HN. destruct (Z.le_gt_cases 0 N) as [H|H]; [apply trunc_scale_pos; auto; lia|].
  replace N with (- (- N)) by lia. rewrite opp_IZR. unfold Rdiv. rewrite Ropp_mult_distr_l_reverse. fold (IZR (- N) / IZR P)%R.
  rewrite rnd_opp, Ropp_mult_distr_l_reverse, rnd_opp, Ztrunc_opp, trunc_scale_pos by (auto; lia).
  rewrite <- Z.quot_opp_l by lia. f_equal. lia.
Qed.

(** A fraction [N / P] of a week or of a month of thirty days *)
Lemma adjust_days_close md f e N k S tm us : close f (IZR N / IZR (10 ^ Z.of_nat k)) e -> (0 <= e)%R -> (e * IZR S <= 2 / 1000000000000)%R ->
  (k <= 6)%nat -> Z.abs N < 10 ^ Z.of_nat k -> S = 7 \/ S = 30 ->
  (fnz f = false -> N = 0) -> f64_to_i32 (fmul f (f64_of_Z S)) = Z.quot (S * N) (10 ^ Z.of_nat k) ->
  Z.abs (tm_mday tm) <= 2000000000 -> Z.abs (tm_sec tm) <= 2000000000 -> Z.abs us <= 2000000000 ->
  exists q r, adjust_fract_days md f S (tm, us) =
      ((set_sec (tm_sec tm + q) (set_mday (tm_mday tm + Z.quot (S * N) (10 ^ Z.of_nat k)) tm), us + r), Ok tt)
    /\ q * 1000000 + r = Z.rem (S * N) (10 ^ Z.of_nat k) * 86400 * 10 ^ Z.of_nat (6 - k) /\ Z.abs q <= 100000 /\ Z.abs r <= 3000000.
Proof.
  intros C0 Be BeS Hk HN HS NZ0 Fd Bd Bs Bu. pose proof (pow10_pos k) as Pk. pose proof (pow10_pos (6 - k)) as Pk'.
  assert (10 ^ Z.of_nat k * 10 ^ Z.of_nat (6 - k) = 1000000) as PP.
  { rewrite <- Z.pow_add_r by lia. replace (Z.of_nat k + Z.of_nat (6 - k)) with 6 by lia. reflexivity. }
  set (P := 10 ^ Z.of_nat k) in *. set (P' := 10 ^ Z.of_nat (6 - k)) in *. clearbody P P'.
  assert (1 <= P <= 1000000) as BP by nia.
  assert (scale S) as Sc by (unfold scale; lia). pose proof (scale_bounds S Sc) as BS.
  assert (1 <= IZR P <= 1000000)%R as RP by (split; apply IZR_le; lia).
  assert (7 <= IZR S <= 30)%R as RS by (split; apply IZR_le; lia).
  assert (- IZR P < IZR N < IZR P)%R as RN by (rewrite <- opp_IZR; split; apply IZR_lt; lia).
  assert (-1 <= IZR N / IZR P <= 1)%R as Bq.
  { assert (0 < / IZR P)%R by (apply Rinv_0_lt_compat; lra).
    assert (IZR P * / IZR P = 1)%R by (apply Rinv_r; lra). unfold Rdiv. nra. }
  pose proof (Z.quot_rem' (S * N) P) as QR. pose proof (Z.rem_bound_abs (S * N) P ltac:(lia)) as RB.
  set (d := Z.quot (S * N) P) in *. set (m := Z.rem (S * N) P) in *.
  assert (Z.abs d <= 30) as Bdd.
  { clear - QR RB BS HN BP HS. clearbody d m.
    assert (Z.abs (P * d) < 30 * P + P) by lia. rewrite Z.abs_mul in H. nia. }
  assert (IZR N / IZR P * IZR S - IZR d = IZR m / IZR P)%R as Em.
  { assert (IZR S * IZR N = IZR P * IZR d + IZR m)%R as Q by (rewrite <- !mult_IZR, <- plus_IZR; f_equal; lia).
    apply Rmult_eq_reg_r with (IZR P); [|lra]. field_simplify; lra. }
  assert (- IZR P <= IZR m <= IZR P)%R as Rm by (rewrite <- opp_IZR; split; apply IZR_le; lia).
  assert (-1 <= IZR m / IZR P <= 1)%R as Bm.
  { assert (0 < / IZR P)%R by (apply Rinv_0_lt_compat; lra).
    assert (IZR P * / IZR P = 1)%R by (apply Rinv_r; lra). unfold Rdiv. nra. }
  unfold adjust_fract_days. destruct (fnz f) eqn:NZ; cbn [negb].
  2:{ specialize (NZ0 eq_refl). exists 0, 0. assert (d = 0) as -> by (unfold d; rewrite NZ0, Z.mul_0_r; apply Z.quot_0_l; lia).
      assert (m = 0) as -> by (unfold m; rewrite NZ0, Z.mul_0_r; apply Z.rem_0_l; lia).
      rewrite !Z.add_0_r, set_mday_same, set_sec_same. split; [reflexivity|lia]. }
  set (p := fmul f (f64_of_Z S)) in *.
  assert (close p (IZR N / IZR P * IZR S) (21 / 10000000000000)) as C1.
  { assert (-30 <= IZR N / IZR P * IZR S <= 30)%R by nra.
    eapply close_weaken; [apply (close_mul f _ _ S 31 C0); [lia| |lra]|]; unfold eps; lra. }
  assert (close (fsub p (f64_of_Z d)) (IZR m / IZR P) (22 / 10000000000000)) as C2.
  { rewrite <- Em. eapply close_weaken; [apply (close_sub p _ _ d 3 C1)|].
    - change (2 ^ 53) with 9007199254740992. lia.
    - rewrite Em. lra.
    - lra.
    - unfold eps. lra. }
  cbv zeta. rewrite Fd. cbn [fst snd]. unfold chk32. rewrite in32b_true by (rng; lia). cbn [ok_or step_set step_bind].
  unfold s_mday. cbn [fst snd].
  destruct (adjust_seconds_exact md _ _ _ SECS_PER_DAY (m * 86400 * P') (set_mday (tm_mday tm + d) tm) us C2) as (q & r & E & Eqr & Bqr & Brr).
  - lra.
  - lra.
  - unfold SECS_PER_DAY. lra.
  - unfold SECS_PER_DAY. lia.
  - unfold SECS_PER_DAY. rewrite !mult_IZR.
    assert (IZR P * IZR P' = 1000000)%R as PR by (rewrite <- mult_IZR, PP; reflexivity).
    rewrite <- PR. field. lra.
  - destruct tm; exact Bs.
  - exact Bu.
  - exists q, r. split; [|split; [exact Eqr|split; assumption]]. unfold SECS_PER_DAY in *. rewrite E. destruct tm; reflexivity.
Qed.

Lemma adjust_days_exact md f N k S tm us : rep f (rnd (IZR N / IZR (10 ^ Z.of_nat k))) -> (k <= 6)%nat -> Z.abs N < 10 ^ Z.of_nat k ->
  S = 7 \/ S = 30 ->
  Z.abs (tm_mday tm) <= 2000000000 -> Z.abs (tm_sec tm) <= 2000000000 -> Z.abs us <= 2000000000 ->
  exists q r, adjust_fract_days md f S (tm, us) =
      ((set_sec (tm_sec tm + q) (set_mday (tm_mday tm + Z.quot (S * N) (10 ^ Z.of_nat k)) tm), us + r), Ok tt)
    /\ q * 1000000 + r = Z.rem (S * N) (10 ^ Z.of_nat k) * 86400 * 10 ^ Z.of_nat (6 - k) /\ Z.abs q <= 100000 /\ Z.abs r <= 3000000.
Proof.
  intros R Hk HN HS Bd Bs Bu. pose proof (pow10_pos k) as Pk.
  assert (10 ^ Z.of_nat k <= 10 ^ 6) as P6 by (apply Z.pow_le_mono_r; lia). change (10 ^ 6) with 1000000 in P6.
  assert (scale S) as Sc by (unfold scale; lia). pose proof (scale_bounds S Sc) as BS.
  pose proof (trunc_scale N (10 ^ Z.of_nat k) S Sc ltac:(lia) HN) as T.
  assert (7 <= IZR S <= 30)%R as RS by (split; apply IZR_le; lia).
  assert (1 <= IZR (10 ^ Z.of_nat k) <= 1000000)%R as RP by (split; apply IZR_le; lia).
  assert (- IZR (10 ^ Z.of_nat k) < IZR N < IZR (10 ^ Z.of_nat k))%R as RN by (rewrite <- opp_IZR; split; apply IZR_lt; lia).
  assert (-1 <= IZR N / IZR (10 ^ Z.of_nat k) <= 1)%R as Bq.
  { set (P := 10 ^ Z.of_nat k) in *. clearbody P. assert (0 < / IZR P)%R by (apply Rinv_0_lt_compat; lra).
    assert (IZR P * / IZR P = 1)%R by (apply Rinv_r; lra). unfold Rdiv. nra. }
  pose proof (rnd_close (IZR N / IZR (10 ^ Z.of_nat k)) 1 ltac:(apply rabs_le; lra)) as H.
  apply (adjust_days_close md f (eps 1)); auto.
  - exists (rnd (IZR N / IZR (10 ^ Z.of_nat k))). split; [exact R|exact H].
  - unfold eps. lra.
  - unfold eps. lra.
  - intros NZ. unfold fnz in NZ. rewrite (rep_eq _ _ _ _ R rep_f0) in NZ. apply negb_false_iff in NZ.
    destruct (Req_bool_spec (rnd (IZR N / IZR (10 ^ Z.of_nat k))) 0) as [Z0|]; [|discriminate NZ].
    rewrite Z0 in H. unfold eps in H. apply of_rabs in H.
    set (P := 10 ^ Z.of_nat k) in *. clearbody P.
    assert (Rabs (IZR N) < 1)%R as L.
    { replace (IZR N) with (IZR N / IZR P * IZR P)%R by (field; lra). apply Rabs_lt. nra. }
    rewrite <- abs_IZR in L. apply lt_IZR in L. lia.
  - unfold eps in H. apply of_rabs in H.
    assert (rep (fmul f (f64_of_Z S)) (rnd (rnd (IZR N / IZR (10 ^ Z.of_nat k)) * IZR S))) as R1.
    { apply rep_mul; [exact R|apply rep_int; change (2 ^ 53) with 9007199254740992; lia|]. apply big_bound, rabs_le. nra. }
    assert (Z.abs (Z.quot (S * N) (10 ^ Z.of_nat k)) <= 30) as Bdd.
    { set (P := 10 ^ Z.of_nat k) in *. clearbody P. clear - BS HN Pk HS.
      pose proof (Z.quot_rem' (S * N) P) as QR. pose proof (Z.rem_bound_abs (S * N) P ltac:(lia)) as RB.
      set (d := Z.quot (S * N) P) in *. set (m := Z.rem (S * N) P) in *. clearbody d m.
      assert (Z.abs (P * d) < 30 * P + P) by lia. rewrite Z.abs_mul in H. nia. }
    unfold f64_to_i32. rewrite (rep_to_int i32_min i32_max _ _) with (2 := R1) by (vm_compute; intuition discriminate).
    rewrite T. unfold i32_min, i32_max. lia.
Qed.
