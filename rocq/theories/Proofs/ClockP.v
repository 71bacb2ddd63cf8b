(** Construction from floating point seconds. *)
From Coq Require Import ZArith Reals Lia Lra Floats.SpecFloat.
From Flocq Require Import Core.Core IEEE754.BinarySingleNaN Relative.
From Verif Require Import Model.DateTime Spec.Calendar Spec.Ranges Proofs.Arith Proofs.Cal Proofs.DateP Proofs.FloatP Proofs.TsP.
Open Scope Z_scope.

(** A machine double is NaN, infinite or finite. *)
Lemma f64_cases s : valid_binary 53 1024 s = true ->
  s = S754_nan \/ (exists b, s = S754_infinity b) \/ exists x, rep s x.
Proof.
  intros H. destruct s as [b|b| |b m e]; [right; right|right; left; eauto|left; auto|right; right].
  - exists 0%R, (B754_zero b). repeat split.
  - eexists. exists (B754_finite b m e H). repeat split.
Qed.

(** Seconds to microseconds: multiply, round. *)
Definition f_usecs (s : f64) : Z := f64_to_i64 (fround (fmul s (f64_of_Z USECS_PER_SEC))).

Lemma rep_1e6 : rep (f64_of_Z USECS_PER_SEC) 1000000%R.
Proof. apply (rep_int 1000000). lia. Qed.

Lemma f_usecs_ok s x : rep s x -> (Rabs (x * 1000000) <= bpow radix2 1000)%R ->
  f_usecs s = Z.max i64_min (Z.min i64_max (ZnearestA (rnd (x * 1000000)))).
Proof.
  intros R B. unfold f_usecs. pose proof (rep_round _ _ (rep_mul _ _ _ _ R rep_1e6 B)) as Q.
  unfold f64_to_i64. rewrite (rep_to_int i64_min i64_max _ _ ltac:(unfold i64_min, i64_max; lia) Q). now rewrite Ztrunc_IZR.
Qed.

Ltac pw1 k := let r := eval compute in (2 ^ k)%Z in change (2 ^ k)%Z with r in *.
Ltac pw := pw1 50%Z; pw1 51%Z; pw1 52%Z; pw1 53%Z; pw1 200%Z.
Section Err.
Open Scope R_scope.
(** Relative error of one rounding, with the subnormal floor. *)
Lemma rnd_err r : Rabs (rnd r - r) <= Rabs r * bpow radix2 (-53) + bpow radix2 (-1074).
Proof.
  unfold rnd. change fx with (FLT_exp (-1074) 53).
  destruct (error_N_FLT radix2 (-1074) 53 eq_refl (fun n => negb (Z.even n)) r) as (eps & eta & He & Ht & _ & E).
  rewrite E. replace (r * (1 + eps) + eta - r) with (r * eps + eta) by ring.
  eapply Rle_trans; [apply Rabs_triang|]. rewrite Rabs_mult. apply Rplus_le_compat.
  - apply Rmult_le_compat_l; [apply Rabs_pos|]. eapply Rle_trans; [exact He|].
    change (/ 2 * bpow radix2 (- (53) + 1)) with (bpow radix2 (-1) * bpow radix2 (-52)).
    rewrite <- bpow_plus. apply bpow_le. lia.
  - eapply Rle_trans; [exact Ht|]. replace (/ 2) with (bpow radix2 (-1)) by reflexivity. rewrite <- bpow_plus. apply bpow_le. lia.
Qed.

Lemma rnd_err_simple r : Rabs r <= IZR (2 ^ 51) -> Rabs (rnd r - r) <= Rabs r * / IZR (2 ^ 53) + / IZR (2 ^ 200).
Proof.
  intros _. eapply Rle_trans; [apply rnd_err|].
  replace (bpow radix2 (-53)) with (/ IZR (2 ^ 53)) by reflexivity.
  apply Rplus_le_compat_l. replace (/ IZR (2 ^ 200)) with (bpow radix2 (-200)) by reflexivity.
  apply bpow_le. lia.
Qed.

Lemma near_unique r n : Rabs (r - IZR n) < / 2 -> ZnearestA r = n.
Proof. intros H. apply Znearest_imp. exact H. Qed.

Lemma usecs_real n : (Z.abs n <= 2 ^ 50)%Z -> 
  ZnearestA (rnd (rnd (IZR n / 1000000) * 1000000)) = n /\
  Rabs (rnd (IZR n / 1000000) * 1000000) <= IZR (2 ^ 52).
Proof.
  intros H.
  assert (Rabs (IZR n) <= IZR (2 ^ 50)) as Hn by (rewrite <- abs_IZR; apply IZR_le; exact H).
  set (q := IZR n / 1000000). assert (IZR n = q * 1000000) as En by (unfold q; field).
  assert (Rabs q <= IZR (2 ^ 50) / 1000000) as Hq.
  { unfold q. unfold Rdiv. rewrite Rabs_mult, (Rabs_pos_eq (/ 1000000)) by lra. apply Rmult_le_compat_r; [lra|exact Hn]. }
  set (a := rnd q).
  assert (Rabs (a - q) <= Rabs q * / IZR (2 ^ 53) + / IZR (2 ^ 200)) as E1.
  { apply rnd_err_simple. eapply Rle_trans; [exact Hq|]. pw; lra. }
  set (p := a * 1000000).
  assert (Rabs (p - IZR n) <= (IZR (2 ^ 50) / 1000000 * / IZR (2 ^ 53) + / IZR (2 ^ 200)) * 1000000) as E2.
  { replace (p - IZR n) with ((a - q) * 1000000) by (unfold p; rewrite En; ring).
    rewrite Rabs_mult, (Rabs_pos_eq 1000000) by lra. apply Rmult_le_compat_r; [lra|].
    eapply Rle_trans; [exact E1|]. apply Rplus_le_compat_r. apply Rmult_le_compat_r; [|exact Hq].
    apply Rlt_le, Rinv_0_lt_compat. apply IZR_lt. lia. }
  assert (Rabs (p - IZR n) <= 3 / 16) as E3.
  { eapply Rle_trans; [exact E2|]. pw; lra. }
  assert (Rabs p <= IZR (2 ^ 50) + 1) as Hp.
  { replace p with ((p - IZR n) + IZR n) by ring. eapply Rle_trans; [apply Rabs_triang|]. lra. }
  assert (Rabs (rnd p - p) <= 3 / 16) as E4.
  { eapply Rle_trans; [apply rnd_err_simple; eapply Rle_trans; [exact Hp|pw; lra]|].
    assert (Rabs p * / IZR (2 ^ 53) <= (IZR (2 ^ 50) + 1) * / IZR (2 ^ 53)) as M.
    { apply Rmult_le_compat_r; [|exact Hp]. apply Rlt_le, Rinv_0_lt_compat. apply IZR_lt. lia. }
    eapply Rle_trans; [apply Rplus_le_compat_r; exact M|]. pw; lra. }
  split.
  - apply near_unique. replace (rnd p - IZR n) with ((rnd p - p) + (p - IZR n)) by ring.
    eapply Rle_lt_trans; [apply Rabs_triang|]. lra.
  - eapply Rle_trans; [exact Hp|]. pw; lra.
Qed.
End Err.

(** The double written n/10^6 (correctly rounded decimal) gives exactly n microseconds. *)
Definition f_decimal (n : Z) : f64 := fdiv (f64_of_Z n) (f64_of_Z 1000000).
Lemma rep_decimal n : Z.abs n <= 2 ^ 53 -> rep (f_decimal n) (rnd (IZR n / 1000000)).
Proof.
  intros H. unfold f_decimal. apply rep_div; [apply rep_int; exact H|apply (rep_int 1000000); lia|lra|].
  apply small_bound with (2 ^ 53); [|apply Z.pow_le_mono_r; lia].
  unfold Rdiv. rewrite Rabs_mult, <- abs_IZR. rewrite (Rabs_pos_eq (/ 1000000)%R) by lra.
  apply Rle_trans with (IZR (2 ^ 53) * / 1000000)%R; [|pw; lra].
  apply Rmult_le_compat_r; [lra|]. apply IZR_le. exact H.
Qed.
Lemma f_usecs_decimal n : Z.abs n <= 2 ^ 50 -> f_usecs (f_decimal n) = n.
Proof.
  intros H. destruct (usecs_real n H) as [E B].
  rewrite (f_usecs_ok _ _ (rep_decimal n ltac:(lia))).
  - rewrite E. unfold i64_min, i64_max. lia.
  - apply small_bound with (2 ^ 52); [exact B|]. apply Z.pow_le_mono_r; lia.
Qed.

(** The microsecond count of a reading between 0 and 60 seconds. *)
Lemma f_usecs_60 s x : rep s x -> (0 <= x <= 60)%R ->
  0 <= f_usecs s <= 60000000 /\ (Rabs (IZR (f_usecs s) - x * 1000000) <= 1/2 + 1/1000000)%R /\
  (x = 0%R -> f_usecs s = 0).
Proof.
  intros R B. assert (0 <= x * 1000000 <= 60000000)%R as B' by lra.
  rewrite (f_usecs_ok s x R).
  2:{ apply small_bound with 60000000; [rewrite Rabs_pos_eq by lra; lra|].
      change 60000000 with (2 ^ 8 * 234375). transitivity (2 ^ 8 * 2 ^ 20); [cbn; lia|]. rewrite <- Z.pow_add_r by lia. apply Z.pow_le_mono_r; lia. }
  set (p := (x * 1000000)%R) in *.
  assert (0 <= rnd p <= 60000000)%R as RB.
  { split.
    - replace 0%R with (rnd 0) by (unfold rnd; apply round_0; auto with typeclass_instances).
      unfold rnd. apply round_le; [|auto with typeclass_instances|lra]. apply FLT_exp_valid. reflexivity.
    - replace 60000000%R with (rnd (IZR 60000000)) by (apply rnd_int; lia).
      unfold rnd. apply round_le; [|auto with typeclass_instances|lra]. apply FLT_exp_valid. reflexivity. }
  assert (0 <= ZnearestA (rnd p) <= 60000000) as ZB.
  { pose proof (Zrnd_le ZnearestA _ _ (proj1 RB)) as L. pose proof (Zrnd_le ZnearestA _ _ (proj2 RB)) as U.
    rewrite (ZnearestA_IZR 0) in L. rewrite (ZnearestA_IZR 60000000) in U. split; assumption. }
  replace (Z.max i64_min (Z.min i64_max (ZnearestA (rnd p)))) with (ZnearestA (rnd p)) by (unfold i64_min, i64_max; lia).
  split; [exact ZB|]. split.
  - pose proof (Znearest_half (Z.leb 0) (rnd p)) as H.
    pose proof (rnd_err_simple p) as E. rewrite (Rabs_pos_eq p) in E by lra.
    replace (IZR (ZnearestA (rnd p)) - p)%R with ((rnd p - p) - (rnd p - IZR (ZnearestA (rnd p))))%R by ring.
    assert (Rabs (rnd p - p) <= 1/1000000)%R as E'.
    { eapply Rle_trans; [apply E; pw; lra|]. assert (p * / IZR (2 ^ 53) <= 60000000 * / IZR (2 ^ 53))%R as M.
      { apply Rmult_le_compat_r; [|lra]. apply Rlt_le, Rinv_0_lt_compat. apply IZR_lt. lia. }
      eapply Rle_trans; [apply Rplus_le_compat_r; exact M|]. pw; lra. }
    unfold Rminus at 1. eapply Rle_trans; [apply Rabs_triang|]. rewrite Rabs_Ropp. lra.
  - intros X. unfold p. rewrite X, Rmult_0_l. unfold rnd. rewrite round_0 by auto with typeclass_instances.
    apply (ZnearestA_IZR 0).
Qed.

(** The clock test. *)
Lemma bad_clock_ok h m s x : rep s x ->
  (bad_clock h m s = false <->
   0 <= h /\ 0 <= m <= 59 /\ (0 <= x <= 60)%R /\ (h < 24 \/ h = 24 /\ m = 0 /\ x = 0%R)).
Proof.
  intros R. unfold bad_clock, fgt. unfold MINS_PER_HOUR, SECS_PER_MINUTE, HOURS_PER_DAY.
  rewrite (rep_lt s f0 x 0%R R rep_f0), (rep_lt _ s 60%R x (rep_int 60 ltac:(lia)) R), (rep_lt f0 s 0%R x rep_f0 R).
  destruct (Rlt_bool_spec x 0), (Rlt_bool_spec 60 x), (Rlt_bool_spec 0 x); try (exfalso; lra);
    (split; [intros H'|intros (A & B & C & D)]).
  - exfalso. lia.
  - lra.
  - exfalso. lia.
  - lra.
  - split; [lia|]. split; [lia|]. split; [lra|]. left. lia.
  - destruct D as [D|(D & E & F)]; [lia|lra].
  - split; [lia|]. split; [lia|]. split; [lra|].
    destruct (Z.ltb_spec h 24); [left; lia|right]. split; [lia|]. split; [lia|lra].
  - lia.
Qed.

Lemma clock_usecs_ok md h m s : 0 <= h <= 24 -> 0 <= m <= 59 -> 0 <= f_usecs s <= 60000000 ->
  clock_usecs md h m s = Ok ((h * 60 + m) * 60000000 + f_usecs s).
Proof.
  intros H M U. unfold clock_usecs. fold (f_usecs s). unfold MINS_PER_HOUR, SECS_PER_MINUTE, USECS_PER_SEC.
  ar. f_equal. lia.
Qed.

Lemma bad_clock_inf h m b : bad_clock h m (S754_infinity b) = true.
Proof. unfold bad_clock. destruct b; cbn -[Z.ltb Z.eqb]; rewrite ?orb_true_r; reflexivity. Qed.

Lemma bad_clock_nan h m : bad_clock h m S754_nan = false <-> 0 <= h /\ 0 <= m <= 59 /\ (h < 24 \/ h = 24 /\ m = 0).
Proof.
  unfold bad_clock, MINS_PER_HOUR, HOURS_PER_DAY. change (flt S754_nan f0) with false. change (fgt S754_nan f0) with false.
  change (fgt S754_nan (f64_of_Z SECS_PER_MINUTE)) with false. rewrite !orb_false_r. lia.
Qed.
