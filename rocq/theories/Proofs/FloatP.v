(** Real-number meaning of the binary64 operations, via Flocq. *)
From Coq Require Import ZArith Reals Lia Lra Floats.SpecFloat.
From Flocq Require Import Core.Core IEEE754.BinarySingleNaN.
From Verif Require Import Model.F64.
Open Scope R_scope.

#[local] Instance Hprec : FLX.Prec_gt_0 53 := eq_refl _.
#[local] Instance Hmax : Prec_lt_emax 53 1024 := eq_refl _.

Notation bf := (binary_float 53 1024).
Notation fx := (SpecFloat.fexp 53 1024).
Definition rnd (r : R) : R := round radix2 fx ZnearestE r.

(** [x] is a finite float with real value [r]. *)
Definition rep (x : f64) (r : R) : Prop :=
  exists b : bf, is_finite b = true /\ B2SF b = x /\ B2R b = r.

(** ** SpecFloat operations are Flocq's (cf. Flocq's IEEE754/PrimFloat.v) *)
Lemma round_nearest_even_equiv s m l :
  round_nearest_even m l = choice_mode mode_NE s m l.
Proof.
  case l; [reflexivity|intro c]. case c; [ | reflexivity..].
  simpl. unfold Round.cond_incr. now case Z.even.
Qed.
Lemma binary_round_aux_equiv sx mx ex lx :
  SpecFloat.binary_round_aux 53 1024 sx mx ex lx
  = BinarySingleNaN.binary_round_aux 53 1024 mode_NE sx mx ex lx.
Proof.
  unfold SpecFloat.binary_round_aux, BinarySingleNaN.binary_round_aux.
  set (mrse' := shr_fexp _ _ _). case mrse'; intros mrs' e'; simpl.
  now rewrite (round_nearest_even_equiv sx).
Qed.
Lemma binary_round_equiv s m e :
  SpecFloat.binary_round 53 1024 s m e = BinarySingleNaN.binary_round 53 1024 mode_NE s m e.
Proof.
  unfold SpecFloat.binary_round, BinarySingleNaN.binary_round, shl_align_fexp.
  set (mez := shl_align _ _ _); case mez as [mz ez]. apply binary_round_aux_equiv.
Qed.
Lemma binary_normalize_equiv m e szero :
  SpecFloat.binary_normalize 53 1024 m e szero
  = B2SF (BinarySingleNaN.binary_normalize 53 1024 Hprec Hmax mode_NE m e szero).
Proof.
  case m as [ | p | p].
  - now simpl.
  - simpl; rewrite B2SF_SF2B; apply binary_round_equiv.
  - simpl; rewrite B2SF_SF2B; apply binary_round_equiv.
Qed.
Lemma fmul_equiv (x y : bf) : fmul (B2SF x) (B2SF y) = B2SF (Bmult mode_NE x y).
Proof.
  unfold fmul, f64_prec, f64_emax.
  destruct x as [sx|sx| |sx mx ex Bx], y as [sy|sy| |sy my ey By]; [now trivial..|].
  simpl. rewrite B2SF_SF2B. apply binary_round_aux_equiv.
Qed.
Lemma fadd_equiv (x y : bf) : fadd (B2SF x) (B2SF y) = B2SF (Bplus mode_NE x y).
Proof.
  unfold fadd, f64_prec, f64_emax.
  destruct x as [sx|sx| |sx mx ex Bx], y as [sy|sy| |sy my ey By];
    [now (trivial || simpl; case Bool.eqb)..|].
  apply binary_normalize_equiv.
Qed.
Lemma fsub_equiv (x y : bf) : fsub (B2SF x) (B2SF y) = B2SF (Bminus mode_NE x y).
Proof.
  unfold fsub, f64_prec, f64_emax.
  destruct x as [sx|sx| |sx mx ex Bx], y as [sy|sy| |sy my ey By];
    [now (trivial || simpl; case Bool.eqb)..|].
  simpl. unfold Zminus. rewrite <- cond_Zopp_negb. apply binary_normalize_equiv.
Qed.
Lemma fdiv_equiv (x y : bf) : fdiv (B2SF x) (B2SF y) = B2SF (Bdiv mode_NE x y).
Proof.
  unfold fdiv, f64_prec, f64_emax.
  destruct x as [sx|sx| |sx mx ex Bx], y as [sy|sy| |sy my ey By];
    [now (trivial || simpl; case Bool.eqb)..|].
  simpl. rewrite B2SF_SF2B. set (melz := SFdiv_core_binary _ _ _ _ _ _).
  case melz as [[mz ez] lz]. apply binary_round_aux_equiv.
Qed.

(** ** Correct rounding *)
Lemma rnd_bound r : Rabs r <= bpow radix2 1000 -> Rabs (rnd r) < bpow radix2 1024.
Proof.
  intros H. apply Rle_lt_trans with (bpow radix2 1000).
  - unfold rnd. apply abs_round_le_generic; auto with typeclass_instances.
    + apply FLT_exp_valid. reflexivity.
    + apply generic_format_bpow. unfold fx. cbn. lia.
  - apply bpow_lt. lia.
Qed.

Lemma rep_mul x y a b : rep x a -> rep y b -> Rabs (a * b) <= bpow radix2 1000 ->
  rep (fmul x y) (rnd (a * b)).
Proof.
  intros (bx & Fx & <- & <-) (by_ & Fy & <- & <-) H.
  rewrite fmul_equiv. pose proof (Bmult_correct 53 1024 Hprec Hmax mode_NE bx by_) as C.
  rewrite Rlt_bool_true in C by (apply rnd_bound; exact H).
  destruct C as (C1 & C2 & _). eexists. split; [|split; [reflexivity|exact C1]].
  rewrite C2, Fx, Fy. reflexivity.
Qed.
Lemma rep_add x y a b : rep x a -> rep y b -> Rabs (a + b) <= bpow radix2 1000 ->
  rep (fadd x y) (rnd (a + b)).
Proof.
  intros (bx & Fx & <- & <-) (by_ & Fy & <- & <-) H.
  rewrite fadd_equiv. pose proof (Bplus_correct 53 1024 Hprec Hmax mode_NE bx by_ Fx Fy) as C.
  rewrite Rlt_bool_true in C by (apply rnd_bound; exact H).
  destruct C as (C1 & C2 & _). eexists. split; [exact C2|split; [reflexivity|exact C1]].
Qed.
Lemma rep_sub x y a b : rep x a -> rep y b -> Rabs (a - b) <= bpow radix2 1000 ->
  rep (fsub x y) (rnd (a - b)).
Proof.
  intros (bx & Fx & <- & <-) (by_ & Fy & <- & <-) H.
  rewrite fsub_equiv. pose proof (Bminus_correct 53 1024 Hprec Hmax mode_NE bx by_ Fx Fy) as C.
  rewrite Rlt_bool_true in C by (apply rnd_bound; exact H).
  destruct C as (C1 & C2 & _). eexists. split; [exact C2|split; [reflexivity|exact C1]].
Qed.
Lemma rep_div x y a b : rep x a -> rep y b -> b <> 0 -> Rabs (a / b) <= bpow radix2 1000 ->
  rep (fdiv x y) (rnd (a / b)).
Proof.
  intros (bx & Fx & <- & <-) (by_ & Fy & <- & <-) Hb H.
  rewrite fdiv_equiv. pose proof (Bdiv_correct 53 1024 Hprec Hmax mode_NE bx by_ Hb) as C.
  rewrite Rlt_bool_true in C by (apply rnd_bound; exact H).
  destruct C as (C1 & C2 & _). eexists. split; [|split; [reflexivity|exact C1]].
  rewrite C2. exact Fx.
Qed.
Lemma rep_Z z : Rabs (IZR z) <= bpow radix2 1000 -> rep (f64_of_Z z) (rnd (IZR z)).
Proof.
  intros H. unfold f64_of_Z, f64_prec, f64_emax. rewrite binary_normalize_equiv.
  pose proof (binary_normalize_correct 53 1024 Hprec Hmax mode_NE z 0 false) as C. cbv zeta in C.
  assert (F2R (Float radix2 z 0) = IZR z) as E by (unfold F2R; cbn; ring).
  rewrite E in C. rewrite Rlt_bool_true in C by (apply rnd_bound; exact H).
  destruct C as (C1 & C2 & _). eexists. split; [exact C2|split; [reflexivity|exact C1]].
Qed.

(** Values that need no rounding. *)
Lemma rnd_id r : generic_format radix2 fx r -> rnd r = r.
Proof. intros H. apply round_generic; auto with typeclass_instances. Qed.
Lemma format_int z : (Z.abs z <= 2 ^ 53)%Z -> generic_format radix2 fx (IZR z).
Proof.
  intros H. destruct (Z.eq_dec (Z.abs z) (2 ^ 53)) as [E|E].
  - assert (z = 2 ^ 53 \/ z = - 2 ^ 53)%Z as [->| ->] by lia.
    + change (IZR (2 ^ 53)) with (bpow radix2 53). apply generic_format_bpow. cbn. lia.
    + change (- 2 ^ 53)%Z with (Z.opp (2 ^ 53)). rewrite opp_IZR. apply generic_format_opp.
      change (IZR (2 ^ 53)) with (bpow radix2 53). apply generic_format_bpow. cbn. lia.
  - replace (IZR z) with (F2R (Float radix2 z 0)) by (unfold F2R; cbn; ring).
    apply generic_format_FLT. exists (Float radix2 z 0); [reflexivity|cbn; lia|cbn; lia].
Qed.
Lemma rnd_int z : (Z.abs z <= 2 ^ 53)%Z -> rnd (IZR z) = IZR z.
Proof. intros. apply rnd_id, format_int; auto. Qed.

Lemma small_bound r n : Rabs r <= IZR n -> (n <= 2 ^ 300)%Z -> Rabs r <= bpow radix2 1000.
Proof.
  intros H Hn. apply Rle_trans with (1 := H). apply Rle_trans with (bpow radix2 300).
  - rewrite <- IZR_Zpower by lia. apply IZR_le. exact Hn.
  - apply bpow_le. lia.
Qed.
Lemma int_bound z : (Z.abs z <= 2 ^ 300)%Z -> Rabs (IZR z) <= bpow radix2 1000.
Proof. intros H. apply small_bound with (Z.abs z); [|exact H]. rewrite abs_IZR. lra. Qed.

(** Exact integers *)
Lemma rep_int z : (Z.abs z <= 2 ^ 53)%Z -> rep (f64_of_Z z) (IZR z).
Proof.
  intros H. rewrite <- (rnd_int z) by auto. apply rep_Z. apply int_bound. lia.
Qed.
Lemma rep_mul_int x y a b : rep x (IZR a) -> rep y (IZR b) -> (Z.abs (a * b) <= 2 ^ 53)%Z ->
  rep (fmul x y) (IZR (a * b)).
Proof.
  intros Hx Hy H. rewrite <- rnd_int by auto. rewrite mult_IZR. apply rep_mul; auto.
  rewrite <- mult_IZR. apply int_bound. lia.
Qed.
Lemma rep_add_int x y a b : rep x (IZR a) -> rep y (IZR b) -> (Z.abs (a + b) <= 2 ^ 53)%Z ->
  rep (fadd x y) (IZR (a + b)).
Proof.
  intros Hx Hy H. rewrite <- rnd_int by auto. rewrite plus_IZR. apply rep_add; auto.
  rewrite <- plus_IZR. apply int_bound. lia.
Qed.
Lemma rep_sub_int x y a b : rep x (IZR a) -> rep y (IZR b) -> (Z.abs (a - b) <= 2 ^ 53)%Z ->
  rep (fsub x y) (IZR (a - b)).
Proof.
  intros Hx Hy H. rewrite <- rnd_int by auto. rewrite minus_IZR. apply rep_sub; auto.
  rewrite <- minus_IZR. apply int_bound. lia.
Qed.

(** ** Comparisons *)
Lemma rep_lt x y a b : rep x a -> rep y b -> flt x y = Rlt_bool a b.
Proof.
  intros (bx & Fx & <- & <-) (by_ & Fy & <- & <-).
  change (flt (B2SF bx) (B2SF by_)) with (Bltb bx by_). now apply Bltb_correct.
Qed.
Lemma rep_le x y a b : rep x a -> rep y b -> fle x y = Rle_bool a b.
Proof.
  intros (bx & Fx & <- & <-) (by_ & Fy & <- & <-).
  change (fle (B2SF bx) (B2SF by_)) with (Bleb bx by_). now apply Bleb_correct.
Qed.
Lemma rep_eq x y a b : rep x a -> rep y b -> feq x y = Req_bool a b.
Proof.
  intros (bx & Fx & <- & <-) (by_ & Fy & <- & <-).
  change (feq (B2SF bx) (B2SF by_)) with (Beqb bx by_). now apply Beqb_correct.
Qed.
Lemma rep_lt_int x y a b : rep x (IZR a) -> rep y (IZR b) -> flt x y = (a <? b)%Z.
Proof.
  intros Hx Hy. rewrite (rep_lt x y _ _ Hx Hy).
  destruct (Z.ltb_spec a b); [apply Rlt_bool_true, IZR_lt|apply Rlt_bool_false, IZR_le]; lia.
Qed.
Lemma rep_le_int x y a b : rep x (IZR a) -> rep y (IZR b) -> fle x y = (a <=? b)%Z.
Proof.
  intros Hx Hy. rewrite (rep_le x y _ _ Hx Hy).
  destruct (Z.leb_spec a b); [apply Rle_bool_true, IZR_le|apply Rle_bool_false, IZR_lt]; lia.
Qed.
Lemma rep_not_nan x a : rep x a -> is_nan x = false.
Proof. intros (b & F & <- & _). now destruct b. Qed.
Lemma rep_not_inf x a : rep x a -> is_inf x = false.
Proof. intros (b & F & <- & _). now destruct b. Qed.
Lemma rep_f0 : rep f0 0.
Proof. exists (B754_zero false). repeat split. Qed.

(** ** Conversion to integers *)
Lemma trunc_mag_correct s m e :
  fsign s (trunc_mag m e) = Ztrunc (F2R (Float radix2 (cond_Zopp s (Zpos m)) e)).
Proof.
  unfold trunc_mag.
  assert (IZR (Z.pos m) * bpow radix2 e >= 0) as Hpos.
  { apply Rle_ge, Rmult_le_pos; [apply IZR_le; lia|apply bpow_ge_0]. }
  assert (Ztrunc (IZR (Z.pos m) * bpow radix2 e) =
          if (0 <=? e)%Z then (Z.pos m * 2 ^ e)%Z else (Z.pos m / 2 ^ (- e))%Z) as E.
  { destruct (Z.leb_spec 0 e).
    - rewrite <- IZR_Zpower by lia. rewrite <- mult_IZR. apply Ztrunc_IZR.
    - rewrite Ztrunc_floor by lra.
      replace (bpow radix2 e) with (/ bpow radix2 (- e)) by (rewrite bpow_opp; field; apply Rgt_not_eq, bpow_gt_0).
      rewrite <- IZR_Zpower by lia. fold (IZR (Z.pos m) / IZR (Zpower radix2 (- e))).
      rewrite Zfloor_div; [reflexivity|]. cbn [radix_val radix2]. lia. }
  unfold F2R. cbn [Fnum Fexp]. destruct s; cbn [cond_Zopp fsign].
  - rewrite opp_IZR, Ropp_mult_distr_l_reverse, Ztrunc_opp, E. destruct (0 <=? e)%Z; reflexivity.
  - rewrite E. destruct (0 <=? e)%Z; reflexivity.
Qed.
Lemma rep_to_int lo hi x a : (lo <= 0 <= hi)%Z -> rep x a ->
  f64_to_int lo hi x = Z.max lo (Z.min hi (Ztrunc a)).
Proof.
  intros H (b & F & <- & <-). destruct b as [s|s| |s m e Hb]; try discriminate F.
  - cbn [B2SF f64_to_int B2R]. change 0%R with (IZR 0). rewrite Ztrunc_IZR. lia.
  - cbn [B2SF f64_to_int B2R]. now rewrite trunc_mag_correct.
Qed.
Lemma rep_to_i32 x z : rep x (IZR z) -> in_i32 z -> f64_to_i32 x = z.
Proof.
  intros R H. unfold f64_to_i32. rewrite (rep_to_int i32_min i32_max x (IZR z)); [|unfold i32_min, i32_max; lia|exact R].
  rewrite Ztrunc_IZR. unfold in_i32 in H. lia.
Qed.
Lemma rep_to_i64 x z : rep x (IZR z) -> in_i64 z -> f64_to_i64 x = z.
Proof.
  intros R H. unfold f64_to_i64. rewrite (rep_to_int i64_min i64_max x (IZR z)); [|unfold i64_min, i64_max; lia|exact R].
  rewrite Ztrunc_IZR. unfold in_i64 in H. lia.
Qed.

Lemma ZnearestA_IZR z : ZnearestA (IZR z) = z.
Proof. apply (Zrnd_IZR ZnearestA). Qed.

(** ** Rounding to integer, halves away from zero *)
Lemma ZnearestA_floor x : 0 <= x -> ZnearestA x = Zfloor (x + / 2).
Proof.
  intros H. unfold Znearest.
  pose proof (Zfloor_lb x) as L. pose proof (Zfloor_ub x) as U.
  destruct (Rcompare_spec (x - IZR (Zfloor x)) (/ 2)) as [C|C|C].
  - symmetry. apply Zfloor_imp. rewrite plus_IZR. lra.
  - assert (0 <= Zfloor x)%Z as P by (apply Zfloor_lub; exact H).
    rewrite Zle_bool_true by exact P.
    rewrite Zceil_floor_neq by lra. symmetry. apply Zfloor_imp. rewrite !plus_IZR. lra.
  - rewrite Zceil_floor_neq by lra. symmetry. apply Zfloor_imp. rewrite !plus_IZR. lra.
Qed.
Lemma ZnearestA_opp x : ZnearestA (- x) = (- ZnearestA x)%Z.
Proof.
  rewrite Znearest_opp. f_equal. unfold Znearest.
  destruct (Rcompare_spec (x - IZR (Zfloor x)) (/ 2)) as [C|C|C]; auto.
  assert (negb (Zle_bool 0 (- (Zfloor x + 1))) = Zle_bool 0 (Zfloor x)) as ->; [|reflexivity].
  destruct (Zle_bool 0 (Zfloor x)) eqn:E1.
  - apply Zle_bool_imp_le in E1. replace (Zle_bool 0 _) with false; [reflexivity|].
    symmetry. apply Zle_bool_false. lia.
  - apply Z.leb_gt in E1. rewrite Zle_bool_true by lia. reflexivity.
Qed.

Lemma round_mag_correct m e :
  round_mag m e = ZnearestA (IZR (Z.pos m) * bpow radix2 e).
Proof.
  unfold round_mag. destruct (Z.leb_spec 0 e).
  - rewrite <- IZR_Zpower by lia. rewrite <- mult_IZR. now rewrite ZnearestA_IZR.
  - rewrite ZnearestA_floor by (apply Rmult_le_pos; [apply IZR_le; lia|apply bpow_ge_0]).
    assert (0 < 2 ^ (- e))%Z as P by (apply Z.pow_pos_nonneg; lia).
    replace (IZR (Z.pos m) * bpow radix2 e + / 2)
      with (IZR (2 * Z.pos m + 2 ^ (- e)) / IZR (2 * 2 ^ (- e))).
    + rewrite Zfloor_div by lia. reflexivity.
    + rewrite plus_IZR, !mult_IZR.
      replace (bpow radix2 e) with (/ IZR (2 ^ (- e))).
      * field. apply not_0_IZR. lia.
      * replace e with (- - e)%Z at 2 by lia. rewrite (bpow_opp radix2 (- e)).
        rewrite <- IZR_Zpower by lia. reflexivity.
Qed.

Lemma rep_round x a : rep x a -> rep (fround x) (IZR (ZnearestA a)).
Proof.
  intros (b & F & <- & <-). destruct b as [s|s| |s m e Hb]; try discriminate F.
  - cbn. change 0%R with (IZR 0). rewrite ZnearestA_IZR. exists (B754_zero s). repeat split.
  - cbn [B2SF fround B2R].
    assert (ZnearestA (F2R (Float radix2 (cond_Zopp s (Z.pos m)) e)) = fsign s (round_mag m e)) as E.
    { rewrite round_mag_correct. unfold F2R. cbn [Fnum Fexp]. destruct s; cbn [cond_Zopp fsign]; auto.
      rewrite opp_IZR, Ropp_mult_distr_l_reverse. apply ZnearestA_opp. }
    destruct (Z.leb_spec 0 e).
    + exists (B754_finite s m e Hb). split; [reflexivity|]. split; [reflexivity|]. cbn [B2R].
      rewrite E. unfold round_mag. replace (0 <=? e)%Z with true by (symmetry; apply Z.leb_le; lia).
      unfold F2R. cbn [Fnum Fexp]. rewrite <- IZR_Zpower by lia. rewrite <- mult_IZR. f_equal.
      change (radix_val radix2) with 2%Z. generalize (2 ^ e)%Z. intros k. destruct s; unfold fsign, cond_Zopp; lia.
    + destruct (Z.eqb_spec (round_mag m e) 0) as [Z0|Z0].
      * rewrite E, Z0. exists (B754_zero s). split; [reflexivity|]. split; [reflexivity|].
        destruct s; reflexivity.
      * rewrite E. apply rep_int.
        assert (0 <= round_mag m e <= 2 ^ 53)%Z.
        { unfold round_mag. destruct (Z.leb_spec 0 e); [lia|].
          assert (Z.pos m <= 2 ^ 53)%Z as Hm.
          { pose proof (andb_prop _ _ Hb) as [Hb1 _]. apply Zeq_bool_eq in Hb1. clear F Hb. rename Hb1 into Hb.
            unfold SpecFloat.fexp, SpecFloat.emin in Hb.
            pose proof (Zpos_digits2_pos m) as Hd.
            pose proof (Zpower_gt_Zdigits radix2 53 (Z.pos m)) as Hg.
            rewrite <- Hd in Hg. cbn [radix_val radix2 Z.abs] in Hg. 
            assert (Z.pos (digits2_pos m) <= 53)%Z by lia. apply Z.lt_le_incl, Hg. lia. }
          assert (2 <= 2 ^ (- e))%Z as P.
          { change 2%Z with (2 ^ 1)%Z at 1. apply Z.pow_le_mono_r; lia. }
          split; [apply Z.div_pos; lia|]. apply Z.div_le_upper_bound; [lia|]. nia. }
        destruct s; cbn [fsign]; lia.
Qed.
