(** Interval scaling by integers. *)
From Coq Require Import ZArith Reals Lia Lra Floats.SpecFloat.
From Flocq Require Import Core.Core IEEE754.BinarySingleNaN.
From Verif Require Import Model.DateTime Proofs.Arith Proofs.FloatP Proofs.ClockP.
Open Scope Z_scope.

Lemma rep_div_0 x y b : rep x 0%R -> rep y b -> b <> 0%R -> rep (fdiv x y) 0%R.
Proof.
  intros X Y B. replace 0%R with (rnd (0 / b)).
  - apply rep_div; auto. unfold Rdiv. rewrite Rmult_0_l. apply (int_bound 0). lia.
  - unfold Rdiv. rewrite Rmult_0_l. apply (rnd_int 0). lia.
Qed.
Lemma rep_round_int x z : rep x (IZR z) -> rep (fround x) (IZR z).
Proof. intros H. apply rep_round in H. now rewrite ZnearestA_IZR in H. Qed.
Lemma timestamp_round_0 x : rep x 0%R -> rep (timestamp_round x) 0%R.
Proof.
  intros H. unfold timestamp_round. apply rep_div_0 with 1000000%R; [|apply (rep_int 1000000); lia|lra].
  apply (rep_round_int _ 0). apply (rep_mul_int _ _ 0 1000000); [exact H|apply rep_int; lia|lia].
Qed.

Lemma rep_abs x a : rep x a -> rep (fabs x) (Rabs a).
Proof.
  intros (b & F & <- & <-). exists (Babs b). split; [now rewrite is_finite_Babs|]. split; [now destruct b|].
  apply B2R_Babs.
Qed.

(** Nothing cascades down from whole months and days. *)
Lemma cascade_int md fm fd M D : rep fm (IZR M) -> rep fd (IZR D) -> in_i32 M -> in_i32 D ->
  exists sr, cascade_days md fm fd M D = Ok (D, sr) /\ rep sr 0%R.
Proof.
  intros RM RD HM HD. unfold cascade_days.
  assert (Z.abs M <= 2 ^ 53 /\ Z.abs D <= 2 ^ 53) as [BM BD].
  { unfold in_i32, i32_min, i32_max in *. change (2 ^ 53) with 9007199254740992. lia. }
  set (mrd := timestamp_round (fmul (fsub fm (f64_of_Z M)) (f64_of_Z DAYS_PER_MONTH))).
  assert (rep mrd 0%R) as R1.
  { apply timestamp_round_0. apply (rep_mul_int _ _ 0 30); [|apply rep_int; lia|lia].
    replace 0 with (M - M) by lia. apply rep_sub_int; [auto|apply rep_int; auto|lia]. }
  cbv zeta. rewrite (rep_to_i32 mrd 0) by (exact R1 || (unfold in_i32, i32_min, i32_max; lia)).
  set (sr := timestamp_round _).
  assert (rep sr 0%R) as R2.
  { apply timestamp_round_0. apply (rep_mul_int _ _ 0 86400); [|apply rep_int; lia|lia].
    apply (rep_sub_int _ _ 0 0); [|apply rep_int; lia|lia].
    apply (rep_add_int _ _ 0 0); [|exact R1|lia].
    replace 0 with (D - D) by lia. apply rep_sub_int; [auto|apply rep_int; auto|lia]. }
  assert (fge (fabs sr) (f64_of_Z SECS_PER_DAY) = false) as ->.
  { unfold fge. apply (rep_le_int (f64_of_Z SECS_PER_DAY) (fabs sr) 86400 0); [apply rep_int; lia|].
    change (IZR 0) with 0%R. rewrite <- Rabs_R0. now apply rep_abs. }
  cbn [bind]. unfold add32. rewrite Z.add_0_r. rewrite ar32_ok by exact HD. cbn [bind]. eauto.
Qed.

Section Mono.
Open Scope R_scope.
Lemma rnd_mono a b : a <= b -> rnd a <= rnd b.
Proof. intros H. unfold rnd. apply round_le; auto with typeclass_instances. apply FLT_exp_valid. reflexivity. Qed.
Lemma rnd_ge_int r z : (Z.abs z <= 2 ^ 53)%Z -> IZR z <= r -> IZR z <= rnd r.
Proof. intros H L. rewrite <- (rnd_int z H). now apply rnd_mono. Qed.
Lemma rnd_le_int r z : (Z.abs z <= 2 ^ 53)%Z -> r <= IZR z -> rnd r <= IZR z.
Proof. intros H L. rewrite <- (rnd_int z H). now apply rnd_mono. Qed.
End Mono.

(** A product of an i32 by an integer double: exact when it fits, otherwise refused. *)
Lemma prod_in a k f : rep f (IZR k) -> in_i32 (a * k) -> in_i32 a ->
  let p := fmul (f64_of_Z a) f in
  rep p (IZR (a * k)) /\ (is_nan p || fgt p (f64_of_Z i32_max) || flt p (f64_of_Z i32_min)) = false /\ f64_to_i32 p = a * k.
Proof.
  intros F H A p. unfold in_i32, i32_min, i32_max in *.
  assert (rep p (IZR (a * k))) as R.
  { apply rep_mul_int; auto; [apply rep_int|]; change (2 ^ 53) with 9007199254740992; lia. }
  split; [exact R|]. split.
  - rewrite (rep_not_nan _ _ R). unfold fgt.
    rewrite (rep_lt_int _ _ 2147483647 (a * k) (rep_int 2147483647 ltac:(lia)) R), (rep_lt_int _ _ (a * k) (-2147483648) R (rep_int (-2147483648) ltac:(lia))). lia.
  - apply rep_to_i32; [exact R|]. unfold in_i32, i32_min, i32_max. lia.
Qed.

Lemma prod_out a k f : rep f (IZR k) -> Z.abs k <= 2 ^ 200 -> in_i32 a -> ~ in_i32 (a * k) ->
  let p := fmul (f64_of_Z a) f in
  (is_nan p || fgt p (f64_of_Z i32_max) || flt p (f64_of_Z i32_min)) = true.
Proof.
  intros F K A H p. unfold in_i32, i32_min, i32_max in A, H.
  assert (Z.abs (a * k) <= 2 ^ 300) as B.
  { rewrite Z.abs_mul. transitivity (2 ^ 32 * 2 ^ 200); [apply Z.mul_le_mono_nonneg; lia|].
    rewrite <- Z.pow_add_r by lia. apply Z.pow_le_mono_r; lia. }
  assert (rep p (rnd (IZR a * IZR k))) as R.
  { apply rep_mul; [apply rep_int; change (2 ^ 53) with 9007199254740992; lia|exact F|]. rewrite <- mult_IZR. now apply int_bound. }
  rewrite <- mult_IZR in R. unfold fgt.
  rewrite (rep_lt _ _ _ _ (rep_int i32_max ltac:(unfold i32_max; lia)) R), (rep_lt _ _ _ _ R (rep_int i32_min ltac:(unfold i32_min; lia))).
  assert (2147483648 <= a * k \/ a * k <= -2147483649) as [C|C] by lia.
  - rewrite (Rlt_bool_true (IZR i32_max)); [now rewrite orb_true_r|].
    apply Rlt_le_trans with (IZR 2147483648); [apply IZR_lt; unfold i32_max; lia|].
    apply rnd_ge_int; [lia|]. now apply IZR_le.
  - rewrite (Rlt_bool_true _ (IZR i32_min)); [now rewrite orb_true_r|].
    apply Rle_lt_trans with (IZR (-2147483649)); [|apply IZR_lt; unfold i32_min; lia].
    apply rnd_le_int; [lia|]. now apply IZR_le.
Qed.

Lemma rep_i64_max : rep (f64_of_Z i64_max) (IZR (2 ^ 63)).
Proof.
  replace (IZR (2 ^ 63)) with (rnd (IZR i64_max)).
  - apply rep_Z. apply int_bound. unfold i64_max. apply Z.le_trans with (2 ^ 63); [change (2 ^ 63) with 9223372036854775808; lia|apply Z.pow_le_mono_r; lia].
  - pose proof (rep_Z i64_max) as H.
    assert (Rabs (IZR i64_max) <= bpow radix2 1000)%R as B.
    { apply int_bound. unfold i64_max. apply Z.le_trans with (2 ^ 63); [change (2 ^ 63) with 9223372036854775808; lia|apply Z.pow_le_mono_r; lia]. }
    specialize (H B). destruct H as (b & F & E & R). rewrite <- R. 
    assert (f64_of_Z i64_max = S754_finite false 4503599627370496 11) as E2 by reflexivity.
    rewrite E2 in E. destruct b as [ | | |sb mb eb Hb]; try discriminate E. injection E as -> -> ->.
    cbn [B2R]. unfold F2R. cbn [Fnum Fexp cond_Zopp]. rewrite <- IZR_Zpower by lia. rewrite <- mult_IZR. reflexivity.
Qed.
Lemma rep_i64_min : rep (f64_of_Z i64_min) (IZR (- 2 ^ 63)).
Proof.
  pose proof (rep_Z i64_min) as H.
  assert (Rabs (IZR i64_min) <= bpow radix2 1000)%R as B.
  { apply int_bound. unfold i64_min. apply Z.le_trans with (2 ^ 63); [change (2 ^ 63) with 9223372036854775808; lia|apply Z.pow_le_mono_r; lia]. }
  specialize (H B). replace (rnd (IZR i64_min)) with (IZR (- 2 ^ 63)) in H; [exact H|].
  symmetry. apply rnd_id. change (- 2 ^ 63) with (Z.opp (2 ^ 63)). change i64_min with (Z.opp (2 ^ 63)). rewrite opp_IZR. apply generic_format_opp.
  change (IZR (2 ^ 63)) with (bpow radix2 63). apply generic_format_bpow. apply Z.leb_le. reflexivity.
Qed.

Lemma mul_int md a f k : rep f (IZR k) -> in_i32 (iv_month a) -> in_i32 (iv_day a) ->
  in_i32 (iv_month a * k) -> in_i32 (iv_day a * k) -> Z.abs (iv_time a) <= 2 ^ 53 -> Z.abs (iv_time a * k) <= 2 ^ 53 ->
  interval_mul_f64 md a f = Ok (from_mdt (iv_month a * k) (iv_day a * k) (iv_time a * k)).
Proof.
  intros F Hm Hd Hmk Hdk Ht Htk. unfold interval_mul_f64.
  destruct (prod_in _ _ _ F Hmk Hm) as (RM & -> & EM). destruct (prod_in _ _ _ F Hdk Hd) as (RD & -> & ED).
  cbv zeta. rewrite EM, ED. destruct (cascade_int md _ _ _ _ RM RD Hmk Hdk) as (sr & -> & RS). cbn [bind].
  set (rt := fround _).
  assert (rep rt (IZR (iv_time a * k))) as RT.
  { apply rep_round_int. replace (iv_time a * k) with (iv_time a * k + 0) by lia.
    apply rep_add_int; [apply rep_mul_int; auto; now apply rep_int| |lia].
    apply (rep_mul_int _ _ 0 1000000); [exact RS|apply rep_int; lia|lia]. }
  unfold fgt. rewrite (rep_lt_int _ _ _ _ rep_i64_max RT), (rep_lt_int _ _ _ _ RT rep_i64_min).
  change (2 ^ 53) with 9007199254740992 in *. change (2 ^ 63) with 9223372036854775808. change (- (9223372036854775808)) with (-9223372036854775808).
  replace (9223372036854775808 <? iv_time a * k) with false by lia. replace (iv_time a * k <? -9223372036854775808) with false by lia.
  cbn [orb]. rewrite (rep_to_i64 _ _ RT); [reflexivity|]. unfold in_i64, i64_min, i64_max. lia.
Qed.

Lemma mul_int_refused md a f k : rep f (IZR k) -> Z.abs k <= 2 ^ 200 -> in_i32 (iv_month a) -> in_i32 (iv_day a) ->
  ~ in_i32 (iv_month a * k) \/ ~ in_i32 (iv_day a * k) -> interval_mul_f64 md a f = Err EOverflow.
Proof.
  intros F K Hm Hd H. unfold interval_mul_f64.
  destruct (is_nan (fmul (f64_of_Z (iv_month a)) f) || _ || _) eqn:E1; [reflexivity|].
  destruct (is_nan (fmul (f64_of_Z (iv_day a)) f) || _ || _) eqn:E2; [reflexivity|]. exfalso.
  destruct H as [H|H].
  - rewrite (prod_out _ _ _ F K Hm H) in E1. discriminate.
  - rewrite (prod_out _ _ _ F K Hd H) in E2. discriminate.
Qed.

Lemma mul_time_refused md a f k : rep f (IZR k) -> Z.abs k <= 2 ^ 53 -> in_i32 (iv_month a) -> in_i32 (iv_day a) ->
  Z.abs (iv_time a) <= 2 ^ 53 -> 2 ^ 63 + 2048 <= Z.abs (iv_time a * k) ->
  interval_mul_f64 md a f = Err EOverflow.
Proof.
  intros F K Hm Hd Ht Htk. unfold interval_mul_f64.
  destruct (is_nan (fmul (f64_of_Z (iv_month a)) f) || _ || _) eqn:E1; [reflexivity|].
  destruct (is_nan (fmul (f64_of_Z (iv_day a)) f) || _ || _) eqn:E2; [reflexivity|].
  assert (Z.abs k <= 2 ^ 200) as K' by (etransitivity; [exact K|apply Z.pow_le_mono_r; lia]).
  assert (in_i32 (iv_month a * k)) as Hmk.
  { destruct (in32b (iv_month a * k)) eqn:I; [unfold in32b in I; unfold in_i32; lia|].
    rewrite (prod_out _ _ _ F K' Hm) in E1; [discriminate|]. unfold in32b in I. unfold in_i32. lia. }
  assert (in_i32 (iv_day a * k)) as Hdk.
  { destruct (in32b (iv_day a * k)) eqn:I; [unfold in32b in I; unfold in_i32; lia|].
    rewrite (prod_out _ _ _ F K' Hd) in E2; [discriminate|]. unfold in32b in I. unfold in_i32. lia. }
  destruct (prod_in _ _ _ F Hmk Hm) as (RM & _ & EM). destruct (prod_in _ _ _ F Hdk Hd) as (RD & _ & ED).
  cbv zeta. rewrite EM, ED. destruct (cascade_int md _ _ _ _ RM RD Hmk Hdk) as (sr & -> & RS). cbn [bind].
  assert (Z.abs (iv_time a * k) <= 2 ^ 106) as B.
  { rewrite Z.abs_mul. change (2 ^ 106) with (2 ^ 53 * 2 ^ 53). apply Z.mul_le_mono_nonneg; lia. }
  set (q := rnd (IZR (iv_time a * k))).
  assert (rep (fmul (f64_of_Z (iv_time a)) f) q) as RQ.
  { unfold q. rewrite mult_IZR. apply rep_mul; [now apply rep_int|exact F|]. rewrite <- mult_IZR. apply int_bound. etransitivity; [exact B|apply Z.pow_le_mono_r; lia]. }
  assert (generic_format radix2 fx q) as GQ by (unfold q, rnd; apply generic_format_round; auto with typeclass_instances; apply FLT_exp_valid; reflexivity).
  assert (Rabs q <= bpow radix2 1000)%R as BQ.
  { unfold q, rnd. apply abs_round_le_generic; auto with typeclass_instances.
    - apply FLT_exp_valid; reflexivity.
    - apply generic_format_bpow. apply Z.leb_le. reflexivity.
    - apply int_bound. etransitivity; [exact B|apply Z.pow_le_mono_r; lia]. }
  assert (rep (fadd (fmul (f64_of_Z (iv_time a)) f) (fmul sr (f64_of_Z USECS_PER_SEC))) q) as RA.
  { rewrite <- (rnd_id q GQ). replace q with (q + 0)%R at 1 by ring. apply rep_add; [exact RQ| |now rewrite Rplus_0_r].
    apply (rep_mul_int _ _ 0 1000000); [exact RS|apply rep_int; lia|lia]. }
  pose proof (rep_round _ _ RA) as RT. set (rt := fround _) in *. unfold fgt.
  rewrite (rep_lt_int _ _ _ _ rep_i64_max RT), (rep_lt_int _ _ _ _ RT rep_i64_min).
  assert (generic_format radix2 fx (IZR (2 ^ 63 + 2048))) as G1.
  { replace (IZR (2 ^ 63 + 2048)) with (F2R (Float radix2 (2 ^ 52 + 1) 11)).
    - apply generic_format_FLT. eexists; [reflexivity|apply Z.ltb_lt; reflexivity|apply Z.leb_le; reflexivity].
    - unfold F2R. cbn [Fnum Fexp]. rewrite <- IZR_Zpower by lia. rewrite <- mult_IZR. f_equal. }
  assert (2 ^ 63 + 2048 <= iv_time a * k \/ iv_time a * k <= - (2 ^ 63 + 2048)) as [C|C] by lia.
  - assert (IZR (2 ^ 63 + 2048) <= q)%R as L.
    { rewrite <- (rnd_id _ G1). apply rnd_mono. now apply IZR_le. }
    apply (Zrnd_le ZnearestA) in L. rewrite ZnearestA_IZR in L.
    replace (2 ^ 63 <? ZnearestA q) with true by lia. reflexivity.
  - assert (q <= IZR (- (2 ^ 63 + 2048)))%R as L.
    { rewrite <- (rnd_id (IZR (- (2 ^ 63 + 2048)))).
      - apply rnd_mono. now apply IZR_le.
      - rewrite opp_IZR. apply generic_format_opp. exact G1. }
    apply (Zrnd_le ZnearestA) in L. rewrite ZnearestA_IZR in L.
    replace (ZnearestA q <? - 2 ^ 63) with true by lia. now rewrite orb_true_r.
Qed.

(** Finite operands. *)
Lemma f64_of_i32_cases z : in_i32 z -> (exists s, f64_of_Z z = S754_zero s) \/ exists s m e, f64_of_Z z = S754_finite s m e.
Proof.
  intros H. destruct (rep_int z) as (b & F & <- & _).
  { unfold in_i32, i32_min, i32_max in H. change (2 ^ 53) with 9007199254740992. lia. }
  destruct b as [s|s| |s m e Hb]; try discriminate F; [left|right]; cbn [B2SF]; eauto.
Qed.
Lemma mul_nan md a : in_i32 (iv_month a) -> interval_mul_f64 md a S754_nan = Err EOverflow.
Proof.
  intros H. unfold interval_mul_f64. destruct (f64_of_i32_cases _ H) as [(s & ->)|(s & m & e & ->)]; reflexivity.
Qed.
Lemma mul_inf md a b : in_i32 (iv_month a) -> interval_mul_f64 md a (S754_infinity b) = Err EOverflow.
Proof.
  intros H. unfold interval_mul_f64. destruct (f64_of_i32_cases _ H) as [(s & ->)|(s & m & e & ->)]; [reflexivity|].
  destruct s, b; reflexivity.
Qed.

(** Zero factor, any sign of zero. *)
Lemma mul_zero md a b : in_i32 (iv_month a) -> in_i32 (iv_day a) -> in_i64 (iv_time a) ->
  interval_mul_f64 md a (S754_zero b) = Ok (from_mdt 0 0 0).
Proof.
  intros Hm Hd Ht. unfold interval_mul_f64.
  assert (rep (S754_zero b) (IZR 0)) as F by (exists (B754_zero b); repeat split).
  assert (in_i32 0) as Z0 by (unfold in_i32, i32_min, i32_max; lia).
  destruct (prod_in (iv_month a) 0 _ F ltac:(now rewrite Z.mul_0_r) Hm) as (RM & -> & EM).
  destruct (prod_in (iv_day a) 0 _ F ltac:(now rewrite Z.mul_0_r) Hd) as (RD & -> & ED).
  cbv zeta. rewrite EM, ED. destruct (cascade_int md _ _ _ _ RM RD) as (sr & -> & RS); [now rewrite Z.mul_0_r..|]. cbn [bind].
  set (rt := fround _).
  assert (rep rt (IZR 0)) as RT.
  { apply rep_round_int. apply (rep_add_int _ _ 0 0); [|apply (rep_mul_int _ _ 0 1000000); [exact RS|apply rep_int; lia|lia]|lia].
    pose proof (rep_Z (iv_time a)) as T. replace (IZR 0) with (rnd (rnd (IZR (iv_time a)) * IZR 0)).
    - apply rep_mul; [apply T|exact F|]; [|rewrite Rmult_0_r; apply (int_bound 0); lia].
      apply int_bound. unfold in_i64, i64_min, i64_max in Ht. apply Z.le_trans with (2 ^ 63); [change (2 ^ 63) with 9223372036854775808; lia|apply Z.pow_le_mono_r; lia].
    - rewrite Rmult_0_r. apply (rnd_int 0). lia. }
  unfold fgt. rewrite (rep_lt_int _ _ _ _ rep_i64_max RT), (rep_lt_int _ _ _ _ RT rep_i64_min).
  change (2 ^ 63 <? 0) with false. change (0 <? - 2 ^ 63) with false. cbn [orb].
  rewrite (rep_to_i64 _ _ RT) by (unfold in_i64, i64_min, i64_max; lia). now rewrite !Z.mul_0_r.
Qed.

(** Division by an integer that divides every field. *)
Lemma rep_div_int x y a b : rep x (IZR (a * b)) -> rep y (IZR b) -> b <> 0 -> Z.abs a <= 2 ^ 53 ->
  rep (fdiv x y) (IZR a).
Proof.
  intros X Y B A. assert (IZR (a * b) / IZR b = IZR a)%R as E.
  { rewrite mult_IZR. field. now apply not_0_IZR. }
  rewrite <- (rnd_int a A), <- E. apply rep_div; auto; [now apply not_0_IZR|]. rewrite E. apply int_bound.
  etransitivity; [exact A|apply Z.pow_le_mono_r; lia].
Qed.
Lemma div_int md f k m d t : rep f (IZR k) -> k <> 0 -> in_i32 m -> in_i32 d -> 
  in_i32 (m * k) -> in_i32 (d * k) -> Z.abs t <= 2 ^ 53 -> Z.abs (t * k) <= 2 ^ 53 ->
  interval_div_f64 md (from_mdt (m * k) (d * k) (t * k)) f = Ok (from_mdt m d t).
Proof.
  intros F K Hm Hd Hmk Hdk Ht Htk. unfold interval_div_f64.
  assert (feq f f0 = false) as ->.
  { rewrite (rep_eq _ _ _ _ F rep_f0). apply Req_bool_false. now apply not_0_IZR. }
  assert (forall z, in_i32 z -> Z.abs z <= 2 ^ 53) as I53.
  { intros z Hz. unfold in_i32, i32_min, i32_max in Hz. change (2 ^ 53) with 9007199254740992. lia. }
  change (iv_month (from_mdt (m * k) (d * k) (t * k))) with (m * k). change (iv_day (from_mdt (m * k) (d * k) (t * k))) with (d * k).
  change (iv_time (from_mdt (m * k) (d * k) (t * k))) with (t * k).
  assert (rep (fdiv (f64_of_Z (m * k)) f) (IZR m)) as RM by (apply rep_div_int with k; auto; apply rep_int; auto).
  assert (rep (fdiv (f64_of_Z (d * k)) f) (IZR d)) as RD by (apply rep_div_int with k; auto; apply rep_int; auto).
  cbv zeta. rewrite (rep_to_i32 _ _ RM Hm), (rep_to_i32 _ _ RD Hd).
  destruct (cascade_int md _ _ _ _ RM RD Hm Hd) as (sr & -> & RS). cbn [bind].
  do 2 f_equal. apply rep_to_i64.
  - apply rep_round_int. replace t with (t + 0) at 2 by lia. apply rep_add_int; [|apply (rep_mul_int _ _ 0 1000000); [exact RS|apply rep_int; lia|lia]|lia].
    apply rep_div_int with k; auto. now apply rep_int.
  - change (2 ^ 53) with 9007199254740992 in Ht. unfold in_i64, i64_min, i64_max. lia.
Qed.
Lemma div_zero md a b : interval_div_f64 md a (S754_zero b) = Err EInvalid.
Proof. reflexivity. Qed.
