(** Error bounds for scaling intervals by arbitrary factors. *)
From Coq Require Import ZArith Reals Lia Lra Floats.SpecFloat.
From Flocq Require Import Core.Core IEEE754.BinarySingleNaN.
From Verif Require Import Model.DateTime Spec.ScaleError Proofs.Arith Proofs.FloatP Proofs.ClockP Proofs.ScaleP Proofs.PartsP.
Open Scope R_scope.

Lemma rnd_near r B : - B <= r <= B -> r - eps B <= rnd r <= r + eps B.
Proof.
  intros H. apply Rabs_le in H. apply rnd_close in H. apply Rabs_le_inv in H. lra.
Qed.
Lemma in_big r : -100000000000000000000 <= r <= 100000000000000000000 -> Rabs r <= bpow radix2 1000.
Proof. intros H. apply big_bound, Rabs_le, H. Qed.
Lemma eps_nonneg B : 0 <= B -> 0 <= eps B.
Proof. intros H. unfold eps. lra. Qed.

Lemma trunc_near r : r - 1 < IZR (Ztrunc r) < r + 1 /\ (0 <= r -> 0 <= IZR (Ztrunc r) <= r) /\ (r <= 0 -> r <= IZR (Ztrunc r) <= 0).
Proof.
  destruct (Rle_or_lt 0 r) as [H|H].
  - rewrite Ztrunc_floor by exact H. pose proof (Zfloor_lb r). pose proof (Zfloor_ub r).
    assert (0 <= IZR (Zfloor r)) by (apply IZR_le, Zfloor_lub; exact H). repeat split; lra.
  - rewrite Ztrunc_ceil by lra. pose proof (Zceil_ub r). pose proof (Zceil_lb r).
    assert (IZR (Zceil r) <= 0) by (apply IZR_le, Zceil_glb; lra). repeat split; lra.
Qed.
Lemma near_half r : r - / 2 <= IZR (ZnearestA r) <= r + / 2.
Proof.
  pose proof (Znearest_half (Zle_bool 0) r) as H. apply Rabs_le_inv in H. fold (ZnearestA r) in H. lra.
Qed.
Lemma trunc_i32 x a : rep x a -> -2147483648 <= a <= 2147483647 -> f64_to_i32 x = Ztrunc a /\ in_i32 (Ztrunc a).
Proof.
  intros R H. unfold f64_to_i32. rewrite (rep_to_int i32_min i32_max x a); [|unfold i32_min, i32_max; lia|exact R].
  assert (-2147483648 <= Ztrunc a <= 2147483647)%Z as B.
  { rewrite <- (Ztrunc_IZR (-2147483648)), <- (Ztrunc_IZR 2147483647). split; apply Ztrunc_le; lra. }
  unfold in_i32, i32_min, i32_max in *. lia.
Qed.

(** Rounding to a millionth *)
Lemma round6 f r B : rep f r -> - B <= r <= B -> 1 <= B <= 1000000 ->
  exists w, rep (timestamp_round f) w /\ r - 5 / 10000000 - B / 1000000000000000 <= w <= r + 5 / 10000000 + B / 1000000000000000.
Proof.
  intros R H HB. unfold timestamp_round.
  assert (rep (f64_of_Z 1000000) 1000000) as R6 by (apply (rep_int 1000000); lia).
  pose proof (rep_mul f _ r 1000000 R R6 ltac:(apply in_big; lra)) as R1.
  pose proof (rnd_near (r * 1000000) (B * 1000000) ltac:(lra)) as N1. set (a := rnd (r * 1000000)) in *.
  pose proof (rep_round _ _ R1) as R2. pose proof (near_half a) as N2. set (k := ZnearestA a) in *.
  unfold eps in N1.
  pose proof (rep_div _ _ (IZR k) 1000000 R2 R6 ltac:(lra) ltac:(apply in_big; lra)) as R3.
  pose proof (rnd_near (IZR k / 1000000) (B + 1) ltac:(lra)) as N3. unfold eps in N3.
  eexists. split; [exact R3|]. lra.
Qed.

Lemma i32_rep z : in_i32 z -> rep (f64_of_Z z) (IZR z).
Proof. intros Hz. apply rep_int. unfold in_i32, i32_min, i32_max in Hz. change (2 ^ 53)%Z with 9007199254740992%Z. lia. Qed.

(** The remainder of the months in days *)
Lemma month_days fm M : rep fm M -> -2147483600 <= M <= 2147483600 ->
  exists w, rep (timestamp_round (fmul (fsub fm (f64_of_Z (Ztrunc M))) (f64_of_Z 30))) w
    /\ - (50001 / 100000000000) <= w - 30 * (M - IZR (Ztrunc M)) <= 50001 / 100000000000.
Proof.
  intros RM HM. destruct (trunc_i32 fm M RM ltac:(lra)) as [_ IM]. destruct (trunc_near M) as (TM & _ & _).
  pose proof (i32_rep _ IM) as RZM. set (zm := Ztrunc M) in *.
  pose proof (rep_sub _ _ _ _ RM RZM ltac:(apply in_big; lra)) as R1.
  pose proof (rnd_near (M - IZR zm) 1 ltac:(lra)) as N1. set (u := rnd (M - IZR zm)) in *. unfold eps in N1.
  pose proof (rep_mul _ _ _ 30 R1 (rep_int 30 ltac:(lia)) ltac:(apply in_big; lra)) as R2.
  pose proof (rnd_near (u * 30) 31 ltac:(lra)) as N2. set (v := rnd (u * 30)) in *. unfold eps in N2.
  destruct (round6 _ v 32 R2 ltac:(lra) ltac:(lra)) as (w & R3 & N3).
  exists w. split; [exact R3|]. lra.
Qed.

Lemma day_seconds fd mrd D w : rep fd D -> rep mrd w -> -2147483600 <= D <= 2147483600 -> -31 <= w <= 31 ->
  exists S, rep (timestamp_round (fmul (fsub (fadd (fsub fd (f64_of_Z (Ztrunc D))) mrd) (f64_of_Z (Ztrunc w))) (f64_of_Z 86400))) S
    /\ -172802 <= S <= 172802
    /\ - / 100000 <= S - 86400 * (D - IZR (Ztrunc D) + w - IZR (Ztrunc w)) <= / 100000.
Proof.
  intros RD R3 HD HW. destruct (trunc_i32 fd D RD ltac:(lra)) as [_ ID]. destruct (trunc_i32 mrd w R3 ltac:(lra)) as [_ IW].
  destruct (trunc_near D) as (TD & _ & _). destruct (trunc_near w) as (TW & _ & _).
  pose proof (i32_rep _ ID) as RZD. pose proof (i32_rep _ IW) as RZW. set (zd := Ztrunc D) in *. set (zw := Ztrunc w) in *.
  pose proof (rep_sub _ _ _ _ RD RZD ltac:(apply in_big; lra)) as R4.
  pose proof (rnd_near (D - IZR zd) 1 ltac:(lra)) as N4. set (s1 := rnd (D - IZR zd)) in *. unfold eps in N4.
  pose proof (rep_add _ _ _ _ R4 R3 ltac:(apply in_big; lra)) as R5.
  pose proof (rnd_near (s1 + w) 34 ltac:(lra)) as N5. set (s2 := rnd (s1 + w)) in *. unfold eps in N5.
  pose proof (rep_sub _ _ _ _ R5 RZW ltac:(apply in_big; lra)) as R6.
  pose proof (rnd_near (s2 - IZR zw) 3 ltac:(lra)) as N6. set (s3 := rnd (s2 - IZR zw)) in *. unfold eps in N6.
  pose proof (rep_mul _ _ _ 86400 R6 (rep_int 86400 ltac:(lia)) ltac:(apply in_big; lra)) as R7.
  pose proof (rnd_near (s3 * 86400) 172801 ltac:(lra)) as N7. set (s4 := rnd (s3 * 86400)) in *. unfold eps in N7.
  destruct (round6 _ s4 172801 R7 ltac:(lra) ltac:(lra)) as (S & R8 & N8).
  exists S. split; [exact R8|]. split; lra.
Qed.

(** Whole days of the seconds are carried. *)
Lemma carry_seconds sr S : rep sr S -> -172802 <= S <= 172802 ->
  exists p, rep (fdiv sr (f64_of_Z 86400)) p /\ S / 86400 - / 1000000000000 <= p <= S / 86400 + / 1000000000000
    /\ f64_to_i32 (fdiv sr (f64_of_Z 86400)) = Ztrunc p /\ (-3 <= Ztrunc p <= 3)%Z
    /\ exists S', rep (fsub sr (f64_of_Z (Ztrunc p * 86400))) S' /\ -172802 <= S' <= 172802
      /\ - / 10000000000 <= S' - (S - 86400 * IZR (Ztrunc p)) <= / 10000000000.
Proof.
  intros R8 HS.
  pose proof (rep_div _ _ _ 86400 R8 (rep_int 86400 ltac:(lia)) ltac:(lra) ltac:(apply in_big; lra)) as R9.
  pose proof (rnd_near (S / 86400) 3 ltac:(lra)) as N9. set (p := rnd (S / 86400)) in *. unfold eps in N9.
  destruct (trunc_i32 _ p R9 ltac:(lra)) as [E9 I9]. destruct (trunc_near p) as (TP & _ & _).
  exists p. split; [exact R9|]. split; [lra|]. split; [exact E9|].
  assert (-4 < Ztrunc p < 4)%Z as Q by (split; apply lt_IZR; lra). split; [lia|].
  set (q := Ztrunc p) in *. assert (IZR (q * 86400) = IZR q * 86400) as Q3 by apply mult_IZR.
  assert (rep (f64_of_Z (q * 86400)) (IZR (q * 86400))) as RQ by (apply rep_int; change (2 ^ 53)%Z with 9007199254740992%Z; lia).
  pose proof (rep_sub _ _ _ _ R8 RQ ltac:(apply in_big; rewrite Q3; lra)) as R10.
  pose proof (rnd_near (S - IZR (q * 86400)) 90000 ltac:(lra)) as N10. unfold eps in N10.
  eexists. split; [exact R10|]. rewrite Q3 in *. split; lra.
Qed.

(** The fractions of months and days go down to days and seconds; [30 M + D] days are kept to
    half a millionth of a day. *)
Lemma cascade_close md fm fd M D : rep fm M -> rep fd D -> -2147483600 <= M <= 2147483600 -> -2147483600 <= D <= 2147483600 ->
  exists day sr S, cascade_days md fm fd (Ztrunc M) (Ztrunc D) = Ok (day, sr) /\ rep sr S /\ -172802 <= S <= 172802
    /\ D - 36 <= IZR day <= D + 36
    /\ - (5002 / 10000000000) <= 30 * IZR (Ztrunc M) + IZR day + S / 86400 - (30 * M + D) <= 5002 / 10000000000.
Proof.
  intros RM RD HM HD. unfold cascade_days.
  destruct (trunc_near M) as (TM & _ & _). destruct (trunc_near D) as (TD & _ & _).
  destruct (month_days fm M RM HM) as (w & R3 & N3).
  change DAYS_PER_MONTH with 30%Z. set (mrd := timestamp_round (fmul (fsub fm (f64_of_Z (Ztrunc M))) (f64_of_Z 30))) in *.
  destruct (day_seconds fd mrd D w RD R3 HD ltac:(lra)) as (S & R8 & HS & N8).
  destruct (trunc_i32 mrd w R3 ltac:(lra)) as [E3 I3]. destruct (trunc_near w) as (TW & _ & _).
  cbv zeta. rewrite E3. change SECS_PER_DAY with 86400%Z. set (zm := Ztrunc M) in *. set (zd := Ztrunc D) in *. set (zw := Ztrunc w) in *.
  set (sr := timestamp_round (fmul (fsub (fadd (fsub fd (f64_of_Z zd)) mrd) (f64_of_Z zw)) (f64_of_Z 86400))) in *.
  destruct (carry_seconds sr S R8 HS) as (p & R9 & N9 & E9 & B9 & S' & R10 & HS' & N10).
  assert (BZ : forall z, -2147483648 <= IZR z <= 2147483647 -> in_i32 z).
  { intros z [A B]. apply le_IZR in A, B. unfold in_i32, i32_min, i32_max. lia. }
  rewrite E9. set (q := Ztrunc p) in *. assert (-3 <= IZR q <= 3) as B9' by (split; apply IZR_le; lia).
  destruct (fge (fabs sr) (f64_of_Z 86400)).
  - assert (IZR (zd + q) = IZR zd + IZR q) as Q1 by apply plus_IZR.
    assert (IZR (zd + q + zw) = IZR zd + IZR q + IZR zw) as Q2 by (rewrite !plus_IZR; reflexivity).
    assert (in_i32 (zd + q)) as J1 by (apply BZ; rewrite Q1; lra). assert (in_i32 (zd + q + zw)) as J2 by (apply BZ; rewrite Q2; lra).
    assert (in_i32 (q * 86400)) as J3 by (unfold in_i32, i32_min, i32_max; lia).
    unfold add32, mul32. rewrite !ar32_ok by auto. cbn [bind]. rewrite ?ar32_ok by auto. cbn [bind].
    exists (zd + q + zw)%Z, (fsub sr (f64_of_Z (q * 86400))), S'. split; [reflexivity|]. split; [exact R10|]. split; [exact HS'|].
    rewrite Q2. clear R3 R8 R9 R10 RM RD E3 I3 Q1 Q2 J1 J2 J3 BZ E9 B9. split; lra.
  - assert (IZR (zd + zw) = IZR zd + IZR zw) as QW by apply plus_IZR.
    cbn [bind]. unfold add32. rewrite ar32_ok by (apply BZ; rewrite QW; lra). cbn [bind].
    exists (zd + zw)%Z, sr, S. split; [reflexivity|]. split; [exact R8|]. split; [exact HS|]. rewrite QW.
    clear - TM TD N3 TW N8. split; lra.
Qed.

(** The time of the result; [u] is the scaled time of the operand. *)
Lemma time_close ft sr T S : rep ft T -> rep sr S -> -9200000000000000000 <= T <= 9200000000000000000 -> -172802 <= S <= 172802 ->
  exists v, rep (fround (fadd ft (fmul sr (f64_of_Z USECS_PER_SEC)))) (IZR v) /\ in_i64 v
    /\ T + S * 1000000 - Rabs T / 9000000000000000 - 6 / 10 <= IZR v <= T + S * 1000000 + Rabs T / 9000000000000000 + 6 / 10.
Proof.
  intros RT RS HT HS. change USECS_PER_SEC with 1000000%Z.
  pose proof (rep_mul _ _ _ 1000000 RS (rep_int 1000000 ltac:(lia)) ltac:(apply in_big; lra)) as R1.
  pose proof (rnd_near (S * 1000000) 172802000000 ltac:(lra)) as N1. set (a := rnd (S * 1000000)) in *. unfold eps in N1.
  pose proof (rep_add _ _ _ _ RT R1 ltac:(apply in_big; lra)) as R2.
  assert (- (Rabs T + 172802000001) <= T + a <= Rabs T + 172802000001) as B.
  { pose proof (Rabs_le_inv T (Rabs T) ltac:(lra)). lra. }
  pose proof (rnd_near (T + a) _ B) as N2. set (b := rnd (T + a)) in *. unfold eps in N2.
  assert (Rabs T <= 9200000000000000000) as AT by (apply Rabs_le; lra).
  pose proof (rep_round _ _ R2) as R3. pose proof (near_half b) as N3.
  exists (ZnearestA b). split; [exact R3|]. split; [|lra].
  assert (-9223372036854775808 <= IZR (ZnearestA b) <= 9223372036854775807) as [A1 A2] by lra.
  apply le_IZR in A1, A2. unfold in_i64, i64_min, i64_max. lia.
Qed.

Lemma int_close z : Rabs (rnd (IZR z) - IZR z) <= Rabs (IZR z) / 8000000000000000.
Proof.
  destruct (Z.eq_dec z 0) as [->|N].
  - rewrite (rnd_int 0) by lia. unfold Rminus. rewrite Rplus_opp_r, Rabs_R0. lra.
  - assert (1 <= Rabs (IZR z)) as H by (rewrite <- abs_IZR; apply IZR_le; lia).
    pose proof (rnd_close (IZR z) _ (Rle_refl _)) as Q. unfold eps in Q. lra.
Qed.

(** From the scaled fields to the result; [h] is how a double is scaled, [k] the exact factor. *)
Lemma scale_error md m d t k fm fd T ft : rep fm (rnd (IZR m * k)) -> rep fd (rnd (IZR d * k)) -> rep ft T ->
  Rabs (IZR m * k) <= 2147483000 -> Rabs (IZR d * k) <= 2147483000 -> Rabs (IZR t * k) <= 9100000000000000000 ->
  Rabs (T - IZR t * k) <= Rabs (IZR t * k) * (3 / 10000000000000000) + / 1000000 ->
  f64_to_i32 fm = Ztrunc (rnd (IZR m * k)) /\ f64_to_i32 fd = Ztrunc (rnd (IZR d * k))
  /\ - 2147483600 <= rnd (IZR m * k) <= 2147483600 /\ - 2147483600 <= rnd (IZR d * k) <= 2147483600 /\
  exists day sr v, cascade_days md fm fd (f64_to_i32 fm) (f64_to_i32 fd) = Ok (day, sr)
    /\ rep (fround (fadd ft (fmul sr (f64_of_Z USECS_PER_SEC)))) (IZR v) /\ in_i64 v
    /\ let b := from_mdt (f64_to_i32 fm) day v in
      Rabs (micros b - k * micros (from_mdt m d t)) <= 43220 + size (from_mdt m d t) * Rabs k / 2000000000000000
      /\ Rabs (IZR (iv_month b) - IZR m * k) <= 1 + / 1000000
      /\ Rabs (IZR (iv_day b) - IZR d * k) <= 37.
Proof.
  intros R1 R2 RT Bm Bd Bt BT.
  apply Rabs_le_inv in Bm as Bm'. apply Rabs_le_inv in Bd as Bd'. apply Rabs_le_inv in Bt as Bt'.
  pose proof (rnd_close (IZR m * k) _ (Rle_refl _)) as N1. pose proof (rnd_close (IZR d * k) _ (Rle_refl _)) as N2.
  apply Rabs_le_inv in N1. apply Rabs_le_inv in N2.
  set (M := rnd (IZR m * k)) in *. set (D := rnd (IZR d * k)) in *. unfold eps in N1, N2.
  assert (-2147483600 <= M <= 2147483600) as BM by lra. assert (-2147483600 <= D <= 2147483600) as BD by lra.
  destruct (trunc_i32 _ _ R1 ltac:(lra)) as [E1 _]. destruct (trunc_i32 _ _ R2 ltac:(lra)) as [E2 _]. rewrite E1, E2.
  do 4 (split; [auto|]).
  destruct (cascade_close md _ _ M D R1 R2 BM BD) as (day & sr & S & E3 & R3 & BS & Bday & N3).
  apply Rabs_le_inv in BT as BT'.
  destruct (time_close ft sr T S RT R3 ltac:(lra) BS) as (v & R4 & I4 & N4).
  exists day, sr, v. split; [exact E3|]. split; [exact R4|]. split; [exact I4|].
  cbv zeta. unfold micros, size. cbn [from_mdt iv_month iv_day iv_time].
  destruct (trunc_near M) as (TM & _ & _).
  assert (Rabs T <= Rabs (IZR t * k) * (1 + 3 / 10000000000000000) + / 1000000) as AT.
  { apply Rabs_le. pose proof (Rabs_le_inv (IZR t * k) _ (Rle_refl _)). lra. }
  replace (((30 * Rabs (IZR m) + Rabs (IZR d)) * 86400000000 + Rabs (IZR t)) * Rabs k)
    with ((30 * Rabs (IZR m * k) + Rabs (IZR d * k)) * 86400000000 + Rabs (IZR t * k)) by (rewrite !Rabs_mult; ring).
  replace (k * ((30 * IZR m + IZR d) * 86400000000 + IZR t)) with ((30 * (IZR m * k) + IZR d * k) * 86400000000 + IZR t * k) by ring.
  clear R1 R2 RT E1 E2 E3 R3 R4 I4 Bt'.
  generalize dependent (Rabs (IZR m * k)). generalize dependent (Rabs (IZR d * k)). generalize dependent (Rabs (IZR t * k)).
  generalize dependent (Rabs T). generalize dependent (IZR (Ztrunc M)). generalize dependent (IZR day). generalize dependent (IZR v).
  intros. split; [|split]; apply Rabs_le; lra.
Qed.

Lemma scaled_time t x : Rabs (rnd (IZR t) * x - IZR t * x) <= Rabs (IZR t * x) / 8000000000000000.
Proof.
  replace (rnd (IZR t) * x - IZR t * x) with ((rnd (IZR t) - IZR t) * x) by ring. rewrite !Rabs_mult.
  pose proof (Rmult_le_compat_r (Rabs x) _ _ (Rabs_pos x) (int_close t)). lra.
Qed.
Lemma time_error t k r : Rabs (r - IZR t * k) <= Rabs (IZR t * k) / 8000000000000000 ->
  Rabs (rnd r - IZR t * k) <= Rabs (IZR t * k) * (3 / 10000000000000000) + / 1000000.
Proof.
  intros H. pose proof (rnd_close r _ (Rle_refl _)) as Q. unfold eps in Q.
  assert (Rabs r <= Rabs (IZR t * k) * (1 + / 8000000000000000)) as A.
  { replace r with (IZR t * k + (r - IZR t * k)) by ring. eapply Rle_trans; [apply Rabs_triang|]. lra. }
  replace (rnd r - IZR t * k) with ((rnd r - r) + (r - IZR t * k)) by ring. eapply Rle_trans; [apply Rabs_triang|].
  pose proof (Rabs_pos (IZR t * k)). lra.
Qed.
Lemma i64_real t : in_i64 t -> Rabs (IZR t) <= 9223372036854775808.
Proof.
  intros H. rewrite <- abs_IZR. apply IZR_le. unfold in_i64, i64_min, i64_max in H. lia.
Qed.
Lemma prod_big r B : Rabs r <= B -> B <= 10000000000000000000 -> Rabs r <= bpow radix2 1000.
Proof. intros. apply big_bound. lra. Qed.

Lemma mul_error md a f x : rep f x -> in_i32 (iv_month a) -> in_i32 (iv_day a) -> in_i64 (iv_time a) ->
  Rabs (IZR (iv_month a) * x) <= 2147483000 -> Rabs (IZR (iv_day a) * x) <= 2147483000 -> Rabs (IZR (iv_time a) * x) <= 9100000000000000000 ->
  exists b, interval_mul_f64 md a f = Ok b
    /\ Rabs (micros b - x * micros a) <= 43220 + size a * Rabs x / 2000000000000000
    /\ Rabs (IZR (iv_month b) - IZR (iv_month a) * x) <= 1 + / 1000000
    /\ Rabs (IZR (iv_day b) - IZR (iv_day a) * x) <= 37.
Proof.
  destruct a as [t d m]. cbn [iv_month iv_day iv_time]. intros RF Hm Hd Ht Bm Bd Bt. unfold interval_mul_f64.
  cbn [iv_month iv_day iv_time].
  pose proof (rep_mul _ _ _ _ (i32_rep _ Hm) RF (prod_big _ _ Bm ltac:(lra))) as R1.
  pose proof (rep_mul _ _ _ _ (i32_rep _ Hd) RF (prod_big _ _ Bd ltac:(lra))) as R2.
  pose proof (rep_Z t (prod_big _ _ (i64_real t Ht) ltac:(lra))) as R0.
  pose proof (scaled_time t x) as Q. pose proof (time_error t x _ Q) as Q'.
  assert (Rabs (rnd (IZR t) * x) <= 9200000000000000000) as B0.
  { replace (rnd (IZR t) * x) with (IZR t * x + (rnd (IZR t) * x - IZR t * x)) by ring. eapply Rle_trans; [apply Rabs_triang|]. lra. }
  pose proof (rep_mul _ _ _ _ R0 RF (prod_big _ _ B0 ltac:(lra))) as RT.
  destruct (scale_error md m d t x _ _ _ _ R1 R2 RT Bm Bd Bt Q') as (E1 & E2 & BM & BD & day & sr & v & EC & RV & IV & C).
  assert (forall g r, rep g r -> -2147483600 <= r <= 2147483600 -> is_nan g || fgt g (f64_of_Z i32_max) || flt g (f64_of_Z i32_min) = false) as OK.
  { intros g r Rg Bg. rewrite (rep_not_nan _ _ Rg). unfold fgt.
    assert (rep (f64_of_Z i32_max) 2147483647) as X1 by (apply (rep_int 2147483647); lia).
    assert (rep (f64_of_Z i32_min) (-2147483648)) as X2 by (apply (rep_int (-2147483648)); lia).
    rewrite (rep_lt _ _ _ _ X1 Rg), (rep_lt _ _ _ _ Rg X2). rewrite !Rlt_bool_false by lra. reflexivity. }
  rewrite (OK _ _ R1 BM), (OK _ _ R2 BD). cbv zeta. rewrite EC. cbn [bind].
  assert (fgt (fround (fadd (fmul (f64_of_Z t) f) (fmul sr (f64_of_Z USECS_PER_SEC)))) (f64_of_Z i64_max) = false) as ->.
  { unfold fgt. rewrite (rep_lt _ _ _ _ rep_i64_max RV). apply Rlt_bool_false, IZR_le. unfold in_i64, i64_min, i64_max in IV. lia. }
  assert (flt (fround (fadd (fmul (f64_of_Z t) f) (fmul sr (f64_of_Z USECS_PER_SEC)))) (f64_of_Z i64_min) = false) as ->.
  { rewrite (rep_lt _ _ _ _ RV rep_i64_min). apply Rlt_bool_false, IZR_le. unfold in_i64, i64_min, i64_max in IV. lia. }
  cbn [orb]. rewrite (rep_to_i64 _ v RV IV). eexists. split; [reflexivity|]. exact C.
Qed.

Lemma div_error md a f x : rep f x -> x <> 0 -> in_i32 (iv_month a) -> in_i32 (iv_day a) -> in_i64 (iv_time a) ->
  Rabs (IZR (iv_month a) / x) <= 2147483000 -> Rabs (IZR (iv_day a) / x) <= 2147483000 -> Rabs (IZR (iv_time a) / x) <= 9100000000000000000 ->
  exists b, interval_div_f64 md a f = Ok b
    /\ Rabs (micros b - micros a / x) <= 43220 + size a / Rabs x / 2000000000000000
    /\ Rabs (IZR (iv_month b) - IZR (iv_month a) / x) <= 1 + / 1000000
    /\ Rabs (IZR (iv_day b) - IZR (iv_day a) / x) <= 37.
Proof.
  destruct a as [t d m]. cbn [iv_month iv_day iv_time]. intros RF X Hm Hd Ht Bm Bd Bt. unfold interval_div_f64.
  cbn [iv_month iv_day iv_time].
  rewrite (rep_eq _ _ _ _ RF rep_f0), Req_bool_false by exact X.
  pose proof (rep_div _ _ _ _ (i32_rep _ Hm) RF X (prod_big _ _ Bm ltac:(lra))) as R1.
  pose proof (rep_div _ _ _ _ (i32_rep _ Hd) RF X (prod_big _ _ Bd ltac:(lra))) as R2.
  pose proof (rep_Z t (prod_big _ _ (i64_real t Ht) ltac:(lra))) as R0.
  pose proof (scaled_time t (/ x)) as Q. pose proof (time_error t (/ x) _ Q) as Q'. unfold Rdiv in Bm, Bd, Bt, R1, R2.
  assert (Rabs (rnd (IZR t) * / x) <= 9200000000000000000) as B0.
  { replace (rnd (IZR t) * / x) with (IZR t * / x + (rnd (IZR t) * / x - IZR t * / x)) by ring. eapply Rle_trans; [apply Rabs_triang|]. lra. }
  pose proof (rep_div _ _ _ _ R0 RF X (prod_big _ _ B0 ltac:(lra))) as RT.
  destruct (scale_error md m d t (/ x) _ _ _ _ R1 R2 RT Bm Bd Bt Q') as (E1 & E2 & BM & BD & day & sr & v & EC & RV & IV & C).
  cbv zeta. rewrite EC. cbn [bind].
  rewrite (rep_to_i64 _ v RV IV). eexists. split; [reflexivity|]. cbv zeta in C.
  rewrite Rabs_inv in C. unfold Rdiv. rewrite (Rmult_comm (micros (mkInterval t d m)) (/ x)). exact C.
Qed.
