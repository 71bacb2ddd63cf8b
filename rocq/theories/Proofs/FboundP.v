(** Bounds on the integers that come out of floating point sums and products. *)
From Verif Require Import Model.F64 Model.Parse Proofs.FloatP Proofs.ScaleP Proofs.IvIsoP.
From Flocq Require Import Core.Core.
From Coq Require Import ZArith Reals Lra Lia List.
Import ListNotations.
Open Scope R_scope.

(** [x] is a finite float of size at most [B] *)
Definition fb (x : f64) (B : Z) : Prop := exists r, rep x r /\ Rabs r <= IZR B.

Lemma rnd_abs r B : (0 <= B <= 2 ^ 53)%Z -> Rabs r <= IZR B -> Rabs (rnd r) <= IZR B.
Proof.
  intros HB H. apply Rabs_le_inv in H. apply Rabs_le. split.
  - rewrite <- opp_IZR. rewrite <- (rnd_int (- B)) by lia. apply rnd_mono. rewrite opp_IZR. lra.
  - apply rnd_le_int; [lia|lra].
Qed.
Lemma fb_int z B : (Z.abs z <= B)%Z -> (B <= 2 ^ 53)%Z -> fb (f64_of_Z z) B.
Proof. intros H HB. exists (IZR z). split; [apply rep_int; lia|]. rewrite <- abs_IZR. now apply IZR_le. Qed.
Lemma fb_mul x y A B C : fb x A -> fb y B -> (A * B <= C)%Z -> (C <= 2 ^ 53)%Z -> fb (fmul x y) C.
Proof.
  intros (a & Ra & Ha) (b & Rb & Hb) H HC. assert (Rabs (a * b) <= IZR C) as Hab.
  { rewrite Rabs_mult. apply Rle_trans with (IZR A * IZR B); [apply Rmult_le_compat; auto using Rabs_pos|].
    rewrite <- mult_IZR. now apply IZR_le. }
  assert (0 <= C)%Z as C0 by (apply le_IZR; apply Rle_trans with (2 := Hab), Rabs_pos).
  exists (rnd (a * b)). split; [apply rep_mul; auto; apply (small_bound _ C); auto; lia|]. apply rnd_abs; auto.
Qed.
Lemma fb_add x y A B C : fb x A -> fb y B -> (A + B <= C)%Z -> (C <= 2 ^ 53)%Z -> fb (fadd x y) C.
Proof.
  intros (a & Ra & Ha) (b & Rb & Hb) H HC. assert (Rabs (a + b) <= IZR C) as Hab.
  { pose proof (Rabs_triang a b). apply IZR_le in H. rewrite plus_IZR in H. lra. }
  assert (0 <= C)%Z as C0 by (apply le_IZR; apply Rle_trans with (2 := Hab), Rabs_pos).
  exists (rnd (a + b)). split; [apply rep_add; auto; apply (small_bound _ C); auto; lia|]. apply rnd_abs; auto.
Qed.
Lemma fb_sub x y A B C : fb x A -> fb y B -> (A + B <= C)%Z -> (C <= 2 ^ 53)%Z -> fb (fsub x y) C.
Proof.
  intros (a & Ra & Ha) (b & Rb & Hb) H HC. assert (Rabs (a - b) <= IZR C) as Hab.
  { pose proof (Rabs_triang a (- b)) as T. rewrite Rabs_Ropp in T. apply IZR_le in H. rewrite plus_IZR in H. unfold Rminus. lra. }
  assert (0 <= C)%Z as C0 by (apply le_IZR; apply Rle_trans with (2 := Hab), Rabs_pos).
  exists (rnd (a - b)). split; [apply rep_sub; auto; apply (small_bound _ C); auto; lia|]. apply rnd_abs; auto.
Qed.
Lemma rep_fneg x a : rep x a -> rep (fneg x) (- a).
Proof.
  intros (b & F & <- & <-). exists (BinarySingleNaN.Bopp b). split; [now rewrite BinarySingleNaN.is_finite_Bopp|].
  split; [|apply BinarySingleNaN.B2R_Bopp]. destruct b; reflexivity.
Qed.
Lemma fb_neg x B : fb x B -> fb (fneg x) B.
Proof. intros (r & R & H). exists (- r). split; [now apply rep_fneg|]. now rewrite Rabs_Ropp. Qed.
Lemma near_abs r B : Rabs r <= IZR B -> Rabs (IZR (ZnearestA r)) <= IZR B.
Proof.
  intros H. apply Rabs_le_inv in H. assert (forall u v, u <= v -> (ZnearestA u <= ZnearestA v)%Z) as M.
  { intros u v. apply (@Zrnd_le ZnearestA). exact (valid_rnd_N _). }
  apply Rabs_le. split.
  - rewrite <- opp_IZR. apply IZR_le. rewrite <- (ZnearestA_IZR (- B)). apply M. rewrite opp_IZR. lra.
  - apply IZR_le. rewrite <- (ZnearestA_IZR B). apply M. lra.
Qed.
Lemma fb_round x B : fb x B -> fb (fround x) B.
Proof. intros (r & R & H). exists (IZR (ZnearestA r)). split; [now apply rep_round|]. now apply near_abs. Qed.
Lemma fb_trunc lo hi x B : (lo <= 0 <= hi)%Z -> fb x B -> (Z.abs (f64_to_int lo hi x) <= B)%Z.
Proof.
  intros HL (r & R & H). rewrite (rep_to_int lo hi x r HL R). apply Rabs_le_inv in H.
  assert (Ztrunc r <= B)%Z by (rewrite <- (Ztrunc_IZR B); apply Ztrunc_le; lra).
  assert (- B <= Ztrunc r)%Z by (rewrite <- (Ztrunc_IZR (- B)); apply Ztrunc_le; rewrite opp_IZR; lra).
  lia.
Qed.
Lemma fb_i32 x B : fb x B -> (Z.abs (f64_to_i32 x) <= B)%Z.
Proof. apply fb_trunc. unfold i32_min, i32_max. lia. Qed.
Lemma fb_i64 x B : fb x B -> (Z.abs (f64_to_i64 x) <= B)%Z.
Proof. apply fb_trunc. unfold i64_min, i64_max. lia. Qed.
Lemma fb_usecs x : fb x 1 -> (Z.abs (usecs_of x) <= 1000000)%Z.
Proof.
  intros H. apply fb_i64, fb_round, (fb_mul x _ 1 1000000); [exact H|apply fb_int; lia|lia|lia].
Qed.
(** The quotient of an integer by a positive one *)
Lemma rep_quot n d B : (0 < d <= 2 ^ 53)%Z -> (Z.abs n <= 2 ^ 53)%Z -> (Z.abs n <= B * d)%Z -> (0 <= B <= 2 ^ 53)%Z ->
  rep (fdiv (f64_of_Z n) (f64_of_Z d)) (rnd (IZR n / IZR d)) /\ Rabs (IZR n / IZR d) <= IZR B.
Proof.
  intros Hd Hn H HB. assert (0 < IZR d) as P by (apply IZR_lt; lia).
  assert (Rabs (IZR n / IZR d) <= IZR B) as A.
  { unfold Rdiv. rewrite Rabs_mult, (Rabs_right (/ IZR d)) by (left; now apply Rinv_0_lt_compat).
    apply Rmult_le_reg_r with (IZR d); [exact P|]. rewrite Rmult_assoc, Rinv_l by lra. rewrite Rmult_1_r.
    rewrite <- abs_IZR, <- mult_IZR. now apply IZR_le. }
  split; [|exact A]. apply rep_div; [apply rep_int; lia|apply rep_int; lia|lra|].
  apply (small_bound _ B); [exact A|lia].
Qed.
Lemma fb_quot n d B : (0 < d <= 2 ^ 53)%Z -> (Z.abs n <= 2 ^ 53)%Z -> (Z.abs n <= B * d)%Z -> (0 <= B <= 2 ^ 53)%Z ->
  fb (fdiv (f64_of_Z n) (f64_of_Z d)) B.
Proof.
  intros Hd Hn H HB. destruct (rep_quot n d B Hd Hn H HB) as [R A]. eexists. split; [exact R|]. now apply rnd_abs.
Qed.
(** What is left of a number that is not negative after taking the whole part away *)
Lemma fb_rest x a B : rep x a -> 0 <= a <= IZR B -> (B <= i32_max)%Z ->
  (0 <= f64_to_i32 (ffloor x) <= B)%Z /\ fb (fsub x (f64_of_Z (f64_to_i32 (ffloor x)))) 1.
Proof.
  intros R H HB. pose proof (rep_floor x a R) as Rf.
  assert (0 <= Zfloor a <= B)%Z as [F0 F1].
  { split; [apply Zfloor_lub; lra|]. apply le_IZR. apply Rle_trans with a; [apply Zfloor_lb|lra]. }
  assert (f64_to_i32 (ffloor x) = Zfloor a) as ->.
  { apply rep_to_i32; [exact Rf|]. unfold in_i32, i32_min, i32_max in *. lia. }
  split; [lia|]. unfold i32_max in HB. exists (rnd (a - IZR (Zfloor a))).
  pose proof (Zfloor_lb a). pose proof (Zfloor_ub a).
  assert (Rabs (a - IZR (Zfloor a)) <= 1) as A by (apply Rabs_le; lra).
  split; [apply rep_sub; auto; [apply rep_int; lia|]; apply (small_bound _ 1); [exact A|lia]|].
  apply rnd_abs; [lia|exact A].
Qed.
Lemma mul_unit_pos x a B : rep x a -> 0 <= a <= 1 -> (0 <= B <= 2 ^ 53)%Z -> (0 <= f64_to_i64 (fmul x (f64_of_Z B)) <= B)%Z.
Proof.
  intros R H HB. assert (0 <= IZR B) as P by (apply IZR_le; lia).
  assert (0 <= a * IZR B <= IZR B) as A.
  { split; [apply Rmult_le_pos; lra|]. rewrite <- (Rmult_1_l (IZR B)) at 2. apply Rmult_le_compat_r; lra. }
  assert (rep (fmul x (f64_of_Z B)) (rnd (a * IZR B))) as Rm.
  { apply rep_mul; [exact R|apply rep_int; lia|]. apply (small_bound _ B); [|lia]. apply Rabs_le. lra. }
  assert (0 <= rnd (a * IZR B) <= IZR B) as [L U].
  { split; [apply (rnd_ge_int _ 0); [lia|lra]|apply rnd_le_int; [lia|lra]]. }
  unfold f64_to_i64. rewrite (rep_to_int i64_min i64_max _ _ ltac:(unfold i64_min, i64_max; lia) Rm).
  assert (Ztrunc (rnd (a * IZR B)) <= B)%Z by (rewrite <- (Ztrunc_IZR B) at 2; now apply Ztrunc_le).
  assert (0 <= Ztrunc (rnd (a * IZR B)))%Z by (rewrite <- (Ztrunc_IZR 0) at 1; now apply Ztrunc_le).
  unfold i64_min, i64_max. lia.
Qed.
