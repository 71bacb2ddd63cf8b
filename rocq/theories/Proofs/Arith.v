(** Basic lemmas about machine arithmetic and the outcome monad. *)
From Coq Require Export Lia ZifyBool ZifyNat.
From Verif Require Export Model.Base.

Ltac Zify.zify_post_hook ::= Z.to_euclidean_division_equations.

Arguments Z.quot : simpl never.
Arguments Z.rem : simpl never.
Arguments Z.div : simpl never.
Arguments Z.modulo : simpl never.
Arguments Z.mul : simpl never.
Arguments Z.add : simpl never.
Arguments Z.sub : simpl never.

Lemma in32b_true z : in_i32 z -> in32b z = true.
Proof. unfold in_i32, in32b. lia. Qed.
Lemma in64b_true z : in_i64 z -> in64b z = true.
Proof. unfold in_i64, in64b. lia. Qed.
Lemma in32b_spec z : in32b z = true <-> in_i32 z.
Proof. unfold in_i32, in32b. lia. Qed.
Lemma in64b_spec z : in64b z = true <-> in_i64 z.
Proof. unfold in_i64, in64b. lia. Qed.

Lemma ar32_ok md z : in_i32 z -> ar32 md z = Ok z.
Proof. intros H. unfold ar32. now rewrite in32b_true. Qed.
Lemma ar64_ok md z : in_i64 z -> ar64 md z = Ok z.
Proof. intros H. unfold ar64. now rewrite in64b_true. Qed.
Lemma aru32_ok md z : in_u32 z -> aru32 md z = Ok z.
Proof. intros H. unfold aru32. replace (inu32b z) with true; [easy|]. unfold in_u32, inu32b in *. lia. Qed.

Lemma wrap32_id z : in_i32 z -> wrap32 z = z.
Proof. unfold in_i32, wrap32, i32_min, i32_max. intros. rewrite Z.mod_small; lia. Qed.
Lemma wrap64_id z : in_i64 z -> wrap64 z = z.
Proof. unfold in_i64, wrap64, i64_min, i64_max. intros. rewrite Z.mod_small; lia. Qed.
Lemma wrapu32_id z : in_u32 z -> wrapu32 z = z.
Proof. unfold in_u32, wrapu32, u32_max. intros. rewrite Z.mod_small; lia. Qed.
Lemma wrap32_range z : in_i32 (wrap32 z).
Proof. unfold in_i32, wrap32, i32_min, i32_max.
  pose proof (Z.mod_pos_bound (z + 2147483648) 4294967296). lia. Qed.
Lemma wrap64_range z : in_i64 (wrap64 z).
Proof. unfold in_i64, wrap64, i64_min, i64_max.
  pose proof (Z.mod_pos_bound (z + 9223372036854775808) 18446744073709551616). lia. Qed.

Lemma bind_ok {A B} (a : A) (f : A -> res B) : bind (Ok a) f = f a.
Proof. reflexivity. Qed.

(** Step through checked arithmetic: each operator's exact result is in range. *)
Ltac rng := unfold in_i32, in_i64, in_u32, i32_min, i32_max, i64_min, i64_max, u32_max in *.
Ltac ar_side := rng; first [lia | nia].
Ltac ar_unfold :=
  unfold add32, sub32, mul32, neg32, abs32, add64, sub64, mul64, neg64, abs64,
         addu32, subu32, mulu32.
Ltac ar1 :=
  first [ rewrite ar32_ok by ar_side | rewrite ar64_ok by ar_side | rewrite aru32_ok by ar_side ];
  cbn [bind].
Ltac ar := ar_unfold; cbn [bind]; repeat ar1.

(** Inversion of binds in hypotheses. *)
Lemma bind_inv {A B} (r : res A) (f : A -> res B) b :
  bind r f = Ok b -> exists a, r = Ok a /\ f a = Ok b.
Proof. destruct r; cbn; try discriminate. eauto. Qed.

Lemma ok_or_chk32 z e r : ok_or (chk32 z) e = Ok r <-> in_i32 z /\ r = z.
Proof.
  unfold chk32. rewrite <- in32b_spec. destruct (in32b z); cbn; split; intuition congruence.
Qed.
Lemma ok_or_chk64 z e r : ok_or (chk64 z) e = Ok r <-> in_i64 z /\ r = z.
Proof.
  unfold chk64. rewrite <- in64b_spec. destruct (in64b z); cbn; split; intuition congruence.
Qed.

(** Compute sums and products of literals. *)
Ltac zcomp :=
  repeat match goal with
  | |- context [Z.add (Zpos ?a) (Zpos ?b)] =>
      let r := eval compute in (Z.add (Zpos a) (Zpos b)) in change (Z.add (Zpos a) (Zpos b)) with r
  | |- context [Z.mul (Zpos ?a) (Zpos ?b)] =>
      let r := eval compute in (Z.mul (Zpos a) (Zpos b)) in change (Z.mul (Zpos a) (Zpos b)) with r
  | |- context [Z.div (Zpos ?a) (Zpos ?b)] =>
      let r := eval compute in (Z.div (Zpos a) (Zpos b)) in change (Z.div (Zpos a) (Zpos b)) with r
  end.
