(** Deserialising the struct form of an interval. *)
From Verif Require Import Model.Serde Proofs.Arith Proofs.TokenP.
From Coq Require Import Lia Permutation.
Open Scope Z_scope.

Definition n_time : bytes := bs "time".
Definition n_day : bytes := bs "day".
Definition n_month : bytes := bs "month".

(** The entries still expected when the fields in [t], [d], [m] are already known *)
Definition need (n : bytes) (o : option Z) (v : Z) : list (bytes * Z) :=
  match o with None => [(n, v)] | Some _ => [] end.
Definition agrees (o : option Z) (v : Z) : Prop := match o with None => True | Some w => w = v end.

Lemma in32b_iff z : in32b z = true <-> in_i32 z.
Proof.
  split; [|apply in32b_true]. unfold in32b, in_i32. rewrite andb_true_iff, !Z.leb_le. auto.
Qed.
Lemma in64b_iff z : in64b z = true <-> in_i64 z.
Proof.
  unfold in64b, in_i64. rewrite andb_true_iff, !Z.leb_le. easy.
Qed.

Lemma visit_map_sound fs : forall t d m a, visit_map fs t d m = Ok a ->
  Permutation fs (need n_time t (iv_time a) ++ need n_day d (iv_day a) ++ need n_month m (iv_month a))
  /\ agrees t (iv_time a) /\ agrees d (iv_day a) /\ agrees m (iv_month a)
  /\ (t = None -> in_i64 (iv_time a)) /\ (d = None -> in_i32 (iv_day a)) /\ (m = None -> in_i32 (iv_month a)).
Proof.
  induction fs as [|[key v] rest IH]; intros t d m a; cbn [visit_map].
  - destruct t as [t|], d as [d|], m as [m|]; try discriminate. intros E. injection E as <-.
    cbn. repeat split; auto; discriminate.
  - destruct (beq key (bs "time")) eqn:B; [|destruct (beq key (bs "day")) eqn:B1; [|destruct (beq key (bs "month")) eqn:B2; [|discriminate]]].
    + apply beq_eq in B. subst key. destruct t; [discriminate|]. unfold val64.
      destruct (in64b v) eqn:I; cbn [bind]; [|discriminate]. apply in64b_iff in I.
      intros E. apply IH in E as (P & A & Q). cbn in A. subst v. cbn [need app] in P.
      split; [apply perm_skip; exact P|]. split; [exact Logic.I|]. intuition.
    + apply beq_eq in B1. subst key. destruct d; [discriminate|]. unfold val32.
      destruct (in32b v) eqn:I; cbn [bind]; [|discriminate]. apply in32b_iff in I.
      intros E. apply IH in E as (P & A & A1 & Q). cbn in A1. subst v. cbn [need app] in P.
      split; [cbn [need]; apply Permutation_cons_app; exact P|]. cbn [agrees]. intuition.
    + apply beq_eq in B2. subst key. destruct m; [discriminate|]. unfold val32.
      destruct (in32b v) eqn:I; cbn [bind]; [|discriminate]. apply in32b_iff in I.
      intros E. apply IH in E as (P & A & A1 & A2 & Q). cbn in A2. subst v. cbn [need] in P.
      rewrite app_nil_r in P.
      split; [cbn [need]; rewrite app_assoc; apply Permutation_cons_app; rewrite app_nil_r; exact P|].
      cbn [agrees]. intuition.
Qed.

Lemma visit_map_complete fs : forall t d m a,
  Permutation fs (need n_time t (iv_time a) ++ need n_day d (iv_day a) ++ need n_month m (iv_month a)) ->
  agrees t (iv_time a) -> agrees d (iv_day a) -> agrees m (iv_month a) ->
  in_i64 (iv_time a) -> in_i32 (iv_day a) -> in_i32 (iv_month a) ->
  visit_map fs t d m = Ok a.
Proof.
  induction fs as [|[key v] rest IH]; intros t d m a P At Ad Am It Id Im; cbn [visit_map].
  - apply Permutation_nil in P. destruct t, d, m; try discriminate. cbn in *. subst. now destruct a.
  - assert (In (key, v) (need n_time t (iv_time a) ++ need n_day d (iv_day a) ++ need n_month m (iv_month a))) as I
      by (eapply Permutation_in; [exact P|now left]).
    apply in_app_or in I as [I|I]; [|apply in_app_or in I as [I|I]].
    + destruct t; [destruct I|]. destruct I as [E|[]]. injection E as <- <-.
      change (beq n_time (bs "time")) with true. cbn iota. unfold val64.
      rewrite (proj2 (in64b_iff _) It). cbn [bind]. apply IH; auto; [|reflexivity].
      cbn [need app] in P |- *. now apply Permutation_cons_inv in P.
    + destruct d; [destruct I|]. destruct I as [E|[]]. injection E as <- <-.
      change (beq n_day (bs "time")) with false. change (beq n_day (bs "day")) with true. cbn iota. unfold val32.
      rewrite (proj2 (in32b_iff _) Id). cbn [bind]. apply IH; auto; [|reflexivity].
      cbn [need app] in P |- *. now apply Permutation_cons_app_inv in P.
    + destruct m; [destruct I|]. destruct I as [E|[]]. injection E as <- <-.
      change (beq n_month (bs "time")) with false. change (beq n_month (bs "day")) with false.
      change (beq n_month (bs "month")) with true. cbn iota. unfold val32.
      rewrite (proj2 (in32b_iff _) Im). cbn [bind]. apply IH; auto; [|reflexivity].
      cbn [need] in P |- *. rewrite app_assoc in P. apply Permutation_cons_app_inv in P.
      now rewrite app_nil_r in *.
Qed.
