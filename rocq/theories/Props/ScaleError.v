(** Scaling an interval by any factor: the result is accurate. *)
From Coq Require Import ZArith Reals Lia Lra Floats.SpecFloat.
From Flocq Require Import Core.Core.
From Verif Require Import Model.DateTime Spec.ScaleError Proofs.Arith Proofs.FloatP Proofs.PartsP Proofs.ScaleErrP.
Open Scope R_scope.

(** ** C71: multiplying or dividing an interval by any double gives an interval of the right length *)
Theorem C71_mul : forall md a f x, rep f x ->
  in_i32 (iv_month a) -> in_i32 (iv_day a) -> in_i64 (iv_time a) -> scales_within a x ->
  exists b, interval_mul_f64 md a f = Ok b /\ scaled_by x a b.
Proof. intros md a f x R A B C (X & Y & Z). exact (mul_error md a f x R A B C X Y Z). Qed.
Print Assumptions C71_mul.

Theorem C71_div : forall md a f x, rep f x -> x <> 0 ->
  in_i32 (iv_month a) -> in_i32 (iv_day a) -> in_i64 (iv_time a) -> scales_within a (/ x) ->
  exists b, interval_div_f64 md a f = Ok b /\ scaled_by (/ x) a b.
Proof.
  intros md a f x R N A B C (X & Y & Z). destruct (div_error md a f x R N A B C X Y Z) as (b & E & P & Q).
  exists b. split; [exact E|]. split; [|exact Q]. rewrite Rabs_inv, (Rmult_comm (/ x)). exact P.
Qed.
Print Assumptions C71_div.

(** Dividing by a number and multiplying by the inverse agree within the same error. *)
Theorem C71_mul_div : forall md a f g x, rep f x -> rep g (/ x) -> x <> 0 ->
  in_i32 (iv_month a) -> in_i32 (iv_day a) -> in_i64 (iv_time a) -> scales_within a (/ x) ->
  exists b c, interval_mul_f64 md a g = Ok b /\ interval_div_f64 md a f = Ok c
    /\ Rabs (micros b - micros c) <= 86440 + size a / Rabs x / 1000000000000000.
Proof.
  intros md a f g x F G N A B C S.
  destruct (C71_mul md a g _ G A B C S) as (b & E & P & _). destruct (C71_div md a f x F N A B C S) as (c & E' & P' & _).
  exists b, c. split; [exact E|]. split; [exact E'|]. rewrite Rabs_inv in P, P'. unfold Rdiv in *.
  apply Rabs_le_inv in P. apply Rabs_le_inv in P'. apply Rabs_le. lra.
Qed.
Print Assumptions C71_mul_div.

(** The 43 milliseconds cannot be improved by much: a month divided by 60240964 is no time at
    all, although a month shared by that many is 43 milliseconds each. *)
Theorem C71_exact_refuted : ~ (forall md a f x b, rep f x -> x <> 0 ->
  in_i32 (iv_month a) -> in_i32 (iv_day a) -> in_i64 (iv_time a) -> interval_div_f64 md a f = Ok b ->
  Rabs (micros b - micros a / x) <= 43000).
Proof.
  intros H. assert (rep (f64_of_Z 60240964) 60240964) as R by (apply (rep_int 60240964); lia).
  specialize (H Debug (from_mdt 1 0 0) _ _ (from_mdt 0 0 0) R ltac:(lra)).
  cbn [from_mdt iv_month iv_day iv_time] in H. unfold in_i32, in_i64 in H.
  specialize (H ltac:(vm_compute; intuition discriminate) ltac:(vm_compute; intuition discriminate)
    ltac:(vm_compute; intuition discriminate) ltac:(vm_compute; reflexivity)).
  unfold micros in H. cbn [from_mdt iv_month iv_day iv_time] in H. apply Rabs_le_inv in H. lra.
Qed.
Print Assumptions C71_exact_refuted.

(** Seven tenths of a year, a day and an hour are 8 months, 12 days, 17 hours and 30 minutes. *)
Example C71_case : interval_mul_f64 Debug (from_mdt 12 1 3600000000) (fdiv (f64_of_Z 7) (f64_of_Z 10))
    = Ok (from_mdt 8 12 63000000000)
  /\ exists x, rep (fdiv (f64_of_Z 7) (f64_of_Z 10)) x /\ scales_within (from_mdt 12 1 3600000000) x.
Proof.
  split; [vm_compute; reflexivity|]. exists (rnd (7 / 10)). assert (Rabs (7 / 10) <= 1) as B by (apply Rabs_le; lra).
  split.
  - apply rep_div; [apply (rep_int 7); lia|apply (rep_int 10); lia|lra|apply big_bound; lra].
  - pose proof (rnd_close _ _ B) as Q. unfold eps in Q. apply Rabs_le_inv in Q. unfold scales_within.
    cbn [from_mdt iv_month iv_day iv_time]. repeat split; apply Rabs_le; lra.
Qed.
