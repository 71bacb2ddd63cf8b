(** Interval texts with more than seven digits behind a decimal point: C84. *)
From Coq Require Import String.
From Verif Require Import Model.Parse Spec.Text Proofs.LongIvP.
From Coq Require Import List ZArith Bool Lia.
Import ListNotations.
Open Scope Z_scope.

(** Somewhere in [s] stand a digit, a point and at least [n] digits. *)
Definition decimals_at_least (n : nat) (s : list Z) : Prop :=
  exists a d f b, s = a ++ d :: 46 :: f ++ b /\ digit d /\ Forall digit f /\ (n <= length f)%nat.

Lemma digit_is c : digit c -> is_digit c = true.
Proof. unfold digit, is_digit. lia. Qed.

(** Such a text is not an interval, whatever stands around the number. *)
Theorem C84_refused : forall md s p st v, decimals_at_least 8 s -> interval_try_from_str md s p st <> Ok v.
Proof.
  intros md s p st v (a & d & f & b & -> & D & F & L). apply interval_long. exists a, d, f, b. split; [reflexivity|].
  split; [now apply digit_is|]. split; [|exact L]. revert F. apply Forall_impl. exact digit_is.
Qed.
Print Assumptions C84_refused.

(** Eight is the least number for which this holds: seven digits are read. *)
Theorem C84_least : decimals_at_least 7 (bs "1.1234567 seconds") /\ forall md st,
  interval_try_from_str md (bs "1.1234567 seconds") (-1) st = Ok (from_mdt 0 0 1123457).
Proof.
  split; [|intros [] []; vm_compute; reflexivity].
  exists [], 49, (bs "1234567"), (bs " seconds"). split; [reflexivity|]. split; [unfold digit; lia|]. split; [|cbn; lia].
  apply Forall_forall. intros c I. unfold digit. cbn in I. repeat (destruct I as [<-|I]; [lia|]). contradiction.
Qed.
Print Assumptions C84_least.

(** Without the digit in front the claim is false: other punctuation takes the point along, and what is left is a whole
    number, so ",.12345678 days" are not a fraction of a day but 12345678 days. *)
Theorem C84_no_digit_refuted : forall md st,
  interval_try_from_str md (bs ",.12345678 days") (-1) st = Ok (from_mdt 0 12345678 0) /\
  interval_try_from_str md (bs ".12345678 days") (-1) st = Err EOverflow /\
  interval_try_from_str md (bs ",.5 days") (-1) st = Ok (from_mdt 0 5 0).
Proof. intros [] []; vm_compute; repeat split; reflexivity. Qed.
Print Assumptions C84_no_digit_refuted.

(** The hypothesis is met by ordinary texts in all notations. *)
Example C84_ex : decimals_at_least 8 (bs "2 days 1.123456789 hours ago") /\ decimals_at_least 8 (bs "P1Y2.00000000M") /\
  decimals_at_least 8 (bs "1 day -00:00:00.123456789") /\
  forall md st, interval_try_from_str md (bs "2 days 1.123456789 hours ago") (-1) st = Err EOverflow
    /\ interval_try_from_str md (bs "P1Y2.00000000M") (-1) st = Err EOverflow.
Proof.
  assert (forall f, forallb is_digit f = true -> Forall digit f) as K.
  { intros f. rewrite forallb_forall. intros H. apply Forall_forall. intros c I. specialize (H c I). unfold is_digit in H. unfold digit. lia. }
  split; [exists (bs "2 days "), 49, (bs "123456789"), (bs " hours ago")|split; [exists (bs "P1Y"), 50, (bs "00000000"), (bs "M")|split;
    [exists (bs "1 day -00:00:0"), 48, (bs "123456789"), []|intros [] []; vm_compute; split; reflexivity]]];
    (split; [reflexivity|]; split; [unfold digit; lia|]; split; [now apply K|cbn; lia]).
Qed.
