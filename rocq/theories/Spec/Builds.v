(** What a user expects of the two kinds of build: checks may only add panics. Used by C66 and C67. *)
From Verif Require Import Model.Base.

(** [checked]: the result in a debug build; [plain]: in a release build. *)
Definition agree {A} (checked plain : res A) : Prop := (exists f, checked = Fault f) \/ checked = plain.

(** No panic in a release build; in a debug build none but for arithmetic overflow. *)
Definition only_overflow {A} (md : mode) (r : res A) : Prop :=
  match r with Fault f => md = Debug /\ f = FArith | _ => True end.
(** Whatever the three fields hold. *)
Definition machine_interval (a : interval) : Prop := in_i32 (iv_month a) /\ in_i32 (iv_day a) /\ in_i64 (iv_time a).
