(** Properties of serialisation: C39. *)
From Verif Require Import Model.Serde Spec.Calendar Spec.Ranges Spec.Clock Spec.Text Spec.IntervalS.
From Verif Require Import Proofs.SerdeP Props.Text Props.IntervalText.
From Coq Require Import Permutation.
Open Scope Z_scope.

(** ** C39: serde preserves values *)

(** How a format may present a serialised value to the reader: scalars as they are, a struct as the
    sequence of its values or as a map with its entries in any order. *)
Inductive presents : sval -> dval_in -> Prop :=
| P_str s : presents (SStr s) (DStr s)
| P_i32 v : presents (SI32 v) (DI32 v)
| P_i64 v : presents (SI64 v) (DI64 v)
| P_seq n fs : presents (SStruct n fs) (DSeq (List.map snd fs))
| P_map n fs gs : Permutation gs fs -> presents (SStruct n fs) (DMap gs).

(** [ser] then [de] returns [v], however the format presents it. *)
Definition preserved {A} (ser : res sval) (de : dval_in -> res A) (v : A) : Prop :=
  exists s, ser = Ok s /\ (exists i, presents s i) /\ forall i, presents s i -> de i = Ok v.

Lemma preserved_str {A} ser (de : dval_in -> res A) v txt :
  ser = Ok (SStr txt) -> de (DStr txt) = Ok v -> preserved ser de v.
Proof.
  intros E D. exists (SStr txt). split; [exact E|]. split; [eexists; constructor|]. intros i P. now inversion P.
Qed.

(** Binary formats: every value, valid or not *)
Theorem C39_date_binary : forall md d, preserved (date_ser md false d) (date_de md) d.
Proof.
  intros md d. exists (SI32 d). split; [reflexivity|]. split; [eexists; constructor|]. intros i P. now inversion P.
Qed.
Print Assumptions C39_date_binary.
Theorem C39_time_binary : forall md t, preserved (time_ser md false t) (time_de md) t.
Proof.
  intros md d. exists (SI64 d). split; [reflexivity|]. split; [eexists; constructor|]. intros i P. now inversion P.
Qed.
Print Assumptions C39_time_binary.
Theorem C39_timestamp_binary : forall md t, preserved (timestamp_ser md false t) (timestamp_de md) t.
Proof.
  intros md d. exists (SI64 d). split; [reflexivity|]. split; [eexists; constructor|]. intros i P. now inversion P.
Qed.
Print Assumptions C39_timestamp_binary.
Theorem C39_interval_binary : forall md a, fields_ok a -> preserved (interval_ser md false a) (interval_de md) a.
Proof.
  intros md [t d m] (Im & Id & It). eexists. split; [reflexivity|]. split; [eexists; apply P_seq|].
  intros i P. inversion P as [| | |n fs|n fs gs Q]; subst.
  - cbn [interval_de List.map snd visit_seq iv_time iv_day iv_month]. unfold val64, val32.
    rewrite (proj2 (in64b_iff t) It), (proj2 (in32b_iff d) Id), (proj2 (in32b_iff m) Im). reflexivity.
  - apply (visit_map_complete gs None None None (mkInterval t d m)); auto; exact I.
Qed.
Print Assumptions C39_interval_binary.

(** Human-readable formats *)
Theorem C39_date_text : forall md d, valid_date d \/ d = neg_inf_date \/ d = pos_inf_date ->
  preserved (date_ser md true d) (date_de md) d.
Proof.
  intros md d V. destruct (C32_roundtrip md d SISO YMD YMD (or_introl eq_refl) V) as (txt & F & R).
  apply (preserved_str _ _ _ txt); [|exact R]. unfold date_ser. now rewrite F.
Qed.
Print Assumptions C39_date_text.
Theorem C39_time_text : forall md t, 0 <= t <= usecs_day -> preserved (time_ser md true t) (time_de md) t.
Proof.
  intros md t V. destruct (C34_roundtrip md t YMD V) as (txt & F & R).
  apply (preserved_str _ _ _ txt); [|exact R]. unfold time_ser. now rewrite F.
Qed.
Print Assumptions C39_time_text.
Theorem C39_timestamp_text : forall md t, valid_ts t \/ t = neg_inf_ts \/ t = pos_inf_ts ->
  preserved (timestamp_ser md true t) (timestamp_de md) t.
Proof.
  intros md t V. destruct (C35_iso md t SISO YMD YMD (or_introl eq_refl) V) as (txt & F & R).
  apply (preserved_str _ _ _ txt); [|exact R]. unfold timestamp_ser. now rewrite F.
Qed.
Print Assumptions C39_timestamp_text.
Theorem C39_interval_text : forall md a, readable_iv a -> preserved (interval_ser md true a) (interval_de md) a.
Proof.
  intros md a V. destruct (C36_roundtrip md a V) as (txt & F & R).
  apply (preserved_str _ _ _ txt); [|exact R]. unfold interval_ser. now rewrite F.
Qed.
Print Assumptions C39_interval_text.
(** In readable formats that is the limit: an interval that can be written is preserved exactly if its
    whole minutes fit 32 bits, and one with too many hours is not even serialised. *)
Theorem C39_interval_text_exact : forall md a, writable_iv a ->
  (preserved (interval_ser md true a) (interval_de md) a <-> minutes_fit a).
Proof.
  intros md a V. split.
  - intros (s & E & _ & D). destruct (C36_limit md a V) as (txt & F & _). unfold interval_ser in E. rewrite F in E.
    cbn [bind] in E. injection E as <-. apply (C36_exact md a txt V F). exact (D (DStr txt) (P_str txt)).
  - intros M. apply C39_interval_text. destruct V as (F & _ & D). split; auto.
Qed.
Print Assumptions C39_interval_text_exact.
Theorem C39_interval_too_long : forall md a, fields_ok a -> ~ in_i32 (Z.quot (iv_time a) 3600000000) ->
  interval_ser md true a = Err EOverflow.
Proof. intros md a F H. unfold interval_ser. now rewrite C36_too_long. Qed.
Print Assumptions C39_interval_too_long.
Example C39_interval_limit_case : let b := mkInterval (2147483648 * 60000000) 0 0 in writable_iv b /\ ~ minutes_fit b
  /\ interval_ser Debug true b = Ok (SStr (bs "35791394:08:00")) /\ interval_de Debug (DStr (bs "35791394:08:00")) = Fault FArith.
Proof. vm_compute. intuition congruence. Qed.

(** A map is accepted exactly if it consists of the three fields, once each and in any order, with
    numbers of the right width. So a duplicate, missing or unknown field is an error. *)
Theorem C39_map_exact : forall md fs a, interval_de md (DMap fs) = Ok a <->
  fields_ok a /\ Permutation fs [(bs "time", iv_time a); (bs "day", iv_day a); (bs "month", iv_month a)].
Proof.
  intros md fs a. cbn [interval_de]. split.
  - intros E. apply visit_map_sound in E as (P & _ & _ & _ & It & Id & Im). split; [|exact P]. split; auto.
  - intros [(Im & Id & It) P]. now apply (visit_map_complete fs None None None a).
Qed.
Print Assumptions C39_map_exact.
(** Otherwise the answer is an error, never a panic. *)
Theorem C39_map_total : forall md fs, (exists a, interval_de md (DMap fs) = Ok a) \/ interval_de md (DMap fs) = Err EInvalid.
Proof.
  intros md fs. cbn [interval_de].
  enough (forall t d m, (exists a, visit_map fs t d m = Ok a) \/ visit_map fs t d m = Err EInvalid) by auto.
  induction fs as [|[k v] fs IH]; intros t d m; cbn [visit_map].
  - destruct t, d, m; eauto.
  - unfold val64, val32.
    destruct (beq k _); [destruct t; [auto|destruct (in64b v); cbn [bind]; auto]|].
    destruct (beq k _); [destruct d; [auto|destruct (in32b v); cbn [bind]; auto]|].
    destruct (beq k _); [destruct m; [auto|destruct (in32b v); cbn [bind]; auto]|auto].
Qed.
Print Assumptions C39_map_total.
Theorem C39_duplicate : forall md fs, ~ NoDup (List.map fst fs) -> interval_de md (DMap fs) = Err EInvalid.
Proof.
  intros md fs C. destruct (C39_map_total md fs) as [[a E]|E]; [|exact E]. exfalso. apply C.
  apply C39_map_exact in E as [_ P]. apply (Permutation_map fst) in P. cbn [List.map fst] in P.
  eapply Permutation_NoDup; [apply Permutation_sym; exact P|].
  repeat constructor; cbn; intuition discriminate.
Qed.
Print Assumptions C39_duplicate.
Theorem C39_unknown_or_missing : forall md fs,
  (exists k, In k (List.map fst fs) /\ ~ In k [bs "time"; bs "day"; bs "month"])
  \/ (exists k, In k [bs "time"; bs "day"; bs "month"] /\ ~ In k (List.map fst fs)) ->
  interval_de md (DMap fs) = Err EInvalid.
Proof.
  intros md fs C. destruct (C39_map_total md fs) as [[a E]|E]; [|exact E]. exfalso.
  apply C39_map_exact in E as [_ P]. apply (Permutation_map fst) in P. cbn [List.map fst] in P.
  destruct C as [(k & I & N)|(k & I & N)]; apply N.
  - eapply Permutation_in; eauto.
  - eapply Permutation_in; [apply Permutation_sym; eauto|eauto].
Qed.
Print Assumptions C39_unknown_or_missing.

Example C39_case :
  interval_ser Debug true (mkInterval (-4000000000000) (-3) 14) = Ok (SStr (bs "+1-2 -3 -1111:06:40"))
  /\ interval_de Debug (DMap [(bs "day", 2); (bs "month", 3); (bs "time", 1)]) = Ok (mkInterval 1 2 3)
  /\ interval_de Debug (DMap [(bs "day", 2); (bs "month", 3)]) = Err EInvalid
  /\ interval_de Debug (DMap [(bs "day", 2); (bs "month", 3); (bs "time", 1); (bs "day", 2)]) = Err EInvalid
  /\ date_ser Debug true 7426 = Ok (SStr (bs "2020-05-01"))
  /\ timestamp_de Debug (DStr (bs "2020-05-01 12:00:00")) = Ok 641649600000000.
Proof. vm_compute. auto 6. Qed.
