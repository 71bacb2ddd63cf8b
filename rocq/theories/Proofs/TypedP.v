(** The fields of a parsed interval fit their types. *)
From Verif Require Import Model.F64 Model.Parse Model.DateTime Spec.IntervalS Proofs.Arith.
From Coq Require Import List ZArith Bool Lia.
Import ListNotations.
Open Scope Z_scope.

Lemma ar32_range md z v : ar32 md z = Ok v -> in_i32 v.
Proof.
  unfold ar32. destruct (in32b z) eqn:E; [intros [= <-]; now apply in32b_spec|].
  destruct md; [discriminate|]. intros [= <-]. apply wrap32_range.
Qed.
Lemma ar64_range md z v : ar64 md z = Ok v -> in_i64 v.
Proof.
  unfold ar64. destruct (in64b z) eqn:E; [intros [= <-]; unfold in64b in E; rng; lia|].
  destruct md; [discriminate|]. intros [= <-]. apply wrap64_range.
Qed.
Lemma to_i32_range x : in_i32 (f64_to_i32 x).
Proof. unfold f64_to_i32, f64_to_int. destruct x as [s|s| |s m e]; try destruct s; rng; lia. Qed.

(** ** The day field during decoding *)
Definition D (x : tmf) : Prop := in_i32 (tm_mday (fst x)).
Lemma bind_D {A B} (m : tm_step A) (f : tmf -> A -> tm_step B) : D (fst m) -> (forall x a, D x -> D (fst (f x a))) -> D (fst (step_bind m f)).
Proof. destruct m as [x [a|e|e]]; cbn; auto. Qed.
Definition keeps (set : Z -> tmf -> tmf) : Prop := forall v x, tm_mday (fst (set v x)) = tm_mday (fst x).
Lemma set_D x r set : keeps set -> D x -> D (fst (step_set x r set)).
Proof. unfold D. intros K H. destruct r; cbn; try exact H. now rewrite K. Qed.
Lemma mday_D x r : (forall v, r = Ok v -> in_i32 v) -> D x -> D (fst (step_set x r s_mday)).
Proof. intros K H. destruct r; cbn; auto. apply K. reflexivity. Qed.
Lemma k_sec : keeps s_sec. Proof. easy. Qed. Lemma k_min : keeps s_min. Proof. easy. Qed. Lemma k_hour : keeps s_hour. Proof. easy. Qed.
Lemma k_mon : keeps s_mon. Proof. easy. Qed. Lemma k_year : keeps s_year. Proof. easy. Qed. Lemma k_fsec : keeps s_fsec. Proof. easy. Qed.
#[local] Hint Resolve k_sec k_min k_hour k_mon k_year k_fsec : kp.
Ltac dd := repeat first [assumption | apply bind_D; [|intros ? ? ?] | apply set_D; [now auto with kp|] | apply mday_D; [solve [eauto using ar32_range]|]].

Lemma secs_D md f sc x : D x -> D (fst (adjust_fract_seconds md f sc x)).
Proof. intros H. unfold adjust_fract_seconds. destruct (negb (fnz f)); [exact H|]. dd. Qed.
Lemma days_D md f sc x : D x -> D (fst (adjust_fract_days md f sc x)).
Proof.
  intros H. unfold adjust_fract_days. destruct (negb (fnz f)); [exact H|]. apply bind_D; [|intros; now apply secs_D].
  apply mday_D; [|exact H]. intros v E. apply ok_or_chk32 in E as [E ->]. exact E.
Qed.
Lemma years_D md v k f m x : D x -> D (fst (add_years md v k f m x)).
Proof. intros H. unfold add_years. apply bind_D; [dd|]. intros x' _ H'. destruct (fnz f); [dd|exact H']. Qed.
Lemma time_D md f r x : D x -> D (fst (decode_time md f r x)).
Proof.
  unfold D, decode_time. intros H.
  repeat match goal with |- context [match ?e with _ => _ end] => destruct e; cbn [fst snd]; try exact H end.
Qed.
Lemma number_D md f ty r x : D x -> D (fst (interval_number_field md f ty r x)).
Proof.
  intros H. unfold interval_number_field. destruct (interval_number md f _) as [[[t v] fv]| |]; try exact H.
  destruct (tfield_of t) as [k| |]; try exact H.
  destruct k; try exact H;
    (apply bind_D; [|intros ? ? K; exact K]); first [now apply years_D|dd]; auto using secs_D, days_D, years_D.
  apply mday_D; [|exact H]. intros u E. apply bind_inv in E as (w & _ & E). exact (ar32_range _ _ _ E).
Qed.
Lemma merge_D t i x : D x -> D (fst (merge_i t i x)).
Proof. intros H. unfold merge_i. destruct (has _ _); exact H. Qed.
Lemma clock_D md x : D x -> D (fst (negate_clock md x)).
Proof. intros H. unfold negate_clock. dd. Qed.
Lemma all_D md x : D x -> D (fst (negate_all md x)).
Proof. intros H. unfold negate_all. dd. Qed.
Lemma field_D md r t i x : D x -> D (fst (interval_field md r t i x)).
Proof.
  intros H. unfold interval_field.
  assert (D (fst (step_bind (interval_number_field md (snd t) (i_ty i) r x) (fun x0 r0 => merge_i (snd r0) (i_set_ty (fst r0) i) x0)))) as N
    by (apply bind_D; [now apply number_D|intros; now apply merge_D]).
  destruct (fst t) as [k|]; [|exact H]. destruct k; try exact H; try exact N.
  - (* units *) destruct (decode_units (snd t)) as [[ty v]| |]; try exact H. destruct ty; try exact H; try now apply merge_D.
    destruct (tfield_of v); try exact H. now apply merge_D.
  - apply bind_D; [now apply time_D|intros; now apply merge_D].
  - destruct (snd t) as [|c rest]; [exact H|]. destruct (debug_assert _ _); try exact H. destruct (existsb _ _); [|exact N].
    apply bind_D; [now apply time_D|]. intros x1 _ H1. apply bind_D; [destruct (c =? 45); [now apply clock_D|exact H1]|]. intros; now apply merge_D.
  - (* units *) destruct (decode_units (snd t)) as [[ty v]| |]; try exact H. destruct ty; try exact H; try now apply merge_D.
    destruct (tfield_of v); try exact H. now apply merge_D.
Qed.
Lemma fields_D md r ts : forall i x, D x -> D (fst (interval_fields md r ts i x)).
Proof.
  induction ts as [|t ts IH]; intros i x H; [exact H|]. cbn [interval_fields]. apply bind_D; [now apply field_D|]. intros; now apply IH.
Qed.
Lemma carry_D md x : D x -> D (fst (carry_fsec md x)).
Proof. intros H. unfold carry_fsec. destruct (nz (snd x)); [|exact H]. apply set_D; [auto with kp|exact H]. Qed.
Lemma force_D x : D x -> D (force_negative x).
Proof. unfold D, force_negative. cbn. unfold neg_pos. destruct (Z.ltb_spec 0 (tm_mday (fst x))); rng; lia. Qed.
Lemma decode_D md ts r st x : D x -> D (fst (decode_interval md ts r st x)).
Proof.
  intros H. unfold decode_interval. apply bind_D; [now apply fields_D|]. intros x1 i H1. destruct (i_fmask i =? 0); [exact H1|].
  apply bind_D; [now apply carry_D|]. intros x2 _ H2. destruct ts as [|t rest]; [exact H2|].
  assert (forall b : bool, D (if b then force_negative x2 else x2)) as B by (intros []; [now apply force_D|exact H2]).
  destruct (starts_minus (snd t)) as [m|e|f], st; try exact H2;
    (apply bind_D; [|intros ? ? K; exact K]; destruct (i_before i); [apply all_D|]; apply B).
Qed.
Lemma upd_D x r set y : keeps set -> D x -> upd x r set = Ok y -> D y.
Proof. unfold upd, D. intros K H E. apply bind_inv in E as (v & _ & E). injection E as <-. now rewrite K. Qed.
Lemma mday_upd md x v y : add_mday md v x = Ok y -> D y.
Proof. unfold add_mday, upd. intros E. apply bind_inv in E as (w & A & E). injection E as <-. exact (ar32_range _ _ _ A). Qed.
Lemma fsecs_D md f sc x y : D x -> fract_secs md f sc x = Ok y -> D y.
Proof.
  unfold fract_secs, done. intros H E. pose proof (secs_D md f sc x H) as K. destruct (adjust_fract_seconds md f sc x) as [z [a| |]]; try discriminate.
  cbn in E. injection E as <-. exact K.
Qed.
Lemma fdays_D md f sc x y : D x -> fract_days md f sc x = Ok y -> D y.
Proof.
  unfold fract_days, done. intros H E. pose proof (days_D md f sc x H) as K. destruct (adjust_fract_days md f sc x) as [z [a| |]]; try discriminate.
  cbn in E. injection E as <-. exact K.
Qed.
Ltac inv1 := match goal with
  | E : bind _ _ = Ok _ |- _ => let A := fresh "A" in let v := fresh "v" in apply bind_inv in E as (v & A & E)
  | A : add_mday _ _ _ = Ok _ |- _ => apply mday_upd in A
  | H : D ?x, A : fract_secs _ _ _ ?x = Ok _ |- _ => apply (fsecs_D _ _ _ _ _ H) in A
  | H : D ?x, A : fract_days _ _ _ ?x = Ok _ |- _ => apply (fdays_D _ _ _ _ _ H) in A
  | H : D ?x, A : add_year _ _ ?x = Ok _ |- _ => apply (upd_D _ _ _ _ k_year H) in A
  | H : D ?x, A : add_mon _ _ ?x = Ok _ |- _ => apply (upd_D _ _ _ _ k_mon H) in A
  | H : D ?x, A : add_hour _ _ ?x = Ok _ |- _ => apply (upd_D _ _ _ _ k_hour H) in A
  | H : D ?x, A : add_min _ _ ?x = Ok _ |- _ => apply (upd_D _ _ _ _ k_min H) in A
  | H : D ?x, A : add_sec _ _ ?x = Ok _ |- _ => apply (upd_D _ _ _ _ k_sec H) in A
  | E : Ok _ = Ok _ |- _ => injection E as E
  | E : Err _ = Ok _ |- _ => discriminate E
  | E : (let '(_, _) := ?p in _) = Ok _ |- _ => destruct p
  | E : (if ?b then _ else _) = Ok _ |- _ => destruct b
  | E : match ?s with [] => _ | _ => _ end = Ok _ |- _ => destruct s
  end.
Lemma date_left_D md s u h v f x y o : D x -> decode_date_part_left md s u h v f x = Ok (y, o) -> D y.
Proof. intros H E. unfold decode_date_part_left in E. repeat inv1; subst; assumption. Qed.
Lemma time_left_D md s u h v f x y : D x -> decode_time_part_left md s u h v f x = Ok y -> D y.
Proof. intros H E. unfold decode_time_part_left in E. repeat inv1; subst; assumption. Qed.
Lemma loop_D md n : forall s d h x y, D x -> iso_loop md n s d h x = Ok y -> D y.
Proof.
  induction n as [|n IH]; intros s d h x y H E; [discriminate|]. cbn [iso_loop] in E.
  destruct s as [|c s]; [now injection E as <-|]. destruct (c =? 84); [eauto|].
  apply bind_inv in E as ([[val fval] s1] & _ & E). destruct (match s1 with [] => _ | _ => _ end) as [u s2].
  assert (forall z, (let* q := decode_date_part_left md s2 u h val fval x in
            match q with (x, None) => Ok x | (x, Some s) => iso_loop md n s false false x end) = Ok z -> D z) as L.
  { intros z Q. apply bind_inv in Q as ([x1 [s3|]] & A & Q); apply (date_left_D _ _ _ _ _ _ _ _ _ H) in A; [eauto|]. now injection Q as <-. }
  repeat first [match goal with E : iso_loop _ _ _ _ _ ?z = Ok _ |- _ => solve [apply IH in E; auto]
      | E : decode_time_part_left _ _ _ _ _ _ _ = Ok _ |- _ => solve [apply time_left_D in E; auto] end
    | solve [apply L in E; auto] | inv1; [..] | solve [subst; auto]].
  all: try (subst; assumption).
Qed.
Lemma iso_D md s x y : D x -> decode_iso8601_interval md s x = Ok y -> D y.
Proof.
  intros H E. unfold decode_iso8601_interval in E. destruct s as [|c [|c' r]]; try discriminate. destruct (c =? 80); [|discriminate].
  apply loop_D in E; auto.
Qed.

Lemma trunc_range v u : 0 < u -> in_i64 v -> in_i64 (trunc_to v u).
Proof.
  intros U H. unfold trunc_to. pose proof (Z.quot_rem' v u) as Q. pose proof (Z.rem_bound_abs v u ltac:(lia)) as B.
  destruct (Z.le_gt_cases 0 v) as [V|V].
  - pose proof (Z.rem_nonneg v u ltac:(lia) V). pose proof (Z.quot_pos v u V U). rng. nia.
  - pose proof (Z.rem_nonpos v u ltac:(lia) ltac:(lia)).
    assert (Z.quot v u <= 0) by (replace v with (- (- v)) by lia; rewrite Z.quot_opp_l by lia; pose proof (Z.quot_pos (- v) u ltac:(lia) U); lia).
    rng. nia.
Qed.
Lemma in32_0 : in_i32 0. Proof. rng. lia. Qed.
Lemma in64_0 : in_i64 0. Proof. rng. lia. Qed.
Lemma trunc32_range v u : 0 < u -> in_i32 v -> in_i32 (trunc_to v u).
Proof.
  intros U H. unfold trunc_to. pose proof (Z.quot_rem' v u) as Q. pose proof (Z.rem_bound_abs v u ltac:(lia)) as B.
  destruct (Z.le_gt_cases 0 v) as [V|V].
  - pose proof (Z.rem_nonneg v u ltac:(lia) V). pose proof (Z.quot_pos v u V U). rng. nia.
  - pose proof (Z.rem_nonpos v u ltac:(lia) ltac:(lia)).
    assert (Z.quot v u <= 0) by (replace v with (- (- v)) by lia; rewrite Z.quot_opp_l by lia; pose proof (Z.quot_pos (- v) u ltac:(lia) U); lia).
    rng. nia.
Qed.
Lemma round_range md v p r : round_scale md v p = Ok r -> in_i64 r.
Proof.
  unfold round_scale. intros E. do 2 apply bind_inv in E as (? & _ & E). destruct (0 <=? v).
  - apply bind_inv in E as (? & _ & E). exact (ar64_range _ _ _ E).
  - do 3 apply bind_inv in E as (? & _ & E). exact (ar64_range _ _ _ E).
Qed.
Lemma adjust_fields md a p r : fields_ok a -> interval_adjust_by_typmod md a p = Ok r -> fields_ok r.
Proof.
  intros (M & Dy & T) E. unfold interval_adjust_by_typmod in E. destruct (0 <=? p); [|injection E as <-; now split].
  apply bind_inv in E as (b & A & E).
  assert (fields_ok b) as (M' & D' & T').
  { repeat match type of A with (if ?c then _ else _) = _ => destruct c end; try discriminate; injection A as <-;
      (split; [|split]); cbn [from_mdt iv_month iv_day iv_time]; try assumption; try exact in32_0; try exact in64_0; try (apply trunc_range; [reflexivity|assumption]); apply trunc32_range; [reflexivity|assumption]. }
  match type of E with (if ?c then _ else _) = _ => destruct c end; [|injection E as <-; now split].
  match type of E with (if ?c then _ else _) = _ => destruct c end; [discriminate|].
  apply bind_inv in E as (t & R & E). injection E as <-. split; [exact M'|]. split; [exact D'|]. exact (round_range _ _ _ _ R).
Qed.
Lemma parsed_fields md s p st a : interval_try_from_str md s p st = Ok a -> fields_ok a.
Proof.
  unfold interval_try_from_str. intros E. apply bind_inv in E as (ts & _ & E).
  set (rg := if 0 <=? p then interval_range p else INTERVAL_FULL_RANGE) in *.
  assert (D (fst (decode_interval md ts rg st (tm_new, 0)))) as K by (apply decode_D; exact in32_0).
  destruct (decode_interval md ts rg st (tm_new, 0)) as [x r]. cbn [fst] in K.
  apply bind_inv in E as ([x1 k] & Q & E).
  assert (D x1) as K1.
  { destruct r as [k'|[]|f]; try discriminate.
    - now injection Q as <- <-.
    - apply bind_inv in Q as (x2 & I & Q). apply (iso_D _ _ _ _ K) in I. now injection Q as <- <-. }
  apply bind_inv in E as (b & B & E). apply (adjust_fields _ _ _ _) in E; [exact E|].
  destruct k; try discriminate. unfold interval_from_pgtime in B.
  match type of B with (if ?c then _ else _) = _ => destruct c end; [discriminate|].
  repeat (apply bind_inv in B as (? & ? & B)). injection B as <-. split; [apply to_i32_range|]. split; [exact K1|].
  eapply ar64_range; eassumption.
Qed.
