(** Texts without long runs of digits never make the interval parser overflow. *)
From Verif Require Import Model.Parse Proofs.Arith Proofs.DigitsP Proofs.LexP Proofs.SafeP Proofs.TimeP.
From Verif Require Import Proofs.FloatP Proofs.ScaleP Proofs.FboundP Proofs.IvParseP Proofs.CacheP.
From Verif Require Import Spec.Text Spec.Ranges Spec.ShortNumbers Proofs.ShortP Proofs.OverflowP.
From Flocq Require Import Core.Core.
From Coq Require Import Lia Reals Lra.
Open Scope Z_scope.

(** Bounds on the years, the hours, the other fields and the microseconds *)
Definition Bd (Y H R G : Z) (x : tmf) : Prop :=
  Z.abs (tm_year (fst x)) <= Y /\ Z.abs (tm_mon (fst x)) <= R /\ Z.abs (tm_mday (fst x)) <= R /\
  Z.abs (tm_hour (fst x)) <= H /\ Z.abs (tm_min (fst x)) <= R /\ Z.abs (tm_sec (fst x)) <= R /\ Z.abs (snd x) <= G.
Lemma Bd_le Y H R G Y' H' R' G' x : Bd Y H R G x -> Y <= Y' -> H <= H' -> R <= R' -> G <= G' -> Bd Y' H' R' G' x.
Proof. unfold Bd. intuition lia. Qed.

(** The same for steps that keep the fields on an error *)
Definition ns {A} (P : tmf -> Prop) (Q : tmf -> A -> Prop) (m : tm_step A) : Prop := P (fst m) /\ nf (Q (fst m)) (snd m).
Lemma ns_bind {A B} (P P' : tmf -> Prop) (Q : tmf -> A -> Prop) (Q' : tmf -> B -> Prop) m k :
  ns P Q m -> (forall x, P x -> P' x) -> (forall x a, m = (x, Ok a) -> Q x a -> ns P' Q' (k x a)) -> ns P' Q' (step_bind m k).
Proof. destruct m as [x [a|e|f]]; unfold ns; cbn; intros [H1 H2] I K; auto. Qed.
Lemma ns_imp {A} (P P' : tmf -> Prop) (Q Q' : tmf -> A -> Prop) m : ns P Q m -> (forall x, P x -> P' x) ->
  (forall x a, Q x a -> Q' x a) -> ns P' Q' m.
Proof. intros [H1 H2] I J. split; [auto|]. eapply nf_imp; [exact H2|]. auto. Qed.
Lemma ns_set (P : tmf -> Prop) (Q : Z -> Prop) x r set : P x -> nf Q r -> (forall v, Q v -> P (set v x)) ->
  ns P (fun x' (_ : unit) => P x') (step_set x r set).
Proof. intros H N K. destruct r as [v|e|f]; split; cbn in *; auto. Qed.

(** ** Fractions *)
Lemma fb_frac x B : fb x B -> (B <= i32_max)%Z ->
  Z.abs (f64_to_i32 x) <= B /\ fb (fsub x (f64_of_Z (f64_to_i32 x))) 1.
Proof.
  intros F HB. pose proof (fb_i32 x B F) as Bi. split; [exact Bi|]. destruct F as (r & R & A).
  assert (f64_to_i32 x = Ztrunc r) as E.
  { pose proof (fb_i64 x B ltac:(exists r; auto)) as B64. unfold f64_to_i32, f64_to_i64 in *.
    rewrite (rep_to_int _ _ x r) in B64 by (auto; unfold i64_min, i64_max; lia).
    rewrite (rep_to_int _ _ x r) by (auto; unfold i32_min, i32_max; lia). unfold i32_min, i32_max, i64_min, i64_max in *. lia. }
  rewrite E in *. exists (rnd (r - IZR (Ztrunc r))). unfold i32_max in HB.
  assert (Rabs (r - IZR (Ztrunc r)) <= 1)%R as Q.
  { apply Rabs_le. unfold Ztrunc. destruct (Rlt_bool_spec r 0).
    - pose proof (Zceil_ub r). pose proof (Zceil_lb r). lra.
    - pose proof (Zfloor_ub r). pose proof (Zfloor_lb r). lra. }
  split; [apply rep_sub; auto; [apply rep_int; lia|apply (small_bound _ 1); [exact Q|lia]]|].
  apply rnd_abs; [lia|exact Q].
Qed.

(** Setting one field *)
Lemma Bd_year v x Y H R G : Bd Y H R G x -> Z.abs v <= Y -> Bd Y H R G (s_year v x).
Proof. intros (B1 & B2 & B3 & B4 & B5 & B6 & B7) V. repeat split; assumption. Qed.
Lemma Bd_mon v x Y H R G : Bd Y H R G x -> Z.abs v <= R -> Bd Y H R G (s_mon v x).
Proof. intros (B1 & B2 & B3 & B4 & B5 & B6 & B7) V. repeat split; assumption. Qed.
Lemma Bd_mday v x Y H R G : Bd Y H R G x -> Z.abs v <= R -> Bd Y H R G (s_mday v x).
Proof. intros (B1 & B2 & B3 & B4 & B5 & B6 & B7) V. repeat split; assumption. Qed.
Lemma Bd_hour v x Y H R G : Bd Y H R G x -> Z.abs v <= H -> Bd Y H R G (s_hour v x).
Proof. intros (B1 & B2 & B3 & B4 & B5 & B6 & B7) V. repeat split; assumption. Qed.
Lemma Bd_min v x Y H R G : Bd Y H R G x -> Z.abs v <= R -> Bd Y H R G (s_min v x).
Proof. intros (B1 & B2 & B3 & B4 & B5 & B6 & B7) V. repeat split; assumption. Qed.
Lemma Bd_sec v x Y H R G : Bd Y H R G x -> Z.abs v <= R -> Bd Y H R G (s_sec v x).
Proof. intros (B1 & B2 & B3 & B4 & B5 & B6 & B7) V. repeat split; assumption. Qed.
Lemma Bd_fsec v x Y H R G : Bd Y H R G x -> Z.abs v <= G -> Bd Y H R G (s_fsec v x).
Proof. intros (B1 & B2 & B3 & B4 & B5 & B6 & B7) V. repeat split; assumption. Qed.
(** Adding to one field *)
Lemma nf_add32 md a v B d : Z.abs a <= B -> Z.abs v <= d -> B + d <= 2147483647 -> nf (fun z => Z.abs z <= B + d) (add32 md a v).
Proof. intros A V L. eapply nf_imp; [nfa; lia|]. cbn beta. intros z _ ->. lia. Qed.
Lemma nf_add64 md a v B d : Z.abs a <= B -> Z.abs v <= d -> B + d <= 2147483647000000 -> nf (fun z => Z.abs z <= B + d) (add64 md a v).
Proof. intros A V L. eapply nf_imp; [nfa; lia|]. cbn beta. intros z _ ->. lia. Qed.
Lemma ns_add_year md v d x Y H R G : Bd Y H R G x -> Z.abs v <= d -> Y + d <= 2147483647 ->
  ns (Bd (Y + d) H R G) (fun x' _ => Bd (Y + d) H R G x') (step_set x (add32 md (tm_year (fst x)) v) s_year).
Proof.
  intros B V L. assert (Bd (Y + d) H R G x) as B' by (apply (Bd_le _ _ _ _ _ _ _ _ x B); clear - V; lia).
  apply (ns_set _ (fun z => Z.abs z <= Y + d)); [exact B'|apply nf_add32; [apply B|exact V|exact L]|].
  intros z Z. now apply Bd_year.
Qed.
Lemma nf_add_year md v d x Y H R G : Bd Y H R G x -> Z.abs v <= d -> Y + d <= 2147483647 ->
  nf (Bd (Y + d) H R G) (add_year md v x).
Proof.
  intros B V L. assert (Bd (Y + d) H R G x) as B' by (apply (Bd_le _ _ _ _ _ _ _ _ x B); clear - V; lia).
  unfold add_year, upd. eapply nf_bind; [apply (nf_add32 md _ v Y d); [apply B|exact V|exact L]|].
  intros z _ Z. now apply Bd_year.
Qed.
Lemma ns_add_mon md v d x Y H R G : Bd Y H R G x -> Z.abs v <= d -> R + d <= 2147483647 ->
  ns (Bd Y H (R + d) G) (fun x' _ => Bd Y H (R + d) G x') (step_set x (add32 md (tm_mon (fst x)) v) s_mon).
Proof.
  intros B V L. assert (Bd Y H (R + d) G x) as B' by (apply (Bd_le _ _ _ _ _ _ _ _ x B); clear - V; lia).
  apply (ns_set _ (fun z => Z.abs z <= R + d)); [exact B'|apply nf_add32; [apply B|exact V|exact L]|].
  intros z Z. now apply Bd_mon.
Qed.
Lemma nf_add_mon md v d x Y H R G : Bd Y H R G x -> Z.abs v <= d -> R + d <= 2147483647 ->
  nf (Bd Y H (R + d) G) (add_mon md v x).
Proof.
  intros B V L. assert (Bd Y H (R + d) G x) as B' by (apply (Bd_le _ _ _ _ _ _ _ _ x B); clear - V; lia).
  unfold add_mon, upd. eapply nf_bind; [apply (nf_add32 md _ v R d); [apply B|exact V|exact L]|].
  intros z _ Z. now apply Bd_mon.
Qed.
Lemma ns_add_mday md v d x Y H R G : Bd Y H R G x -> Z.abs v <= d -> R + d <= 2147483647 ->
  ns (Bd Y H (R + d) G) (fun x' _ => Bd Y H (R + d) G x') (step_set x (add32 md (tm_mday (fst x)) v) s_mday).
Proof.
  intros B V L. assert (Bd Y H (R + d) G x) as B' by (apply (Bd_le _ _ _ _ _ _ _ _ x B); clear - V; lia).
  apply (ns_set _ (fun z => Z.abs z <= R + d)); [exact B'|apply nf_add32; [apply B|exact V|exact L]|].
  intros z Z. now apply Bd_mday.
Qed.
Lemma nf_add_mday md v d x Y H R G : Bd Y H R G x -> Z.abs v <= d -> R + d <= 2147483647 ->
  nf (Bd Y H (R + d) G) (add_mday md v x).
Proof.
  intros B V L. assert (Bd Y H (R + d) G x) as B' by (apply (Bd_le _ _ _ _ _ _ _ _ x B); clear - V; lia).
  unfold add_mday, upd. eapply nf_bind; [apply (nf_add32 md _ v R d); [apply B|exact V|exact L]|].
  intros z _ Z. now apply Bd_mday.
Qed.
Lemma ns_add_hour md v d x Y H R G : Bd Y H R G x -> Z.abs v <= d -> H + d <= 2147483647 ->
  ns (Bd Y (H + d) R G) (fun x' _ => Bd Y (H + d) R G x') (step_set x (add32 md (tm_hour (fst x)) v) s_hour).
Proof.
  intros B V L. assert (Bd Y (H + d) R G x) as B' by (apply (Bd_le _ _ _ _ _ _ _ _ x B); clear - V; lia).
  apply (ns_set _ (fun z => Z.abs z <= H + d)); [exact B'|apply nf_add32; [apply B|exact V|exact L]|].
  intros z Z. now apply Bd_hour.
Qed.
Lemma nf_add_hour md v d x Y H R G : Bd Y H R G x -> Z.abs v <= d -> H + d <= 2147483647 ->
  nf (Bd Y (H + d) R G) (add_hour md v x).
Proof.
  intros B V L. assert (Bd Y (H + d) R G x) as B' by (apply (Bd_le _ _ _ _ _ _ _ _ x B); clear - V; lia).
  unfold add_hour, upd. eapply nf_bind; [apply (nf_add32 md _ v H d); [apply B|exact V|exact L]|].
  intros z _ Z. now apply Bd_hour.
Qed.
Lemma ns_add_min md v d x Y H R G : Bd Y H R G x -> Z.abs v <= d -> R + d <= 2147483647 ->
  ns (Bd Y H (R + d) G) (fun x' _ => Bd Y H (R + d) G x') (step_set x (add32 md (tm_min (fst x)) v) s_min).
Proof.
  intros B V L. assert (Bd Y H (R + d) G x) as B' by (apply (Bd_le _ _ _ _ _ _ _ _ x B); clear - V; lia).
  apply (ns_set _ (fun z => Z.abs z <= R + d)); [exact B'|apply nf_add32; [apply B|exact V|exact L]|].
  intros z Z. now apply Bd_min.
Qed.
Lemma nf_add_min md v d x Y H R G : Bd Y H R G x -> Z.abs v <= d -> R + d <= 2147483647 ->
  nf (Bd Y H (R + d) G) (add_min md v x).
Proof.
  intros B V L. assert (Bd Y H (R + d) G x) as B' by (apply (Bd_le _ _ _ _ _ _ _ _ x B); clear - V; lia).
  unfold add_min, upd. eapply nf_bind; [apply (nf_add32 md _ v R d); [apply B|exact V|exact L]|].
  intros z _ Z. now apply Bd_min.
Qed.
Lemma ns_add_sec md v d x Y H R G : Bd Y H R G x -> Z.abs v <= d -> R + d <= 2147483647 ->
  ns (Bd Y H (R + d) G) (fun x' _ => Bd Y H (R + d) G x') (step_set x (add32 md (tm_sec (fst x)) v) s_sec).
Proof.
  intros B V L. assert (Bd Y H (R + d) G x) as B' by (apply (Bd_le _ _ _ _ _ _ _ _ x B); clear - V; lia).
  apply (ns_set _ (fun z => Z.abs z <= R + d)); [exact B'|apply nf_add32; [apply B|exact V|exact L]|].
  intros z Z. now apply Bd_sec.
Qed.
Lemma nf_add_sec md v d x Y H R G : Bd Y H R G x -> Z.abs v <= d -> R + d <= 2147483647 ->
  nf (Bd Y H (R + d) G) (add_sec md v x).
Proof.
  intros B V L. assert (Bd Y H (R + d) G x) as B' by (apply (Bd_le _ _ _ _ _ _ _ _ x B); clear - V; lia).
  unfold add_sec, upd. eapply nf_bind; [apply (nf_add32 md _ v R d); [apply B|exact V|exact L]|].
  intros z _ Z. now apply Bd_sec.
Qed.
Lemma ns_add_fsec md v d x Y H R G : Bd Y H R G x -> Z.abs v <= d -> G + d <= 2147483647000000 ->
  ns (Bd Y H R (G + d)) (fun x' _ => Bd Y H R (G + d) x') (step_set x (add64 md (snd x) v) s_fsec).
Proof.
  intros B V L. assert (Bd Y H R (G + d) x) as B' by (apply (Bd_le _ _ _ _ _ _ _ _ x B); clear - V; lia).
  apply (ns_set _ (fun z => Z.abs z <= G + d)); [exact B'|apply nf_add64; [apply B|exact V|exact L]|].
  intros z Z. now apply Bd_fsec.
Qed.
Ltac bdle := match goal with B : Bd _ _ _ _ ?x |- Bd _ _ _ _ ?x => apply (Bd_le _ _ _ _ _ _ _ _ x B); lia end.

Lemma ns_seconds md f sc x Y H R G : fb f 1 -> 0 <= sc <= 86400 -> Bd Y H R G x -> G <= 1000000000000 ->
  ns (Bd Y H (R + sc) (G + 1000000)) (fun x' _ => Bd Y H (R + sc) (G + 1000000) x') (adjust_fract_seconds md f sc x).
Proof.
  intros F S B HG. unfold adjust_fract_seconds. assert (Bd Y H (R + sc) (G + 1000000) x) as B1 by bdle.
  destruct (negb (fnz f)); [split; [exact B1|exact B1]|]. cbv zeta.
  destruct (fb_frac (fmul f (f64_of_Z sc)) sc) as [I1 F1].
  { apply (fb_mul _ _ 1 sc); [exact F|apply fb_int; lia|lia|lia]. } { unfold i32_max; lia. }
  set (fr := fmul f (f64_of_Z sc)) in *. set (k := f64_to_i32 fr) in *. clearbody k.
  pose proof (fb_usecs _ F1) as U. set (u := usecs_of (fsub fr (f64_of_Z k))) in *. clearbody u. clear F F1 fr.
  eapply (ns_bind (Bd Y H (R + sc) G) _ (fun x' _ => Bd Y H (R + sc) G x')).
  - eapply (ns_set (Bd Y H (R + sc) G) (fun v => v = tm_sec (fst x) + k)); [bdle| |].
    + unfold chk32. destruct (in32b _); [reflexivity|exact I].
    + intros v ->. apply Bd_sec; [bdle|]. destruct B as (_ & _ & _ & _ & _ & B6 & _). clear - B6 I1. lia.
  - intros x' Q. bdle.
  - intros x' _ _ B2. apply (ns_add_fsec md u 1000000 x'); [exact B2|exact U|lia].
Qed.
Lemma ns_days md f sc x Y H R G : fb f 1 -> 0 <= sc <= 30 -> Bd Y H R G x -> G <= 1000000000000 ->
  ns (Bd Y H (R + 86430) (G + 1000000)) (fun x' _ => Bd Y H (R + 86430) (G + 1000000) x') (adjust_fract_days md f sc x).
Proof.
  intros F S B HG. unfold adjust_fract_days.
  destruct (negb (fnz f)); [split; cbn [fst snd nf]; bdle|]. cbv zeta.
  destruct (fb_frac (fmul f (f64_of_Z sc)) sc) as [I1 F1].
  { apply (fb_mul _ _ 1 sc); [exact F|apply fb_int; lia|lia|lia]. } { unfold i32_max; lia. }
  set (fr := fmul f (f64_of_Z sc)) in *. set (k := f64_to_i32 fr) in *. clearbody k.
  eapply (ns_bind (Bd Y H (R + 30) G) _ (fun x' _ => Bd Y H (R + 30) G x')).
  - eapply (ns_set (Bd Y H (R + 30) G) (fun v => v = tm_mday (fst x) + k)); [bdle| |].
    + unfold chk32. destruct (in32b _); [reflexivity|exact I].
    + intros v ->. apply Bd_mday; [bdle|]. destruct B as (_ & _ & B3 & _). clear - B3 I1 S. lia.
  - intros x' Q. bdle.
  - intros x' _ _ B2. unfold SECS_PER_DAY.
    eapply ns_imp; [apply (ns_seconds md _ 86400 x' Y H (R + 30) G F1 ltac:(lia) B2 HG)| |]; [intros z Bz|intros z a Bz; cbn beta in Bz]; bdle.
Qed.

(** ** Numbers with a unit *)
Lemma fb_zero : fb f0 1.
Proof. exists 0%R. split; [exact (rep_int 0 ltac:(lia))|]. rewrite Rabs_R0. lra. Qed.
Lemma nf_str2d s : nf (fun p => True) (str2d s).
Proof.
  unfold str2d. destruct (eat_whitespaces s); [exact I|]. destruct (extract_sign _). destruct (eat_digits _).
  destruct (10 <? _); [exact I|]. destruct (match _ with [] => _ | _ => _ end). destruct (7 <? _); exact I.
Qed.
Lemma nf_number md field ty : short_numbers field -> nf (fun p => let '(ty', v, f) := p in
  fb f 1 /\ (ty' = ty /\ Z.abs v <= 999999 \/ ty' = kcode KMonth /\ Z.abs v <= 12000000)) (interval_number md field ty).
Proof.
  intros S. unfold interval_number. eapply nf_bind; [apply nf_str2i32, S|]. intros [v s] _ [B Sf]. cbn [fst snd] in *.
  destruct s as [|c r]; [split; [exact fb_zero|now left]|].
  pose proof (short_suf _ _ (suffix_cons _ _ _ Sf) S) as Sr.
  destruct (c =? 45) eqn:C.
  - eapply nf_bind; [apply nf_str2i32, Sr|]. intros [v2 s2] _ [B2 _]. cbn [fst snd] in *.
    change MONTHS_PER_YEAR with 12. destruct ((v2 <? 0) || (12 <=? v2)) eqn:V; [exact I|]. destruct s2; [|exact I].
    eapply (nf_bind (fun _ => True)); [destruct field; [discriminate|exact I]|]. intros mi _ _.
    apply (nf_bind (fun w => Z.abs w <= 11)).
    { destruct mi; [|cbn; lia]. eapply nf_imp; [nfa; lia|]. cbn beta. intros w _ ->. lia. }
    intros w _ W. cbv zeta. destruct ((i32_max <? v * 12 + w) || (v * 12 + w <? i32_min)); [exact I|]. repeat nfs. cbn [nf]. split; [exact fb_zero|]. right. split; [reflexivity|lia].
  - destruct (c =? 46) eqn:C2; [|exact I]. apply Z.eqb_eq in C2. subst c.
    eapply nf_bind; [apply nf_str2d|]. intros [f s2] E _. destruct s2; [|exact I].
    eapply (nf_bind (fun _ => True)); [destruct field; [discriminate|exact I]|]. intros mi _ _.
    apply fb_dot in E as [F _]. cbn [nf]. split; [|now left]. destruct mi; [now apply fb_neg|exact F].
Qed.

(** How many times six digits of years and hours the units seen so far allow *)
Definition b2z (b : bool) : Z := if b then 1 else 0.
Definition yb (m : Z) : Z :=
  b2z (has m (mask YEAR)) + 10 * b2z (has m (mask DECADE)) + 100 * b2z (has m (mask CENTURY)) + 1000 * b2z (has m (mask MILLENNIUM)).
Definition hb (m : Z) : Z := b2z (has m (mask HOUR)).
Lemma b2z_bound b : 0 <= b2z b <= 1. Proof. destruct b; cbn; lia. Qed.
Lemma yb_bound m : 0 <= yb m <= 1111.
Proof.
  unfold yb. pose proof (b2z_bound (has m (mask YEAR))). pose proof (b2z_bound (has m (mask DECADE))).
  pose proof (b2z_bound (has m (mask CENTURY))). pose proof (b2z_bound (has m (mask MILLENNIUM))). lia.
Qed.
Lemma hb_bound m : 0 <= hb m <= 1. Proof. apply b2z_bound. Qed.
Lemma has_bit m t n : 0 <= n -> has m (2 ^ n) = true -> has t (2 ^ n) = true -> has m t = true.
Proof.
  intros N. unfold has. rewrite !negb_true_iff, !Z.eqb_neq. intros A B E.
  assert (forall z, Z.land z (2 ^ n) <> 0 -> Z.testbit z n = true) as T.
  { intros z Hz. destruct (Z.testbit z n) eqn:Q; [reflexivity|]. exfalso. apply Hz. apply Z.bits_inj'. intros k Hk.
    rewrite Z.land_spec, Z.bits_0, Z.pow2_bits_eqb by lia. destruct (Z.eqb_spec n k); [subst; now rewrite Q|apply andb_false_r]. }
  apply T in A, B. apply (f_equal (fun z => Z.testbit z n)) in E. rewrite Z.land_spec, A, B, Z.bits_0 in E. discriminate.
Qed.
Lemma b2z_lor m t n : 0 <= n -> has m t = false -> b2z (has (Z.lor m t) (2 ^ n)) = b2z (has m (2 ^ n)) + b2z (has t (2 ^ n)).
Proof.
  intros N D. rewrite has_lor. destruct (has m (2 ^ n)) eqn:A, (has t (2 ^ n)) eqn:B; try reflexivity.
  rewrite (has_bit m t n N A B) in D. discriminate.
Qed.
Lemma yb_lor m t : has m t = false -> yb (Z.lor m t) = yb m + yb t.
Proof.
  intros D. unfold yb.
  change (mask YEAR) with (2 ^ 2). change (mask DECADE) with (2 ^ 25). change (mask CENTURY) with (2 ^ 26). change (mask MILLENNIUM) with (2 ^ 27).
  rewrite !b2z_lor by (lia || exact D). lia.
Qed.
Lemma hb_lor m t : has m t = false -> hb (Z.lor m t) = hb m + hb t.
Proof.
  intros D. unfold hb. change (mask HOUR) with (2 ^ 10). rewrite !b2z_lor by (lia || exact D). lia.
Qed.

Definition RS := 12100000.
Definition GS := 2000000.
Lemma ns_ret m (ty t : Z) Y H R G :
  ns (Bd (Y + 999999 * yb t) (H + 999999 * hb t) R G) (fun x' (_ : unit) => Bd (Y + 999999 * yb t) (H + 999999 * hb t) R G x') m ->
  yb t <= 1000 ->
  ns (Bd (Y + 999999000) (H + 999999) R G) (fun x' r => Bd (Y + 999999 * yb (snd r)) (H + 999999 * hb (snd r)) R G x')
     (step_bind m (fun x _ => (x, Ok (ty, t)))).
Proof.
  intros N L. pose proof (hb_bound t). eapply ns_bind; [exact N| |].
  - intros x B. bdle.
  - cbn beta. intros x a _ B. split; [cbn [fst]; bdle|exact B].
Qed.
(** one addition and then another step *)
Lemma ns_then (a : tm_step unit) (k : tmf -> tm_step unit) Y H R G Y' H' R' G' :
  ns (Bd Y H R G) (fun x' _ => Bd Y H R G x') a -> Y <= Y' -> H <= H' -> R <= R' -> G <= G' ->
  (forall x, Bd Y H R G x -> ns (Bd Y' H' R' G') (fun x' _ => Bd Y' H' R' G' x') (k x)) ->
  ns (Bd Y' H' R' G') (fun x' _ => Bd Y' H' R' G' x') (step_bind a (fun x _ => k x)).
Proof.
  intros N L1 L2 L3 L4 K. eapply ns_bind; [exact N| |].
  - intros x B. bdle.
  - cbn beta. intros x c _ B. now apply K.
Qed.
Lemma ns_weak (m : tm_step unit) Y H R G Y' H' R' G' :
  ns (Bd Y H R G) (fun x' _ => Bd Y H R G x') m -> Y <= Y' -> H <= H' -> R <= R' -> G <= G' ->
  ns (Bd Y' H' R' G') (fun x' _ => Bd Y' H' R' G' x') m.
Proof. intros N L1 L2 L3 L4. eapply ns_imp; [exact N| |]; [intros z B|intros z a B; cbn beta in B]; bdle. Qed.

Lemma ns_years md v k f mo x Y H R G d : Bd Y H R G x -> 0 < k <= 1000 -> Z.abs v <= 999999 -> Y + 999999 * k <= 2147483647 ->
  fb mo d -> 0 <= d -> R + d <= 2147483647 ->
  ns (Bd (Y + 999999 * k) H (R + d) G) (fun x' _ => Bd (Y + 999999 * k) H (R + d) G x') (add_years md v k f mo x).
Proof.
  intros B K V L F D0 LR. unfold add_years. assert (Z.abs (v * k) <= 999999 * k) as P by nia.
  assert (mul32 md v k = Ok (v * k)) as -> by (apply ar32_ok; unfold in_i32, i32_min, i32_max; lia). cbn [bind].
  apply (ns_then _ (fun x => if fnz f then step_set x (add32 md (tm_mon (fst x)) (f64_to_i32 mo)) s_mon else (x, Ok tt))
    (Y + 999999 * k) H R G); [apply (ns_add_year md _ (999999 * k)); [exact B|exact P|exact L]|lia..|].
  intros x' B'. destruct (fnz f).
  - apply ns_add_mon; [exact B'|apply fb_i32; exact F|exact LR].
  - split; cbn [fst snd nf]; bdle.
Qed.
Ltac masks := match goal with |- ns (Bd (_ + 999999 * yb ?t) (_ + 999999 * hb ?t) _ _) _ _ =>
  let y := eval vm_compute in (yb t) in let h := eval vm_compute in (hb t) in change (yb t) with y; change (hb t) with h end.
Lemma ns_number md field ty range x Y H R G : short_numbers field -> Bd Y H R G x -> 0 <= Y <= 1111 * 999999 -> 0 <= H <= 999999 ->
  0 <= R <= 25 * RS -> 0 <= G <= 25 * GS ->
  ns (Bd (Y + 999999000) (H + 999999) (R + RS) (G + GS))
     (fun x' r => Bd (Y + 999999 * yb (snd r)) (H + 999999 * hb (snd r)) (R + RS) (G + GS) x')
     (interval_number_field md field ty range x).
Proof.
  intros S B HY HH HR HG. unfold RS, GS in *. unfold interval_number_field.
  assert (Bd (Y + 999999000) (H + 999999) (R + 12100000) (G + 2000000) x) as B1 by bdle.
  pose proof (nf_number md field (default_unit ty range) S) as N.
  destruct (interval_number md field (default_unit ty range)) as [[[ty' v] f]|e|x0]; [|split; [exact B1|exact I]|split; [exact B1|exact N]].
  cbn [nf] in N. destruct N as [F V].
  destruct (tfield_of ty') as [k|e|x0] eqn:K; [|split; [exact B1|exact I]|split; [exact B1|cbn; intros ->; revert K; unfold tfield_of; destruct (ty' <? 0); [discriminate|]; destruct (nth_error _ _); discriminate]].
  assert (Z.abs v <= 12000000 /\ (k <> KMonth -> Z.abs v <= 999999)) as [V1 V2].
  { destruct V as [[-> V]|[-> V]]; [split; [lia|auto]|]. cbn in K. injection K as <-. split; [exact V|easy]. }
  clear V K. cbv zeta.
  assert (fb (fmul f (f64_of_Z 12)) 12) as F12 by (apply (fb_mul _ _ 1 12); [exact F|apply fb_int; lia|lia|lia]).
  assert (forall c, 0 < c <= 1000 -> fb (fmul (fmul f (f64_of_Z 12)) (f64_of_Z c)) (12 * c)) as F12c.
  { intros c C. apply (fb_mul _ _ 12 c); [exact F12|apply fb_int; lia|lia|lia]. }
  destruct k; try (split; [exact B1|exact I]); try specialize (V2 ltac:(discriminate)).
  all: apply ns_ret; [|try destruct (fnz f); vm_compute; discriminate].
  1: destruct (fnz f).
  all: masks; rewrite ?Z.mul_0_r, ?Z.add_0_r, ?Z.mul_1_r; unfold SECS_PER_MINUTE, SECS_PER_HOUR, SECS_PER_DAY, DAYS_PER_MONTH.
  - eapply ns_then; [apply (ns_add_sec md v 999999 x Y H R G B V2); lia|lia..|]. intros x' B'. eapply ns_weak; [apply (ns_add_fsec md _ 1000000 x' _ _ _ _ B'); [now apply fb_usecs|lia]|lia..].
  - eapply ns_then; [apply (ns_add_sec md v 999999 x Y H R G B V2); lia|lia..|]. intros x' B'. eapply ns_weak; [apply (ns_add_fsec md _ 1000000 x' _ _ _ _ B'); [now apply fb_usecs|lia]|lia..].
  - eapply ns_then; [apply (ns_add_min md v 999999 x Y H R G B V2); lia|lia..|]. intros x' B'. eapply ns_weak; [apply (ns_seconds md f 60 x' _ _ _ _ F ltac:(lia) B'); lia|lia..].
  - eapply ns_then; [apply (ns_add_hour md v 999999 x Y H R G B V2); lia|lia..|]. intros x' B'. eapply ns_weak; [apply (ns_seconds md f 3600 x' _ _ _ _ F ltac:(lia) B'); lia|lia..].
  - eapply ns_then; [apply (ns_add_mday md v 999999 x Y H R G B V2); lia|lia..|]. intros x' B'. eapply ns_weak; [apply (ns_seconds md f 86400 x' _ _ _ _ F ltac:(lia) B'); lia|lia..].
  - assert (mul32 md v 7 = Ok (v * 7)) as -> by (apply ar32_ok; unfold in_i32, i32_min, i32_max; clear - V2; lia). cbn [bind].
    eapply ns_then; [apply (ns_add_mday md (v * 7) 7000000 x Y H R G B); [clear - V2; lia|lia]|lia..|]. intros x' B'. eapply ns_weak; [apply (ns_days md f 7 x' _ _ _ _ F ltac:(lia) B'); lia|lia..].
  - eapply ns_then; [apply (ns_add_mon md v 12000000 x Y H R G B V1); lia|lia..|]. intros x' B'. eapply ns_weak; [apply (ns_days md f 30 x' _ _ _ _ F ltac:(lia) B'); lia|lia..].
  - eapply ns_weak; [apply (ns_years md v 1 f _ x Y H R G 12 B); auto; lia|lia..].
  - eapply ns_weak; [apply (ns_years md v 10 f _ x Y H R G 120 B); auto; try lia; apply (F12c 10); lia|lia..].
  - eapply ns_weak; [apply (ns_years md v 100 f _ x Y H R G 1200 B); auto; try lia; apply (F12c 100); lia|lia..].
  - eapply ns_weak; [apply (ns_years md v 1000 f _ x Y H R G 12000 B); auto; try lia; apply (F12c 1000); lia|lia..].
  - eapply ns_then; [apply (ns_add_sec md (Z.quot v 1000) 999999 x Y H R G B); [pose proof (quot_lt v 1000 eq_refl); clear B B1; lia|lia]|lia..|].
    intros x' B'. eapply ns_weak; [apply (ns_add_fsec md _ 1000000 x' _ _ _ _ B'); [|lia]|lia..].
    assert (Z.abs (v - Z.quot v 1000 * 1000) <= 999) as W.
    { pose proof (Z.quot_rem v 1000 ltac:(lia)). pose proof (Z.rem_bound_abs v 1000 ltac:(lia)). clear B B1 B'. lia. }
    apply fb_i64, fb_round, (fb_mul _ _ 1000 1000); [|apply fb_int; lia|lia|lia].
    apply (fb_add _ _ 999 1); [apply fb_int; [exact W|lia]|exact F|lia|lia].
  - eapply ns_weak; [apply (ns_add_fsec md _ 1000000 x Y H R G B); [|lia]|lia..].
    apply fb_i64, fb_round, (fb_add _ _ 999999 1); [apply fb_int; [exact V2|lia]|exact F|lia|lia].
Qed.

(** ** The fields in turn *)
Definition Inv (k : nat) (m : Z) (x : tmf) : Prop := Bd (999999 * yb m) (999999 * hb m) (Z.of_nat k * RS) (Z.of_nat k * GS) x.
Definition Any (k : nat) (x : tmf) : Prop := Bd (999999 * 2111) (999999 * 2) (Z.of_nat k * RS) (Z.of_nat k * GS) x.
Lemma Inv_any k m x : Inv k m x -> Any k x.
Proof. intros B. unfold Inv, Any in *. pose proof (yb_bound m). pose proof (hb_bound m). bdle. Qed.
Lemma Inv_next k m x : Inv k m x -> Inv (S k) m x.
Proof. intros B. unfold Inv, RS, GS in *. bdle. Qed.
Lemma Any_next k x : Any k x -> Any (S k) x.
Proof. intros B. unfold Any, RS, GS in *. bdle. Qed.
Lemma ns_merge k t i x : Any k x -> (has (i_fmask i) t = false -> Inv k (Z.lor (i_fmask i) t) x) ->
  ns (Any k) (fun x' i' => Inv k (i_fmask i') x') (merge_i t i x).
Proof. intros A K. unfold merge_i. destruct (has (i_fmask i) t) eqn:E; split; cbn; auto. Qed.
Lemma ns_merge_same k t i x : Inv k (i_fmask i) x -> ns (Any k) (fun x' i' => Inv k (i_fmask i') x') (merge_i t i x).
Proof.
  intros B. apply ns_merge; [now apply Inv_any in B|]. intros D. unfold Inv in *. rewrite yb_lor, hb_lor by exact D.
  pose proof (yb_bound t). pose proof (hb_bound t). bdle.
Qed.
Lemma nf_neg32 md a B : Z.abs a <= B -> B <= 2147483647 -> nf (fun z => Z.abs z <= B) (neg32 md a).
Proof. intros A L. eapply nf_imp; [nfa; lia|]. cbn beta. intros z _ ->. lia. Qed.
Lemma nf_neg64 md a B : Z.abs a <= B -> B <= 2147483647000000 -> nf (fun z => Z.abs z <= B) (neg64 md a).
Proof. intros A L. eapply nf_imp; [nfa; lia|]. cbn beta. intros z _ ->. lia. Qed.
Lemma ns_neg (r : res Z) (set : Z -> tmf -> tmf) (L : Z) x Y H R G k : Bd Y H R G x -> nf (fun z => Z.abs z <= L) r ->
  (forall v x, Bd Y H R G x -> Z.abs v <= L -> Bd Y H R G (set v x)) ->
  (forall x, Bd Y H R G x -> ns (Bd Y H R G) (fun x' (_ : unit) => Bd Y H R G x') (k x)) ->
  ns (Bd Y H R G) (fun x' _ => Bd Y H R G x') (step_bind (step_set x r set) (fun x _ => k x)).
Proof.
  intros B N S K. eapply ns_then; [apply (ns_set (Bd Y H R G) (fun z => Z.abs z <= L)); [exact B|exact N|]|lia..|exact K].
  intros v V. now apply S.
Qed.
Lemma ns_negate_clock md x Y H R G : Bd Y H R G x -> H <= 2147483647 -> R <= 2147483647 -> G <= 2147483647000000 ->
  ns (Bd Y H R G) (fun x' _ => Bd Y H R G x') (negate_clock md x).
Proof.
  intros B LH LR LG. unfold negate_clock.
  apply (ns_neg _ s_hour H); [exact B|apply nf_neg32; [apply B|exact LH]|intros; now apply Bd_hour|]. clear x B. intros x B.
  apply (ns_neg _ s_min R); [exact B|apply nf_neg32; [apply B|exact LR]|intros; now apply Bd_min|]. clear x B. intros x B.
  apply (ns_neg _ s_sec R); [exact B|apply nf_neg32; [apply B|exact LR]|intros; now apply Bd_sec|]. clear x B. intros x B.
  apply (ns_set _ (fun z => Z.abs z <= G)); [exact B|apply nf_neg64; [apply B|exact LG]|intros; now apply Bd_fsec].
Qed.
Lemma ns_negate_all md x Y H R G : Bd Y H R G x -> Y <= 2147483647 -> H <= 2147483647 -> R <= 2147483647 -> G <= 2147483647000000 ->
  ns (Bd Y H R G) (fun x' _ => Bd Y H R G x') (negate_all md x).
Proof.
  intros B LY LH LR LG. unfold negate_all.
  apply (ns_neg _ s_fsec G); [exact B|apply nf_neg64; [apply B|exact LG]|intros; now apply Bd_fsec|]. clear x B. intros x B.
  apply (ns_neg _ s_sec R); [exact B|apply nf_neg32; [apply B|exact LR]|intros; now apply Bd_sec|]. clear x B. intros x B.
  apply (ns_neg _ s_min R); [exact B|apply nf_neg32; [apply B|exact LR]|intros; now apply Bd_min|]. clear x B. intros x B.
  apply (ns_neg _ s_hour H); [exact B|apply nf_neg32; [apply B|exact LH]|intros; now apply Bd_hour|]. clear x B. intros x B.
  apply (ns_neg _ s_mday R); [exact B|apply nf_neg32; [apply B|exact LR]|intros; now apply Bd_mday|]. clear x B. intros x B.
  apply (ns_neg _ s_mon R); [exact B|apply nf_neg32; [apply B|exact LR]|intros; now apply Bd_mon|]. clear x B. intros x B.
  apply (ns_set _ (fun z => Z.abs z <= Y)); [exact B|apply nf_neg32; [apply B|exact LY]|intros; now apply Bd_year].
Qed.

(** A time of day overwrites the clock. *)
Lemma ns_time md field range x k m : short_numbers field -> Inv k m x ->
  ns (Any (S k)) (fun x' _ => Any (S k) x' /\ (has m DTK_TIME_M = false -> Inv (S k) (Z.lor m DTK_TIME_M) x')) (decode_time md field range x).
Proof.
  intros S B. pose proof (decode_time_ok md field range x S) as D. destruct (decode_time md field range x) as [x' r].
  destruct D as ((Y' & _ & M' & D') & (C1 & C2 & C3 & C4) & N).
  assert (Any (Datatypes.S k) x') as A.
  { apply Inv_any in B. unfold Any, Bd, RS, GS in *. destruct B as (B1 & B2 & B3 & B4 & B5 & B6 & B7).
    rewrite Y', M', D'. unfold kept in *. rewrite Nat2Z.inj_succ.
    repeat split; try (clear - B1 B2 B3; lia); [clear - C1 B4|clear - C2 B5|clear - C3 B6|clear - C4 B7].
    - destruct C1 as [->|C1]; lia.
    - destruct C2 as [->|C2]; lia.
    - destruct C3 as [->|C3]; lia.
    - destruct C4 as [->|C4]; lia. }
  split; [exact A|]. cbn [fst snd] in *. eapply nf_imp; [exact N|]. intros _ _ ((H1 & H2 & H3 & H4) & _). split; [exact A|].
  intros E. unfold Inv in *. rewrite yb_lor, hb_lor by exact E. change (yb DTK_TIME_M) with 0. change (hb DTK_TIME_M) with 1.
  pose proof (hb_bound m) as Hm. unfold Bd, RS, GS in *. rewrite Y', M', D', Nat2Z.inj_succ. destruct B as (B1 & B2 & B3 & _).
  repeat split; [clear - B1|clear - B2|clear - B3|clear - H1 Hm|clear - H2|clear - H3|clear - H4]; lia.
Qed.

Lemma Any_25 k x : (k <= 25)%nat -> Any k x -> Bd (999999 * 2111) (999999 * 2) (Z.of_nat k * RS) (Z.of_nat k * GS) x.
Proof. auto. Qed.
Lemma ns_field md range t i x k : short_numbers (snd t) -> (k < 25)%nat -> Inv k (i_fmask i) x ->
  ns (Any (S k)) (fun x' i' => Inv (S k) (i_fmask i') x') (interval_field md range t i x).
Proof.
  destruct t as [ft fld]. cbn [fst snd]. intros S K B. pose proof (Inv_next _ _ _ B) as BN. pose proof (Inv_any _ _ _ BN) as A.
  unfold interval_field. cbn [fst snd]. cbv zeta.
  assert (forall ty', ns (Any (Datatypes.S k)) (fun x' i' => Inv (Datatypes.S k) (i_fmask i') x')
    (step_bind (interval_number_field md fld ty' range x) (fun x r => merge_i (snd r) (i_set_ty (fst r) i) x))) as Num.
  { intros ty'. pose proof (yb_bound (i_fmask i)) as Yb. pose proof (hb_bound (i_fmask i)) as Hb. 
    eapply ns_bind; [apply (ns_number md fld ty' range x _ _ _ _ S B); unfold RS, GS; lia| |].
    - intros x' B'. unfold Any, RS, GS in *. clear B BN A. bdle.
    - cbn beta. intros x' r E B'. apply ns_merge.
      + assert (yb (snd r) <= 1000) as Y1.
        { clear - E. revert E. unfold interval_number_field. destruct (interval_number _ _ _) as [[[ty v] f]| |]; try discriminate.
          destruct (tfield_of ty) as [f'| |]; try discriminate.
          destruct f'; try discriminate; try destruct (fnz f); unfold step_bind at 1;
          match goal with |- match ?m with _ => _ end = _ -> _ => destruct m as [? [?| |]] end;
          intros Q; try discriminate Q; injection Q as _ <-; vm_compute; discriminate. }
        pose proof (hb_bound (snd r)). unfold Any, RS, GS in *. clear B BN A E. bdle.
      + cbn [i_fmask i_set_ty]. intros D. unfold Inv. rewrite yb_lor, hb_lor by exact D. unfold RS, GS in *. clear B BN A E. bdle. }
  assert (forall w x0, decode_units w <> Fault FArith /\ tfield_of x0 <> Fault FArith) as Un.
  { intros w x0. split.
    - apply nf_true, nf_sf, sf_decode_units.
    - unfold tfield_of. destruct (x0 <? 0); [discriminate|]. destruct (nth_error _ _); discriminate. }
  assert (ns (Any (Datatypes.S k)) (fun x' i' => Inv (Datatypes.S k) (i_fmask i') x')
    match decode_units fld with
    | Err e => (x, Err e)
    | Fault f => (x, Fault f)
    | Ok (ty, val) =>
        match ty with
        | IgnoreDtf => (x, Ok i)
        | UNITS => merge_i 0 (i_set_ty val i) x
        | AGO => merge_i 0 (mkI val (i_fmask i) true (i_dtype i)) x
        | RESERV =>
            match tfield_of val with
            | Ok k => merge_i (Z.lor DTK_DATE_M DTK_TIME_M) (mkI (i_ty i) (i_fmask i) (i_before i) k) x
            | Err e => (x, Err e)
            | Fault f => (x, Fault f)
            end
        | _ => (x, Err EInvalid)
        end
    end) as Wd.
  { destruct (decode_units fld) as [[ty v]|e|f] eqn:E.
    - destruct ty; try (split; [exact A|exact I]); try (apply ns_merge_same; exact BN); try (split; [exact A|exact BN]).
      + destruct (tfield_of v) as [k'|e|f] eqn:Q; [apply ns_merge_same; exact BN|split; [exact A|exact I]|].
        split; [exact A|]. cbn. intros ->. now apply (proj2 (Un [] v)).
    - split; [exact A|exact I].
    - split; [exact A|]. cbn. intros ->. now apply (proj1 (Un fld 0)). }
  destruct ft as [[]|]; try exact Wd; try apply Num; try (split; [exact A|exact I]).
  - eapply ns_bind; [apply (ns_time md fld range x k _ S B)|auto|]. cbn beta. intros x' _ _ [A' K']. now apply ns_merge.
  - destruct fld as [|c r] eqn:Et; [split; [exact A|destruct md; cbn; [discriminate|exact I]]|].
    destruct (debug_assert md _) as [a|e|f] eqn:Da; [|split; [exact A|exact I]|split; [exact A|]].
    2:{ cbn. intros ->. revert Da. unfold debug_assert. destruct md; [destruct (_ || _)|]; discriminate. }
    destruct (existsb _ _); [|apply Num].
    assert (short_numbers r) as Sr by exact (short_suffix [c] r S).
    eapply ns_bind; [apply (ns_time md r range x k _ Sr B)|auto|]. cbn beta. intros x' _ _ [A' K'].
    apply (ns_bind (Any (Datatypes.S k)) _ (fun x' _ => Any (Datatypes.S k) x' /\
      (has (i_fmask i) DTK_TIME_M = false -> Inv (Datatypes.S k) (Z.lor (i_fmask i) DTK_TIME_M) x'))); [|auto|].
    + destruct (c =? 45); [|split; cbn; auto]. 
      destruct (has (i_fmask i) DTK_TIME_M) eqn:E.
      * eapply ns_imp; [apply (ns_negate_clock md x' _ _ _ _ A'); unfold RS, GS; lia|auto|]. cbn beta. intros z _ Az. split; [exact Az|discriminate].
      * specialize (K' eq_refl). pose proof (hb_bound (Z.lor (i_fmask i) DTK_TIME_M)).
        eapply ns_imp; [apply (ns_negate_clock md x' _ _ _ _ K'); unfold RS, GS; lia| |].
        -- intros z Bz. now apply Inv_any in Bz.
        -- cbn beta. intros z _ Bz. split; [now apply Inv_any in Bz|intros _; exact Bz].
    + cbn beta. intros z _ _ [Az Kz]. now apply ns_merge.
  - split; [exact A|discriminate].
Qed.
Lemma ns_fields md range ts : forall k i x, Forall (fun t => short_numbers (snd t)) ts -> (k + length ts <= 25)%nat -> Inv k (i_fmask i) x ->
  ns (Any 25) (fun x' i' => Inv 25 (i_fmask i') x') (interval_fields md range ts i x).
Proof.
  induction ts as [|t ts IH]; intros k i x F L B; cbn [interval_fields length] in *.
  - assert (Inv 25 (i_fmask i) x) as B25 by (unfold Inv, RS, GS in *; bdle). split; [now apply Inv_any in B25|exact B25].
  - inversion F as [|? ? Ft Fts]; subst. eapply ns_bind; [apply (ns_field md range t i x k Ft ltac:(lia) B)| |].
    + intros x' A. unfold Any, RS, GS in *. bdle.
    + cbn beta. intros x' i' _ B'. apply (IH (S k)); [exact Fts|lia|exact B'].
Qed.

(** ** The traditional formats *)
Definition Trad (x : tmf) : Prop := Bd 2110997889 1999998 304000000 100000000 x.
Lemma neg_pos_abs v : Z.abs (neg_pos v) = Z.abs v.
Proof. unfold neg_pos. destruct (0 <? v) eqn:E; lia. Qed.
Lemma Bd_negative Y H R G x : Bd Y H R G x -> Bd Y H R G (force_negative x).
Proof. unfold Bd, force_negative. cbn. now rewrite !neg_pos_abs. Qed.
Lemma ns_trad md ts range style x : Forall (fun t => short_numbers (snd t)) ts -> (length ts <= 25)%nat ->
  ns Trad (fun x' _ => Trad x') (decode_interval md ts range style (tm_new, x)).
Proof.
  intros F L. unfold decode_interval. cbv zeta. cbn [fst].
  assert (forall x, Any 25 x -> Trad x) as AT by (intros z A; unfold Any, Trad, RS, GS in *; bdle).
  eapply ns_bind; [apply (ns_fields md range (rev ts) 0); [now apply Forall_rev|now rewrite rev_length|]| |].
  - unfold Inv, Bd. repeat split; vm_compute; discriminate.
  - exact AT.
  - cbn beta. intros x1 i _ B. destruct (i_fmask i =? 0); [split; [exact (AT _ (Inv_any _ _ _ B))|exact I]|].
    pose proof (Inv_any _ _ _ B) as A. apply AT in A. 
    apply (ns_bind Trad _ (fun x' _ => Trad x')); [|auto|].
    + unfold carry_fsec. destruct (nz (snd x1)); [|split; [exact A|exact A]]. cbv zeta.
      pose proof (Inv_any _ _ _ B) as B1. unfold Any, RS, GS in B1. clear B A.
      change (Z.of_nat 25 * 12100000) with 302500000 in B1. change (Z.of_nat 25 * 2000000) with 50000000 in B1.
      assert (Z.abs (snd x1) <= 50000000) as G1 by apply B1. change USECS_PER_SEC with 1000000.
      pose proof (Z.quot_rem (snd x1) 1000000 ltac:(lia)) as Q. pose proof (Z.rem_bound_abs (snd x1) 1000000 ltac:(lia)) as Rb.
      set (q := Z.quot (snd x1) 1000000) in *. set (rm := Z.rem (snd x1) 1000000) in *. clearbody q rm.
      assert (Z.abs q <= 52) as Bq by (clear B1; lia).
      assert (wrap32 q = q) as -> by (apply wrap32_id; clear B1; unfold in_i32, i32_min, i32_max; lia).
      eapply (ns_weak _ (999999 * 2111) (999999 * 2) (302500000 + 52) 50000000); [|lia..].
      apply (ns_add_sec md q 52 (s_fsec (snd x1 - q * 1000000) x1)); [|exact Bq|lia].
      apply Bd_fsec; [bdle|]. clear B1. lia.
    + cbn beta. intros x2 _ _ B2. destruct ts as [|t rest]; [split; [exact B2|discriminate]|].
      assert (forall b : bool, ns Trad (fun x' _ => Trad x') (let x := if b then force_negative x2 else x2 in
        step x <- (if i_before i then negate_all md x else (x, Ok tt)) in (x, Ok (i_dtype i)))) as K.
      { intros b. cbv zeta. assert (Trad (if b then force_negative x2 else x2)) as B3 by (destruct b; [now apply Bd_negative|exact B2]).
        set (x3 := if b then force_negative x2 else x2) in *. clearbody x3.
        apply (ns_bind Trad _ (fun x' _ => Trad x')); [|auto|].
        - destruct (i_before i); [|split; [exact B3|exact B3]]. apply ns_negate_all; [exact B3|lia..].
        - cbn beta. intros x4 _ _ B4. split; exact B4. }
      destruct t as [ft fld]. cbn [snd]. destruct (starts_minus fld) as [b|e|f] eqn:Em; [apply K|apply K|].
      destruct style; try apply K. split; [exact B2|]. cbn. intros ->. revert Em. unfold starts_minus. destruct fld; discriminate.
Qed.

(** ** ISO 8601: every significant byte buys one sixth of a million *)
Lemma sig_digits d : forallb is_digit d = true -> sig d = length d.
Proof. apply sig_full. intros c C. apply is_digit_iff in C. now apply digit_not_space. Qed.
Lemma str2d_iso c s v r : short_numbers (c :: s) -> is_digit c || (c =? 99) || (c =? 46) = true -> str2d (c :: s) = Ok (v, r) ->
  (length r < length (c :: s))%nat ->
  exists a B, rep v a /\ (0 <= a <= IZR B)%R /\ B <= 1000000 /\ B + 166667 * Z.of_nat (sig r) <= 166667 * Z.of_nat (sig (c :: s))
    /\ (sig r < sig (c :: s))%nat /\ suffix r (c :: s).
Proof.
  intros S C. assert (is_space c = false /\ (c =? 43) = false /\ (c =? 45) = false) as (W & C1 & C2).
  { clear - C. unfold is_digit, is_space in *. lia. }
  unfold str2d. rewrite eat_ws_cons by exact W. unfold extract_sign. rewrite C1, C2.
  pose proof (digits_short (c :: s) S) as (_ & Li & Bi). unfold eat_digits in *. pose proof (eat_split is_digit (c :: s)) as E.
  destruct (eat is_digit (c :: s)) as [ig s2]. destruct E as (E & Fi & St). cbn [fst] in *.
  destruct (10 <? blen ig); [discriminate|].
  set (n := length ig) in *.
  assert (10 ^ Z.of_nat n <= 1000000 /\ (n = 0%nat \/ 10 ^ Z.of_nat n <= 166667 * Z.of_nat n)) as [P1 P2].
  { clear - Li. do 7 (destruct n as [|n]; [split; [vm_compute; discriminate|]; first [now left|right; vm_compute; discriminate]|]). lia. }
  assert (0 < 10 ^ Z.of_nat n) as P0 by (apply Z.pow_pos_nonneg; lia).
  destruct s2 as [|c2 s3]; [|destruct (Z.eqb_spec c2 46) as [->|N]].
  - change (7 <? blen []) with false. cbv zeta iota. intros Q _. injection Q as <- <-.
    exists (IZR (dval 0 ig * 1)), (10 ^ Z.of_nat n). rewrite E, app_nil_r. rewrite (sig_digits ig Fi). fold n.
    assert (n <> 0%nat) as N0 by (unfold n; rewrite app_nil_r in E; destruct ig; discriminate).
    split; [apply rep_int; lia|]. split; [split; apply IZR_le; lia|]. split; [exact P1|]. change (sig []) with 0%nat.
    split; [lia|]. split; [lia|exists ig; now rewrite app_nil_r].
  - pose proof (eat_split is_digit s3) as E3. destruct (eat is_digit s3) as [fr s4]. destruct E3 as (E3 & Ff & _).
    destruct (7 <? blen fr) eqn:L7; [discriminate|]. cbv zeta. intros Q _. injection Q as <- <-.
    set (v := match fr with [] => _ | _ => _ end).
    assert (exists a, rep v a /\ (0 <= a <= IZR (10 ^ Z.of_nat n))%R) as (a & Ra & Ba).
    { unfold v. destruct fr as [|c3 fr].
      - exists (IZR (dval 0 ig * 1)). split; [apply rep_int; lia|]. split; apply IZR_le; lia.
      - set (ds := c3 :: fr) in *. apply digits_forallb in Ff. pose proof (digits_value_bound ds Ff) as Bf.
        unfold blen in *. set (k := Z.of_nat (length ds)) in *. assert (0 < 10 ^ k <= 10 ^ 7) as Pk.
        { split; [apply Z.pow_pos_nonneg; lia|apply Z.pow_le_mono_r; lia]. } change (10 ^ 7) with 10000000 in Pk.
        rewrite (dval_acc ds), Z.mul_1_r. fold k. set (N := dval 0 ig * 10 ^ k + digits_value ds).
        assert (0 <= N <= 10 ^ Z.of_nat n * 10 ^ k) as BN by (unfold N; nia).
        assert (N <= 1000000 * 10000000) as BN2 by nia.
        destruct (rep_quot N (10 ^ k) (10 ^ Z.of_nat n)) as [R A]; try lia.
        eexists. split; [exact R|].
        assert (0 <= IZR N / IZR (10 ^ k))%R as Q0.
        { apply Rmult_le_pos; [apply (IZR_le 0); lia|]. left. apply Rinv_0_lt_compat, (IZR_lt 0). lia. }
        rewrite Rabs_right in A by (apply Rle_ge; exact Q0). split.
        + apply (ScaleP.rnd_ge_int _ 0); [lia|exact Q0].
        + apply ScaleP.rnd_le_int; [lia|exact A]. }
    exists a, (10 ^ Z.of_nat n). rewrite E, E3, sig_app, sig_cons, sig_app, (sig_digits ig Fi). fold n. change (is_space 46) with false. cbv iota.
    split; [exact Ra|]. split; [exact Ba|]. split; [exact P1|]. split; [|split; [lia|exists (ig ++ 46 :: fr); now rewrite <- app_assoc]].
    destruct P2 as [Z0|P2]; [|lia]. rewrite Z0. change (10 ^ Z.of_nat 0) with 1. lia.
  - change (7 <? blen []) with false. cbv zeta iota. intros Q Ln. injection Q as <- <-.
    exists (IZR (dval 0 ig * 1)), (10 ^ Z.of_nat n).
    assert (n <> 0%nat) as N0 by (intros Z0; unfold n in Z0; destruct ig; [|discriminate]; rewrite E in Ln; cbn [app] in Ln; lia).
    rewrite E. rewrite sig_app, (sig_digits ig Fi). fold n.
    split; [apply rep_int; lia|]. split; [split; apply IZR_le; lia|]. split; [exact P1|].
    split; [lia|]. split; [lia|now exists ig].
Qed.
Lemma nf_iso_number s : short_numbers s -> nf (fun p => let '(v, f, r) := p in
  0 <= v /\ v + 166667 * Z.of_nat (sig r) <= 166667 * Z.of_nat (sig s) /\ v <= 1000000 /\ (sig r < sig s)%nat /\ fb f 1 /\ suffix r s) (parse_iso8601_number s).
Proof.
  intros S. unfold parse_iso8601_number. destruct s as [|c s]; [exact I|]. destruct (is_digit c || _ || _) eqn:C; [|exact I].
  cbn [negb]. eapply nf_bind; [apply nf_str2d|]. intros [v r] E _.
  destruct (Nat.eqb_spec (length r) (length (c :: s))) as [|N]; [exact I|].
  assert (length r < length (c :: s))%nat as L by (pose proof (str2d_rest _ _ _ E); lia).
  destruct (str2d_iso c s v r S C E L) as (a & B & R & A & B1 & B2 & Sg & Sf).
  destruct (flt v (f64_of_Z i32_min) || fgt v (f64_of_Z i32_max)); [exact I|]. cbv zeta. unfold fge. rewrite (rep_le _ _ _ _ rep_f0 R), Rle_bool_true by lra.
  destruct (fb_rest v a B R A) as [I1 F1]; [unfold i32_max; lia|]. cbn [nf]. split; [lia|]. split; [lia|]. split; [lia|]. auto.
Qed.

Definition Y1 := 2132400000.
Definition H1 := 23400000.
Definition R1 := 600000000.
Definition G1 := 1000000000.
Definition Fin (x : tmf) : Prop := Bd Y1 H1 R1 G1 x.
(** What may still come with [n] significant bytes left *)
Definition Bu (n : nat) (x : tmf) : Prop := (n <= 128)%nat /\
  Bd (Y1 - 166667 * Z.of_nat n) (H1 - 166667 * Z.of_nat n) (R1 - 2000000 * Z.of_nat n) (G1 - 2000000 * Z.of_nat n) x.
Lemma Bu_le n m x : Bu n x -> (m <= n)%nat -> Bu m x.
Proof. intros [L B] M. split; [lia|]. bdle. Qed.
Lemma Bu_fin n x : Bu n x -> Fin x.
Proof. intros [L B]. unfold Fin. bdle. Qed.
Lemma nf_fract_secs md f sc x Y H R G : fb f 1 -> 0 <= sc <= 86400 -> Bd Y H R G x -> G <= 1000000000000 ->
  nf (Bd Y H (R + sc) (G + 1000000)) (fract_secs md f sc x).
Proof.
  intros F S B L. unfold fract_secs, done. destruct (ns_seconds md f sc x Y H R G F S B L) as [_ N].
  destruct (adjust_fract_seconds md f sc x) as [x' [a|e|y]]; cbn in *; auto.
Qed.
Lemma nf_fract_days md f sc x Y H R G : fb f 1 -> 0 <= sc <= 30 -> Bd Y H R G x -> G <= 1000000000000 ->
  nf (Bd Y H (R + 86430) (G + 1000000)) (fract_days md f sc x).
Proof.
  intros F S B L. unfold fract_days, done. destruct (ns_days md f sc x Y H R G F S B L) as [_ N].
  destruct (adjust_fract_days md f sc x) as [x' [a|e|y]]; cbn in *; auto.
Qed.
Lemma fb_twelve f : fb f 1 -> Z.abs (f64_to_i32 (fmul f (f64_of_Z MONTHS_PER_YEAR))) <= 12.
Proof. intros F. apply fb_i32, (fb_mul _ _ 1 12); [exact F|apply fb_int; vm_compute; congruence|lia|lia]. Qed.
Definition paid (m n : nat) (v : Z) (f : f64) : Prop :=
  0 <= v /\ v + 166667 * Z.of_nat n <= 166667 * Z.of_nat m /\ v <= 1000000 /\ (n < m)%nat /\ fb f 1.
Lemma nf_iso_paid s : short_numbers s -> nf (fun p => paid (sig s) (sig (snd p)) (fst (fst p)) (snd (fst p)) /\ suffix (snd p) s) (parse_iso8601_number s).
Proof. intros S. eapply nf_imp; [apply nf_iso_number, S|]. intros [[v f] r] _ (A & B & C & D & E & F). cbn. split; [split; auto|exact F]. Qed.

Ltac close B := split; [lia|]; apply (Bd_le _ _ _ _ _ _ _ _ _ B); lia.
Lemma pay_year {A} md v f m n x (P : A -> Prop) k : Bu m x -> paid m n v f -> (forall x, Bu n x -> nf P (k x)) ->
  nf P (let* x := add_year md v x in let* x := add_mon md (f64_to_i32 (fmul f (f64_of_Z MONTHS_PER_YEAR))) x in k x).
Proof.
  intros [L B] (V & S & V1 & N & F) K. unfold Y1, H1, R1, G1 in *.
  eapply nf_bind; [apply (nf_add_year md v v x _ _ _ _ B); lia|]. intros x1 _ B1.
  eapply nf_bind; [apply (nf_add_mon md _ 12 x1 _ _ _ _ B1); [now apply fb_twelve|lia]|]. intros x2 _ B2.
  apply K. unfold Bu, Y1, H1, R1, G1. close B2.
Qed.
Lemma pay_mon {A} md v f m n x (P : A -> Prop) k : Bu m x -> paid m n v f -> (forall x, Bu n x -> nf P (k x)) ->
  nf P (let* x := add_mon md v x in let* x := fract_days md f DAYS_PER_MONTH x in k x).
Proof.
  intros [L B] (V & S & V1 & N & F) K. unfold Y1, H1, R1, G1 in *.
  eapply nf_bind; [apply (nf_add_mon md v v x _ _ _ _ B); lia|]. intros x1 _ B1.
  eapply nf_bind; [apply (nf_fract_days md f 30 x1 _ _ _ _ F ltac:(lia) B1); lia|]. intros x2 _ B2.
  apply K. unfold Bu, Y1, H1, R1, G1. close B2.
Qed.
Lemma pay_week {A} md v f m n x (P : A -> Prop) k : Bu m x -> paid m n v f -> (forall x, Bu n x -> nf P (k x)) ->
  nf P (let* w := mul32 md v 7 in let* x := add_mday md w x in let* x := fract_days md f 7 x in k x).
Proof.
  intros [L B] (V & S & V1 & N & F) K. unfold Y1, H1, R1, G1 in *.
  assert (mul32 md v 7 = Ok (v * 7)) as -> by (apply ar32_ok; unfold in_i32, i32_min, i32_max; lia). cbn [bind].
  eapply nf_bind; [apply (nf_add_mday md (v * 7) (v * 7) x _ _ _ _ B); lia|]. intros x1 _ B1.
  eapply nf_bind; [apply (nf_fract_days md f 7 x1 _ _ _ _ F ltac:(lia) B1); lia|]. intros x2 _ B2.
  apply K. unfold Bu, Y1, H1, R1, G1. close B2.
Qed.
Lemma pay_day {A} md v f m n x (P : A -> Prop) k : Bu m x -> paid m n v f -> (forall x, Bu n x -> nf P (k x)) ->
  nf P (let* x := add_mday md v x in let* x := fract_secs md f SECS_PER_DAY x in k x).
Proof.
  intros [L B] (V & S & V1 & N & F) K. unfold Y1, H1, R1, G1 in *.
  eapply nf_bind; [apply (nf_add_mday md v v x _ _ _ _ B); lia|]. intros x1 _ B1.
  eapply nf_bind; [apply (nf_fract_secs md f 86400 x1 _ _ _ _ F ltac:(lia) B1); lia|]. intros x2 _ B2.
  apply K. unfold Bu, Y1, H1, R1, G1. close B2.
Qed.
Lemma pay_hour {A} md v f m n x (P : A -> Prop) k : Bu m x -> paid m n v f -> (forall x, Bu n x -> nf P (k x)) ->
  nf P (let* x := add_hour md v x in let* x := fract_secs md f SECS_PER_HOUR x in k x).
Proof.
  intros [L B] (V & S & V1 & N & F) K. unfold Y1, H1, R1, G1 in *.
  eapply nf_bind; [apply (nf_add_hour md v v x _ _ _ _ B); lia|]. intros x1 _ B1.
  eapply nf_bind; [apply (nf_fract_secs md f 3600 x1 _ _ _ _ F ltac:(lia) B1); lia|]. intros x2 _ B2.
  apply K. unfold Bu, Y1, H1, R1, G1. close B2.
Qed.
Lemma pay_min {A} md v f m n x (P : A -> Prop) k : Bu m x -> paid m n v f -> (forall x, Bu n x -> nf P (k x)) ->
  nf P (let* x := add_min md v x in let* x := fract_secs md f SECS_PER_MINUTE x in k x).
Proof.
  intros [L B] (V & S & V1 & N & F) K. unfold Y1, H1, R1, G1 in *.
  eapply nf_bind; [apply (nf_add_min md v v x _ _ _ _ B); lia|]. intros x1 _ B1.
  eapply nf_bind; [apply (nf_fract_secs md f 60 x1 _ _ _ _ F ltac:(lia) B1); lia|]. intros x2 _ B2.
  apply K. unfold Bu, Y1, H1, R1, G1. close B2.
Qed.
Lemma pay_sec {A} md v f m n x (P : A -> Prop) k : Bu m x -> paid m n v f -> (forall x, Bu n x -> nf P (k x)) ->
  nf P (let* x := add_sec md v x in let* x := fract_secs md f 1 x in k x).
Proof.
  intros [L B] (V & S & V1 & N & F) K. unfold Y1, H1, R1, G1 in *.
  eapply nf_bind; [apply (nf_add_sec md v v x _ _ _ _ B); lia|]. intros x1 _ B1.
  eapply nf_bind; [apply (nf_fract_secs md f 1 x1 _ _ _ _ F ltac:(lia) B1); lia|]. intros x2 _ B2.
  apply K. unfold Bu, Y1, H1, R1, G1. close B2.
Qed.
Lemma digits_pair v : 0 <= v <= 1000000 -> 0 <= Z.quot v 10000 <= v /\ 0 <= Z.rem (Z.quot v 100) 100 <= v /\ 0 <= Z.rem v 100 <= v.
Proof.
  intros V. rewrite !Z.quot_div_nonneg, !Z.rem_mod_nonneg by (try apply Z.div_pos; lia).
  pose proof (Z.mod_pos_bound v 100 ltac:(lia)). pose proof (Z.mod_pos_bound (v / 100) 100 ltac:(lia)).
  pose proof (Z.mod_le v 100 ltac:(lia) ltac:(lia)).
  assert (0 <= v / 100) by (apply Z.div_pos; lia). pose proof (Z.mod_le (v / 100) 100 ltac:(lia) ltac:(lia)).
  assert (v / 100 <= v) by (apply Z.div_le_upper_bound; lia). assert (v / 10000 <= v) by (apply Z.div_le_upper_bound; lia).
  assert (0 <= v / 10000) by (apply Z.div_pos; lia). lia.
Qed.
Lemma pay_ymd {A} md v f m n x (P : A -> Prop) k : Bu m x -> paid m n v f -> (forall x, Bu n x -> nf P (k x)) ->
  nf P (let* x := add_year md (Z.quot v 10000) x in let* x := add_mon md (Z.rem (Z.quot v 100) 100) x in
        let* x := add_mday md (Z.rem v 100) x in let* x := fract_secs md f SECS_PER_DAY x in k x).
Proof.
  intros [L B] (V & S & V1 & N & F) K. unfold Y1, H1, R1, G1 in *.
  destruct (digits_pair v ltac:(lia)) as (D1 & D2 & D3).
  set (a := Z.quot v 10000) in *. set (b := Z.rem (Z.quot v 100) 100) in *. set (c := Z.rem v 100) in *. clearbody a b c.
  eapply nf_bind; [apply (nf_add_year md a v x _ _ _ _ B); lia|]. intros x1 _ B1.
  eapply nf_bind; [apply (nf_add_mon md b v x1 _ _ _ _ B1); lia|]. intros x2 _ B2.
  eapply nf_bind; [apply (nf_add_mday md c v x2 _ _ _ _ B2); lia|]. intros x3 _ B3.
  eapply nf_bind; [apply (nf_fract_secs md f 86400 x3 _ _ _ _ F ltac:(lia) B3); lia|]. intros x4 _ B4.
  apply K. unfold Bu, Y1, H1, R1, G1. close B4.
Qed.
Lemma pay_hms md v f m n x : Bu m x -> paid m n v f ->
  nf Fin (let* x := add_hour md (Z.quot v 10000) x in let* x := add_min md (Z.rem (Z.quot v 100) 100) x in
        let* x := add_sec md (Z.rem v 100) x in fract_secs md f 1 x).
Proof.
  intros [L B] (V & S & V1 & N & F). unfold Y1, H1, R1, G1 in *.
  destruct (digits_pair v ltac:(lia)) as (D1 & D2 & D3).
  set (a := Z.quot v 10000) in *. set (b := Z.rem (Z.quot v 100) 100) in *. set (c := Z.rem v 100) in *. clearbody a b c.
  eapply nf_bind; [apply (nf_add_hour md a v x _ _ _ _ B); lia|]. intros x1 _ B1.
  eapply nf_bind; [apply (nf_add_min md b v x1 _ _ _ _ B1); lia|]. intros x2 _ B2.
  eapply nf_bind; [apply (nf_add_sec md c v x2 _ _ _ _ B2); lia|]. intros x3 _ B3.
  eapply nf_imp; [apply (nf_fract_secs md f 1 x3 _ _ _ _ F ltac:(lia) B3); lia|]. intros x4 _ B4.
  unfold Fin, Y1, H1, R1, G1. apply (Bd_le _ _ _ _ _ _ _ _ _ B4); lia.
Qed.
Lemma nf_date_left md s u h v f x m : Bu m x -> paid m (sig s) v f -> short_numbers s ->
  nf (fun p => match snd p with None => Fin (fst p) | Some s' => Bu (sig s') (fst p) /\ suffix s' s end) (decode_date_part_left md s u h v f x).
Proof.
  intros B Pd S. unfold decode_date_part_left. destruct h; [exact I|].
  apply (pay_year md v f m (sig s) x _ _ B Pd). clear x B Pd. intros x B.
  destruct (u =? 0); [exact (Bu_fin _ _ B)|]. destruct (u =? 84); [split; [exact B|apply suffix_refl]|].
  eapply nf_bind; [apply nf_iso_paid, S|]. intros [[v1 f1] r1] _ [Pd Sf]. cbn [fst snd] in *.
  apply (pay_mon md v1 f1 _ _ x _ _ B Pd). clear x B Pd. intros x B.
  destruct r1 as [|c r1]; [exact (Bu_fin _ _ B)|]. destruct (c =? 84); [split; [exact B|exact Sf]|].
  destruct (negb _); [exact I|]. apply suffix_cons in Sf. pose proof (short_suf _ _ Sf S) as S1.
  assert (Bu (sig r1) x) as B1 by (apply (Bu_le _ _ _ B); rewrite sig_cons; lia).
  eapply nf_bind; [apply nf_iso_paid, S1|]. intros [[v2 f2] r2] _ [Pd Sf2]. cbn [fst snd] in *.
  apply (pay_day md v2 f2 _ _ x _ _ B1 Pd). clear x B B1 Pd. intros x B.
  destruct r2 as [|c2 r2]; [exact (Bu_fin _ _ B)|]. destruct (c2 =? 84); [|exact I]. split; [exact B|exact (suffix_trans _ _ _ Sf2 Sf)].
Qed.
Lemma nf_time_left md s u h v f x m : Bu m x -> paid m (sig s) v f -> short_numbers s ->
  nf Fin (decode_time_part_left md s u h v f x).
Proof.
  intros B Pd S. unfold decode_time_part_left. destruct h; [exact I|].
  apply (pay_hour md v f m (sig s) x _ _ B Pd). clear x B Pd. intros x B.
  destruct (u =? 0); [exact (Bu_fin _ _ B)|].
  eapply nf_bind; [apply nf_iso_paid, S|]. intros [[v1 f1] r1] _ [Pd Sf]. cbn [fst snd] in *.
  apply (pay_min md v1 f1 _ _ x _ _ B Pd). clear x B Pd. intros x B.
  destruct r1 as [|c r1]; [exact (Bu_fin _ _ B)|].
  destruct (negb _); [exact I|]. apply suffix_cons in Sf. pose proof (short_suf _ _ Sf S) as S1.
  assert (Bu (sig r1) x) as B1 by (apply (Bu_le _ _ _ B); rewrite sig_cons; lia).
  eapply nf_bind; [apply nf_iso_paid, S1|]. intros [[v2 f2] r2] _ [Pd Sf2]. cbn [fst snd] in *.
  apply (pay_sec md v2 f2 _ _ x _ _ B1 Pd). clear x B B1 Pd. intros x B.
  destruct r2 as [|c2 r2]; [exact (Bu_fin _ _ B)|exact I].
Qed.
Lemma nf_iso_loop md fuel : forall s d h x, short_numbers s -> Bu (sig s) x -> nf Fin (iso_loop md fuel s d h x).
Proof.
  induction fuel as [|fuel IH]; intros s d h x S B; [discriminate|]. cbn [iso_loop]. destruct s as [|c s]; [exact (Bu_fin _ _ B)|].
  assert (short_numbers s) as S' by exact (short_suffix [c] s S).
  destruct (c =? 84); [apply IH; [exact S'|apply (Bu_le _ _ _ B); rewrite sig_cons; lia]|]. cbv zeta.
  eapply nf_bind; [apply nf_iso_paid, S|]. intros [[v f] r] _ [Pd Sf]. cbn [fst snd] in *.
  set (p := match r with [] => (0, []) | c :: r => (c, r) end).
  assert (paid (sig (c :: s)) (sig (snd p)) v f /\ short_numbers (snd p)) as [Pd' Sp].
  { unfold p. destruct r as [|c2 r]; cbn [snd].
    - split; [exact Pd|]. exact (short_suf _ _ Sf S).
    - split; [|exact (short_suf _ _ (suffix_cons _ _ _ Sf) S)]. destruct Pd as (P1 & P2 & P3 & P4 & P5). rewrite (sig_cons c2) in *.
      unfold paid. repeat split; auto; lia. }
  clear Pd. destruct p as [u s2]. cbn [snd] in *.
  assert (forall d h x, Bu (sig s2) x -> nf Fin (iso_loop md fuel s2 d h x)) as Nx by (intros; now apply IH).
  assert (nf Fin (let* q := decode_date_part_left md s2 u h v f x in
    match q with (x0, None) => Ok x0 | (x0, Some s0) => iso_loop md fuel s0 false false x0 end)) as Lf.
  { eapply nf_bind; [apply (nf_date_left md s2 u h v f x _ B Pd' Sp)|]. intros [x' [s'|]] _; cbn [fst snd]; [|intros K; exact K].
    intros [B' Sf']. apply IH; [exact (short_suf _ _ Sf' Sp)|exact B']. }
  pose proof (nf_time_left md s2 u h v f x _ B Pd' Sp) as Lt.
  destruct d.
  - destruct (u =? 89); [apply (pay_year md v f _ _ x _ _ B Pd'); auto|].
    destruct (u =? 77); [apply (pay_mon md v f _ _ x _ _ B Pd'); auto|].
    destruct (u =? 87); [apply (pay_week md v f _ _ x _ _ B Pd'); auto|].
    destruct (u =? 68); [apply (pay_day md v f _ _ x _ _ B Pd'); auto|].
    destruct ((u =? 84) || (u =? 0)).
    + destruct (_ && negb h); [|exact Lf]. apply (pay_ymd md v f _ _ x _ _ B Pd'). intros x' B'.
      destruct (u =? 0); [exact (Bu_fin _ _ B')|auto].
    + destruct (u =? 45); [exact Lf|exact I].
  - destruct (u =? 72); [apply (pay_hour md v f _ _ x _ _ B Pd'); auto|].
    destruct (u =? 77); [apply (pay_min md v f _ _ x _ _ B Pd'); auto|].
    destruct (u =? 83); [apply (pay_sec md v f _ _ x _ _ B Pd'); auto|].
    destruct (u =? 0).
    + destruct (_ && negb h); [exact (pay_hms md v f _ _ x B Pd')|exact Lt].
    + destruct (u =? 58); [exact Lt|exact I].
Qed.
Lemma nf_iso md s x : (sig s <= 128)%nat -> short_numbers s -> Trad x -> nf Fin (decode_iso8601_interval md s x).
Proof.
  intros L S B. unfold decode_iso8601_interval. cbv zeta. destruct s as [|c [|c2 s]]; try exact I. destruct (c =? 80); [|exact I].
  apply nf_iso_loop; [exact (short_suffix [c] _ S)|]. assert (sig (c2 :: s) <= 128)%nat as L2 by (rewrite sig_cons in L; lia).
  split; [exact L2|]. change (fst x, 0) with (s_fsec 0 x). unfold Y1, H1, R1, G1. set (n := sig (c2 :: s)) in *. clearbody n. clear L.
  apply Bd_fsec; [unfold Trad in B; bdle|lia].
Qed.

(** ** The whole parser *)
Lemma trunc_abs v k : 0 < k -> Z.abs (trunc_to v k) <= Z.abs v.
Proof.
  intros K. unfold trunc_to. rewrite Z.abs_mul, <- Z.quot_abs by lia. rewrite (Z.abs_eq k) by lia.
  rewrite Z.quot_div_nonneg by lia. rewrite Z.mul_comm. apply Z.mul_div_le. lia.
Qed.
Definition TB := 200000000000000000.
Lemma nf_from_pgtime md x : Fin x -> nf (fun a => Z.abs (iv_time a) <= TB) (interval_from_pgtime md (fst x) (snd x)).
Proof.
  intros B. unfold interval_from_pgtime. cbv zeta. destruct (fgt _ _ || flt _ _); [exact I|].
  unfold Fin, Bd, Y1, H1, R1, G1 in B. destruct B as (_ & _ & _ & B4 & B5 & B6 & B7).
  unfold USECS_PER_SEC. repeat nfs. cbn [nf from_mdt iv_time]. unfold TB. lia.
Qed.
Lemma nf_adjust md a tm : Z.abs (iv_time a) <= TB -> nf (fun _ => True) (interval_adjust_by_typmod md a tm).
Proof.
  intros B. unfold interval_adjust_by_typmod. destruct (0 <=? tm); [|exact I].
  eapply (nf_bind (fun b => Z.abs (iv_time b) <= TB)).
  - assert (forall k, 0 < k -> Z.abs (trunc_to (iv_time a) k) <= TB) as T.
    { intros k K. pose proof (trunc_abs (iv_time a) k K). lia. }
    repeat match goal with |- nf _ (if ?b then _ else _) => destruct b end; cbn [nf from_mdt iv_time]; auto;
      first [exact B|apply T; reflexivity|unfold TB; lia|exact I].
  - intros b _ Bb. destruct (negb _); [|exact I]. destruct (_ || _) eqn:P; [exact I|].
    eapply nf_bind; [apply nf_round_scale; [lia|unfold i64_max, TB in *; lia]|]. intros. exact I.
Qed.
Theorem nf_interval s : (sig s <= 128)%nat -> short_numbers s -> forall md tm st, nf (fun _ => True) (interval_try_from_str md s tm st).
Proof.
  intros L S md tm st. unfold interval_try_from_str. cbv zeta. eapply nf_bind; [apply nf_parse, L|]. intros ts E _.
  assert (Forall (fun t => short_numbers (snd t)) ts) as F.
  { pose proof (parse_lexed s ts E) as Lx. rewrite Forall_forall. intros t It. now apply (field_short s ts). }
  set (range := if 0 <=? tm then _ else _). clearbody range.
  destruct (ns_trad md ts range st 0 F (parse_len s ts E)) as [T N].
  destruct (decode_interval md ts range st (tm_new, 0)) as [x r]. cbn [fst snd] in T, N.
  apply (nf_bind (fun p => Fin (fst p))).
  - assert (Fin x) as Fx by (unfold Trad, Fin, Y1, H1, R1, G1 in *; bdle).
    destruct r as [k|[]|f]; try exact I; try exact Fx; [|exact N].
    eapply nf_bind; [apply (nf_iso md s x L S T)|]. intros x' _ Fx'. exact Fx'.
  - intros [x' k] _ Fx. cbn [fst] in Fx. eapply (nf_bind (fun a => Z.abs (iv_time a) <= TB)).
    + destruct k; try exact I. now apply nf_from_pgtime.
    + intros a _ Ba. now apply nf_adjust.
Qed.
