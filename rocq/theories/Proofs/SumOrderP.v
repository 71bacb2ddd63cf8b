(** Monotonicity of calendar sums. *)
From Verif Require Import Model.DateTime Spec.Calendar Spec.Ranges Spec.Clock Spec.Shift Spec.SumOrder
  Proofs.Arith Proofs.Cal Proofs.DateP Proofs.TsP Proofs.AddP.
From Coq Require Import ZArith Lia.
Open Scope Z_scope.

Lemma total_split a b : a < b -> a / 12 < b / 12 \/ a / 12 = b / 12 /\ a mod 12 < b mod 12.
Proof. intros. pose proof (Z.div_mod a 12 ltac:(lia)). pose proof (Z.div_mod b 12 ltac:(lia)).
  pose proof (Z.mod_pos_bound a 12 ltac:(lia)). pose proof (Z.mod_pos_bound b 12 ltac:(lia)). lia. Qed.

(** A later month stays later whatever the days. *)
Lemma add_months_later c c' k k' : valid_ymd c -> valid_ymd c' ->
  12 * fst (fst c) + snd (fst c) + k < 12 * fst (fst c') + snd (fst c') + k' -> ymd_lt (add_months c k) (add_months c' k').
Proof.
  destruct c as [[y m] d], c' as [[y' m'] d']. cbn [fst snd]. intros _ _ L.
  unfold add_months, ymd_lt. destruct (total_split (12 * y + (m - 1) + k) (12 * y' + (m' - 1) + k')); lia.
Qed.
Lemma add_months_mono c c' k : valid_ymd c -> valid_ymd c' -> ymd_le c c' -> ymd_le (add_months c k) (add_months c' k).
Proof.
  intros V V' [L| ->]; [|now right]. destruct c as [[y m] d], c' as [[y' m'] d'].
  destruct (Z.lt_ge_cases (12 * y + m) (12 * y' + m')) as [G|G].
  - left. apply add_months_later; auto. cbn [fst snd]. lia.
  - assert (y = y' /\ m = m' /\ d < d') as (<- & <- & D).
    { destruct V as [V _], V' as [V' _]. unfold ymd_lt in L. lia. }
    unfold add_months. set (t := 12 * y + (m - 1) + k). set (l := month_len _ _).
    destruct (Z.eq_dec (Z.min d l) (Z.min d' l)) as [->|N]; [now right|left]. unfold ymd_lt. lia.
Qed.
Lemma add_months_more c k k' : valid_ymd c -> k <= k' -> ymd_le (add_months c k) (add_months c k').
Proof.
  intros V L. destruct (Z.eq_dec k k') as [->|N]; [now right|left]. apply add_months_later; auto. lia.
Qed.
Lemma add_months_twice y m d j k : valid_ymd (y, m, d) -> d <= 28 ->
  add_months (add_months (y, m, d) j) k = add_months (y, m, d) (j + k).
Proof.
  intros [Vm Vd] D. unfold add_months.
  assert (L : forall y m, 1 <= m <= 12 -> 28 <= month_len y m).
  { intros a b [B1 B2]. unfold month_len. destruct (leap a); assert (b=1\/b=2\/b=3\/b=4\/b=5\/b=6\/b=7\/b=8\/b=9\/b=10\/b=11\/b=12) as Q by lia;
    repeat destruct Q as [->|Q]; try subst b; lia. }
  assert (forall t, 28 <= month_len (t / 12) (t mod 12 + 1)) as L2.
  { intros t. apply L. pose proof (Z.mod_pos_bound t 12 ltac:(lia)). lia. }
  set (t := 12 * y + (m - 1) + j).
  replace (12 * (t / 12) + (t mod 12 + 1 - 1) + k) with (t + k) by (pose proof (Z.div_mod t 12 ltac:(lia)); lia).
  replace (12 * y + (m - 1) + (j + k)) with (t + k) by (unfold t; lia).
  pose proof (L2 t). pose proof (L2 (t + k)). f_equal. lia.
Qed.

Lemma day_le c c' n n' : valid_ymd c -> valid_ymd c' -> day_number c n -> day_number c' n' -> (n <= n' <-> ymd_le c c').
Proof.
  intros V V' D D'. apply day_number_J in D; auto. apply day_number_J in D'; auto.
  pose proof (J_lt_iff c c' V V') as Q. pose proof (J_lt_iff c' c V' V) as Q'. unfold ymd_le. split; intros H.
  - destruct (ymd_trichotomy c c') as [T|[T|T]]; auto. apply Q' in T. lia.
  - destruct H as [H|H]; [apply Q in H; lia|subst; lia].
Qed.
Lemma clock_day h mi s us : clock_ok h mi s us -> 0 <= clock h mi s us < usecs_day.
Proof. unfold clock_ok, clock, usecs_day. lia. Qed.

Lemma sum_ok md t months days time r : in_i32 months -> in_i32 days -> in_i64 time ->
  calendar_sum t months days time r -> timestamp_add_interval md t (from_mdt months days time) = Ok r.
Proof.
  intros Hm Hd Ht (c & h & mi & s & us & t1 & R & R1 & V & V1 & V2 & V3 & ->).
  pose proof (add_interval_ok md c h mi s us t months days time V Hm Hd Ht R) as Q. cbn zeta in Q.
  assert (instant (add_months c months) (clock h mi s us) = t1) as <- by (symmetry; now apply reading_instant).
  now apply Q.
Qed.

(** Sums of ordered instants: at most the time of day can be out of order. *)
Lemma sum_days a b months days time ra rb : calendar_sum a months days time ra -> calendar_sum b months days time rb ->
  a / usecs_day <= b / usecs_day ->
  exists x y, 0 <= y /\ ra = rb - y * usecs_day + x /\ x = a mod usecs_day - b mod usecs_day.
Proof.
  intros (c & h & mi & s & us & t1 & (V & C & n & N & ->) & (V1 & _ & n1 & N1 & ->) & _ & _ & _ & _ & ->)
         (c' & h' & mi' & s' & us' & t1' & (V' & C' & n' & N' & ->) & (V1' & _ & n1' & N1' & ->) & _ & _ & _ & _ & ->) L.
  pose proof (clock_day _ _ _ _ C). pose proof (clock_day _ _ _ _ C').
  set (k := clock h mi s us) in *. set (k' := clock h' mi' s' us') in *.
  assert (Q : forall q r, 0 <= r < usecs_day -> (q * usecs_day + r) / usecs_day = q /\ (q * usecs_day + r) mod usecs_day = r).
  { intros q r B. split; symmetry; [apply (Z.div_unique_pos _ _ _ r)|apply (Z.mod_unique_pos _ _ q)]; lia. }
  destruct (Q n k) as [Q1 Q2]; auto. destruct (Q n' k') as [Q3 Q4]; auto. rewrite Q1, Q3 in L. rewrite Q2, Q4.
  assert (n1 <= n1').
  { apply (day_le (add_months c months) (add_months c' months)); auto. apply add_months_mono; auto. apply (day_le c c' n n'); auto. }
  exists (k - k'), (n1' - n1). lia.
Qed.
