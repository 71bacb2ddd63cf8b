(** How the age changes with its arguments. *)
From Coq Require Import ZArith Lia.
From Verif Require Import Model.DateTime Spec.Calendar Spec.Ranges Spec.Clock Spec.Shift Spec.IntervalS
  Proofs.Arith Proofs.Cal Proofs.AddP Proofs.TsP Proofs.AgeP Proofs.AgeBackP.
Open Scope Z_scope.

(** An instant by month number, day and time of day. *)
Definition at_mdt (t n d c : Z) : Prop :=
  t = (m0 n + d - 2451545) * usecs_day + c /\ 1 <= d <= ml n /\ 0 <= c < usecs_day.

Lemma at_mdt_ex (md : mode) t : valid_ts t -> exists n d c, at_mdt t n d c /\
  exists y m h mi s us, 1 <= m <= 12 /\ n = 12 * y + (m - 1) /\ c = clock h mi s us /\
    reading (y, m, d) h mi s us t.
Proof.
  intros V. destruct (ts2t_reading md t V) as ([[y m] d] & h & mi & s & us & _ & R).
  pose proof (reading_instant _ _ _ _ _ _ R) as I. pose proof R as ((Vm & Vd) & C & _).
  pose proof (clock_bounds _ _ _ _ C) as CB. destruct (m0_ym y m Vm) as [P1 P2].
  exists (12 * y + (m - 1)), d, (clock h mi s us). split.
  - unfold at_mdt. rewrite P1, P2. unfold instant in I. rewrite J_day in I. repeat split; try lia.
  - exists y, m, h, mi, s, us. repeat split; auto; try lia; apply R.
Qed.
Lemma at_mdt_le t n d c t' n' d' c' : at_mdt t n d c -> at_mdt t' n' d' c' ->
  (t <= t' <-> n < n' \/ n = n' /\ (d < d' \/ d = d' /\ c <= c')).
Proof.
  intros (-> & D & C) (-> & D' & C').
  assert (n < n' \/ n = n' \/ n' < n) as [N|[->|N]] by lia.
  - pose proof (m0_next n). assert (m0 (n + 1) <= m0 n') as M
      by (pose proof (m0_far (n + 1) (n' - (n + 1))) as F; replace (n + 1 + (n' - (n + 1))) with n' in F by lia; lia).
    unfold usecs_day in *. split; [intros _; lia|]. intros _. lia.
  - unfold usecs_day in *. lia.
  - pose proof (m0_next n'). assert (m0 (n' + 1) <= m0 n) as M
      by (pose proof (m0_far (n' + 1) (n - (n' + 1))) as F; replace (n' + 1 + (n - (n' + 1))) with n in F by lia; lia).
    unfold usecs_day in *. split; lia.
Qed.
(** The age of a later instant. *)
Lemma age_mdt md a b r n1 d1 c1 n2 d2 c2 : valid_ts a -> valid_ts b -> b <= a ->
  timestamp_age md a b = Ok r -> at_mdt a n1 d1 c1 -> at_mdt b n2 d2 c2 ->
  0 <= iv_time r < usecs_day /\ 0 <= iv_day r <= 30 /\ 0 <= iv_month r /\
  exists e, (e = 0 /\ (d2 < d1 \/ d2 = d1 /\ c2 <= c1) \/ e = 1 /\ (d1 < d2 \/ d1 = d2 /\ c1 < c2)) /\
    iv_month r = n1 - n2 - e /\
    iv_day r * usecs_day + iv_time r = (d1 - d2 + e * ml n2) * usecs_day + (c1 - c2).
Proof.
  intros Va Vb L E A B.
  destruct (at_mdt_ex md a Va) as (n1' & d1' & c1' & A' & y1 & m1 & h1 & mi1 & s1 & us1 & M1 & N1 & C1 & R1).
  destruct (at_mdt_ex md b Vb) as (n2' & d2' & c2' & B' & y2 & m2 & h2 & mi2 & s2 & us2 & M2 & N2 & C2 & R2).
  assert (n1' = n1 /\ d1' = d1 /\ c1' = c1) as (-> & -> & ->).
  { pose proof (proj1 (at_mdt_le _ _ _ _ _ _ _ _ A A') (Z.le_refl _)).
    pose proof (proj1 (at_mdt_le _ _ _ _ _ _ _ _ A' A) (Z.le_refl _)). lia. }
  assert (n2' = n2 /\ d2' = d2 /\ c2' = c2) as (-> & -> & ->).
  { pose proof (proj1 (at_mdt_le _ _ _ _ _ _ _ _ B B') (Z.le_refl _)).
    pose proof (proj1 (at_mdt_le _ _ _ _ _ _ _ _ B' B) (Z.le_refl _)). lia. }
  destruct (age_ok md a b Va Vb) as (r' & X & BD & BM & E').
  rewrite E in E'. destruct (Z.ltb_spec a b); [lia|]. injection E' as <-.
  rewrite Z.max_l, Z.min_r in X by lia.
  destruct X as (y1' & m1' & d1' & h1' & mi1' & s1' & us1' & y2' & m2' & d2' & h2' & mi2' & s2' & us2' & R1' & R2' & X).
  destruct (reading_unique _ _ _ _ _ _ _ _ _ _ _ R1 R1') as (Ee & <- & <- & <- & <-). injection Ee as <- <- <-.
  destruct (reading_unique _ _ _ _ _ _ _ _ _ _ _ R2 R2') as (Ee & <- & <- & <- & <-). injection Ee as <- <- <-.
  cbv zeta in X. rewrite <- C1, <- C2 in X. destruct X as (BT & BD' & X).
  rewrite <- (proj2 (m0_ym y2 m2 M2)), <- N2 in X.
  split; [exact BT|]. split; [exact BD|]. split; [lia|].
  destruct A as (_ & _ & K1). destruct B as (_ & _ & K2).
  destruct (Z.ltb_spec ((d1 - d2) * usecs_day + (c1 - c2)) 0) as [N|N]; destruct X as [EM ED].
  - exists 1. split; [right; split; [reflexivity|unfold usecs_day in *; lia]|]. split; [lia|]. unfold usecs_day in *. lia.
  - exists 0. split; [left; split; [reflexivity|unfold usecs_day in *; lia]|]. split; [lia|]. unfold usecs_day in *. lia.
Qed.
(** The age in either order. *)
Lemma age_swap md a b r : valid_ts a -> valid_ts b -> timestamp_age md a b = Ok r ->
  timestamp_age md b a = Ok (from_mdt (- iv_month r) (- iv_day r) (- iv_time r)).
Proof.
  intros Va Vb E. destruct (age_ok md a b Va Vb) as (x & D & _ & _ & E1).
  destruct (age_ok md b a Vb Va) as (x' & D' & _ & _ & E2).
  rewrite (Z.max_comm b a), (Z.min_comm b a) in D'.
  pose proof (calendar_distance_unique _ _ _ _ D D') as <-. rewrite E in E1.
  destruct (Z.ltb_spec a b), (Z.ltb_spec b a); try lia; injection E1 as ->; rewrite E2.
  - cbn [from_mdt iv_month iv_day iv_time]. rewrite !Z.opp_involutive. destruct x; reflexivity.
  - reflexivity.
  - assert (a = b) by lia. subst b. rewrite Z.max_id, Z.min_id in D.
    destruct D as (y1 & m1 & d1 & h1 & mi1 & s1 & us1 & y2 & m2 & d2 & h2 & mi2 & s2 & us2 & R1 & R2 & B & C & H1).
    destruct (reading_unique _ _ _ _ _ _ _ _ _ _ _ R1 R2) as (Ee & -> & -> & -> & ->). injection Ee as -> -> ->.
    replace ((d2 - d2) * usecs_day + (clock h2 mi2 s2 us2 - clock h2 mi2 s2 us2)) with 0 in H1 by lia.
    cbv zeta in H1. cbn [Z.ltb Z.compare] in H1. destruct x as [t d m]. cbn [iv_month iv_day iv_time] in *.
    unfold from_mdt, usecs_day in *. f_equal. f_equal; lia.
Qed.

(** Ages over the same instant [b], not before it. *)
Lemma age_grow_late md a a' b r r' : valid_ts a -> valid_ts a' -> valid_ts b -> b <= a -> a <= a' ->
  timestamp_age md a b = Ok r -> timestamp_age md a' b = Ok r' ->
  iv_month r <= iv_month r' /\ span_of r < span_of r' + 3 * usecs_day.
Proof.
  intros Va Va' Vb L L' E E'.
  destruct (at_mdt_ex md a Va) as (n1 & d1 & c1 & A & _).
  destruct (at_mdt_ex md a' Va') as (n1' & d1' & c1' & A' & _).
  destruct (at_mdt_ex md b Vb) as (n2 & d2 & c2 & B & _).
  destruct (age_mdt md a b r _ _ _ _ _ _ Va Vb L E A B) as (T & D & M & e & He & EM & ED).
  destruct (age_mdt md a' b r' _ _ _ _ _ _ Va' Vb (Z.le_trans _ _ _ L L') E' A' B) as (T' & D' & M' & e' & He' & EM' & ED').
  pose proof (proj1 (at_mdt_le _ _ _ _ _ _ _ _ A A') L') as LE.
  destruct A as (_ & BD & BC). destruct A' as (_ & BD' & BC'). destruct B as (_ & BD2 & BC2).
  pose proof (ml_bounds n1). pose proof (ml_bounds n1'). pose proof (ml_bounds n2).
  split; [lia|]. unfold span_of, span.
  destruct He as [[-> He]|[-> He]], He' as [[-> He']|[-> He']]; unfold usecs_day in *; lia.
Qed.
(** Ages of the same instant [a], not before the second argument. *)
Lemma age_grow_early md a b b' r r' : valid_ts a -> valid_ts b -> valid_ts b' -> b <= a -> b' <= b ->
  timestamp_age md a b = Ok r -> timestamp_age md a b' = Ok r' ->
  iv_month r <= iv_month r' /\ span_of r < span_of r' + 3 * usecs_day.
Proof.
  intros Va Vb Vb' L L' E E'.
  destruct (at_mdt_ex md a Va) as (n1 & d1 & c1 & A & _).
  destruct (at_mdt_ex md b' Vb') as (n2' & d2' & c2' & B' & _).
  destruct (at_mdt_ex md b Vb) as (n2 & d2 & c2 & B & _).
  destruct (age_mdt md a b r _ _ _ _ _ _ Va Vb L E A B) as (T & D & M & e & He & EM & ED).
  destruct (age_mdt md a b' r' _ _ _ _ _ _ Va Vb' (Z.le_trans _ _ _ L' L) E' A B') as (T' & D' & M' & e' & He' & EM' & ED').
  pose proof (proj1 (at_mdt_le _ _ _ _ _ _ _ _ B' B) L') as LE.
  destruct A as (_ & BD & BC). destruct B' as (_ & BD' & BC'). destruct B as (_ & BD2 & BC2).
  pose proof (ml_bounds n1). pose proof (ml_bounds n2'). pose proof (ml_bounds n2).
  split; [lia|]. unfold span_of, span.
  assert (n2' = n2 -> ml n2' = ml n2) by (now intros ->).
  destruct He as [[-> He]|[-> He]], He' as [[-> He']|[-> He']]; unfold usecs_day in *; lia.
Qed.
Lemma age_nonneg md a b r : valid_ts a -> valid_ts b -> b <= a -> timestamp_age md a b = Ok r ->
  0 <= iv_month r /\ 0 <= span_of r.
Proof.
  intros Va Vb L E. destruct (at_mdt_ex md a Va) as (n1 & d1 & c1 & A & _).
  destruct (at_mdt_ex md b Vb) as (n2 & d2 & c2 & B & _).
  destruct (age_mdt md a b r _ _ _ _ _ _ Va Vb L E A B) as (T & D & M & _).
  split; [exact M|]. unfold span_of, span, usecs_day. lia.
Qed.
Lemma age_grow md a a' b r r' : valid_ts a -> valid_ts a' -> valid_ts b -> a <= a' ->
  timestamp_age md a b = Ok r -> timestamp_age md a' b = Ok r' ->
  iv_month r <= iv_month r' /\ span_of r < span_of r' + 3 * usecs_day.
Proof.
  intros Va Va' Vb L E E'. destruct (Z.le_gt_cases b a) as [H|H];
    [exact (age_grow_late md a a' b r r' Va Va' Vb H L E E')|].
  pose proof (age_swap md a b r Va Vb E) as S.
  assert (iv_month r <= 0 /\ span_of r <= 0) as [N1 N2].
  { destruct (age_nonneg md b a _ Vb Va ltac:(lia) S) as [P1 P2].
    unfold span_of, span in *. cbn [from_mdt iv_month iv_day iv_time] in *. lia. }
  destruct (Z.le_gt_cases b a') as [H'|H'].
  - destruct (age_nonneg md a' b _ Va' Vb H' E'). unfold usecs_day. lia.
  - pose proof (age_swap md a' b r' Va' Vb E') as S'.
    destruct (age_grow_early md b a' a _ _ Vb Va' Va ltac:(lia) L S' S) as [P1 P2].
    unfold span_of, span in *. cbn [from_mdt iv_month iv_day iv_time] in *. lia.
Qed.
(** In months of 31 days nothing is lost. *)
Lemma age_grow_31 md a a' b r r' n2 d2 c2 : valid_ts a -> valid_ts a' -> valid_ts b -> b <= a -> a <= a' ->
  at_mdt b n2 d2 c2 -> ml n2 = 31 -> timestamp_age md a b = Ok r -> timestamp_age md a' b = Ok r' ->
  iv_month r < iv_month r' \/ iv_month r = iv_month r' /\
    (iv_day r < iv_day r' \/ iv_day r = iv_day r' /\ iv_time r <= iv_time r').
Proof.
  intros Va Va' Vb L L' B M31 E E'.
  destruct (at_mdt_ex md a Va) as (n1 & d1 & c1 & A & _).
  destruct (at_mdt_ex md a' Va') as (n1' & d1' & c1' & A' & _).
  destruct (age_mdt md a b r _ _ _ _ _ _ Va Vb L E A B) as (T & D & M & e & He & EM & ED).
  destruct (age_mdt md a' b r' _ _ _ _ _ _ Va' Vb (Z.le_trans _ _ _ L L') E' A' B) as (T' & D' & M' & e' & He' & EM' & ED').
  pose proof (proj1 (at_mdt_le _ _ _ _ _ _ _ _ A A') L') as LE.
  destruct A as (_ & BD & BC). destruct A' as (_ & BD' & BC'). destruct B as (_ & BD2 & BC2).
  pose proof (ml_bounds n1). pose proof (ml_bounds n1'). rewrite M31 in *.
  assert (iv_month r < iv_month r' \/ iv_month r = iv_month r' /\
    iv_day r * usecs_day + iv_time r <= iv_day r' * usecs_day + iv_time r') as [G|[G1 G2]].
  { destruct He as [[-> He]|[-> He]], He' as [[-> He']|[-> He']]; unfold usecs_day in *; lia. }
  - now left.
  - right. split; [exact G1|]. unfold usecs_day in *. lia.
Qed.
(** The months of an age count anniversaries. *)
Lemma age_anniversary md a b r n1 d1 c1 n2 d2 c2 k : valid_ts a -> valid_ts b -> b <= a ->
  timestamp_age md a b = Ok r -> at_mdt a n1 d1 c1 -> at_mdt b n2 d2 c2 ->
  let b' := (m0 (n2 + k) + Z.min d2 (ml (n2 + k)) - 2451545) * usecs_day + c2 in
  (k <= iv_month r -> b' <= a) /\ (b' <= a -> d2 <= ml (n2 + k) -> k <= iv_month r).
Proof.
  intros Va Vb L E A B. cbv zeta.
  destruct (age_mdt md a b r _ _ _ _ _ _ Va Vb L E A B) as (T & D & M & e & He & EM & ED).
  pose proof B as (_ & BD2 & BC2). pose proof (ml_bounds (n2 + k)).
  assert (at_mdt ((m0 (n2 + k) + Z.min d2 (ml (n2 + k)) - 2451545) * usecs_day + c2) (n2 + k) (Z.min d2 (ml (n2 + k))) c2) as B'
    by (unfold at_mdt; lia).
  pose proof (at_mdt_le _ _ _ _ _ _ _ _ B' A) as I. pose proof A as (_ & BD1 & _). split.
  - intros K. apply I. destruct (Z.eq_dec (n2 + k) n1) as [EN|]; [|left; lia].
    right. split; [exact EN|]. lia.
  - intros K K2. apply I in K. lia.
Qed.
