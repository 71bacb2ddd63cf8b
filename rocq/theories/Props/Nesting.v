(** Truncations nest and keep the parts of coarser units: C70. *)
From Verif Require Import Model.DateTime Spec.Calendar Spec.Ranges Spec.Clock Spec.Units
  Proofs.Cal Proofs.DateP Proofs.TsP Proofs.AddP Proofs.TruncP Proofs.WeekP Proofs.PartsP Props.Units.
From Coq Require Import ZArith List Lia.
Import List ListNotations.
Open Scope Z_scope.

Lemma consists_start coarse fine b : consists_of coarse fine -> is_start coarse b -> is_start fine b.
Proof.
  intros [R D] (y & m & d & h & mi & s & us & Rd & S). exists y, m, d, h, mi, s, us. split; [exact Rd|].
  destruct fine, coarse; cbn [unit_rank] in *; try contradiction; try lia;
    try (destruct (D eq_refl) as [Q|[Q Q']]; discriminate); cbn zeta in *; intuition (subst; auto; try lia; try reflexivity).
Qed.
Lemma consists_unit coarse fine : consists_of coarse fine -> In coarse c13_units /\ In fine c13_units.
Proof. intros [R _]. unfold c13_units. destruct coarse, fine; cbn [unit_rank] in R; try lia; cbn; tauto. Qed.

(** Truncating in two steps is truncating in one. *)
Theorem C70_nested : forall md t coarse fine r q, valid_ts t -> consists_of coarse fine ->
  timestamp_truncate md t FTUnit fine = Ok r ->
  (timestamp_truncate md r FTUnit coarse = Ok q <-> timestamp_truncate md t FTUnit coarse = Ok q).
Proof.
  intros md t coarse fine r q V C E. destruct (consists_unit _ _ C) as [Uc Uf].
  apply truncate_inv in E as [(S & L & M) Vr]; auto.
  destruct (C13_truncate md t coarse V Uc) as (x & Lx & Kx & Kx').
  destruct (C13_truncate md r coarse Vr Uc) as (z & Lz & Kz & Kz').
  assert (z = x) as ->.
  { apply (latest_unique coarse r); auto. destruct Lx as (Sx & Lx & Mx). split; [exact Sx|]. split.
    - apply M; auto. now apply (consists_start coarse).
    - intros b Sb Lb. apply Mx; auto. lia. }
  destruct (is_valid_timestamp x) eqn:VX.
  - apply is_valid_timestamp_spec in VX. now rewrite Kx, Kz by auto.
  - assert (~ valid_ts x) as NX by (rewrite <- is_valid_timestamp_spec, VX; discriminate).
    destruct (Kx' NX) as (e & ->), (Kz' NX) as (e' & ->). split; discriminate.
Qed.
Print Assumptions C70_nested.
(** Decades are not parts of centuries: 2000-01-01 starts a decade in the 20th century. *)
Theorem C70_decade_refuted : forall md, timestamp_truncate md (2000 * usecs_day) FTUnit Decade = Ok 0
  /\ timestamp_truncate md 0 FTUnit Century = Ok (-36159 * usecs_day)
  /\ timestamp_truncate md (2000 * usecs_day) FTUnit Century = Ok (366 * usecs_day).
Proof. intros []; vm_compute; auto. Qed.
Print Assumptions C70_decade_refuted.

(** Truncation changes none of the parts from that unit upwards. *)
Theorem C70_keeps : forall md t coarse fine r, valid_ts t -> consists_of coarse fine ->
  In coarse [Minute; Hour; Day; Month; Quarter; Year; Decade; Century; Millennium] ->
  timestamp_truncate md t FTUnit fine = Ok r ->
  timestamp_date_part md r FTUnit coarse = timestamp_date_part md t FTUnit coarse
  /\ exists v, timestamp_date_part md t FTUnit coarse = Ok (f64_of_Z v).
Proof.
  intros md t coarse fine r V C P E. destruct (consists_unit _ _ C) as [Uc Uf].
  apply truncate_inv in E as [L Vr]; auto.
  destruct (ts2t_reading md t V) as ([[y m] d] & h & mi & s & us & _ & R).
  destruct (floor_fields fine y m d h mi s us) as [[[[y0 m0] d0] [[[h0 mi0] s0] us0]]|] eqn:F.
  2: { exfalso. apply c13_unit in Uf. destruct fine; discriminate. }
  destruct (floor_latest _ _ _ _ _ _ _ _ _ _ _ _ _ _ R F) as (V0 & C0 & L0).
  rewrite (latest_unique _ _ _ _ L L0) in *. clear L L0 r.
  assert (R0 : reading (y0, m0, d0) h0 mi0 s0 us0 (instant (y0, m0, d0) (clock h0 mi0 s0 us0))) by now apply instant_reading.
  set (r := instant _ _) in *. pose proof R as (_ & _ & n & N & _). pose proof R0 as (_ & _ & n0 & N0 & _).
  pose proof (ts_parts md t y m d h mi s us n V R N) as Q. pose proof (ts_parts md r y0 m0 d0 h0 mi0 s0 us0 n0 Vr R0 N0) as Q0.
  destruct (parts_year md t _ _ _ _ _ _ _ V R) as (Y1 & Y2 & Y3 & Y4).
  destruct (parts_year md r _ _ _ _ _ _ _ Vr R0) as (Z1 & Z2 & Z3 & Z4).
  destruct Q as (A1 & A2 & A3 & A4 & A5 & _). destruct Q0 as (B1 & B2 & B3 & B4 & B5 & _). unfold exactly in *.
  destruct C as [RK D]. clear R R0 N N0 C0 V V0 Vr Uc Uf.
  assert (forall v w : Z, v = w -> timestamp_date_part md t FTUnit coarse = Ok (f64_of_Z v) ->
    timestamp_date_part md r FTUnit coarse = Ok (f64_of_Z w) -> timestamp_date_part md r FTUnit coarse = timestamp_date_part md t FTUnit coarse
  /\ exists v, timestamp_date_part md t FTUnit coarse = Ok (f64_of_Z v)) as G by (intros v w <- -> ->; eauto).
  cbn in P. repeat destruct P as [<-|P]; try contradiction; (eapply G; [|eassumption|eassumption]); clear - F RK D;
    destruct fine; cbn [unit_rank floor_fields] in *; try lia; try discriminate F;
    try (destruct (D eq_refl) as [Q|[Q Q']]; discriminate); injection F as <- <- <- <- <- <- <-; unfold api_year;
    repeat match goal with |- context [if ?b then _ else _] => destruct b eqn:? end; lia.
Qed.
Print Assumptions C70_keeps.

Lemma part_sizes y m : -4713 <= y <= 294276 -> 1 <= m <= 12 ->
  Z.abs ((m + 2) / 3) <= 9007199254740992 /\ Z.abs (y / 10) <= 9007199254740992
  /\ Z.abs (if y <=? 0 then y - 1 else y) <= 9007199254740992
  /\ Z.abs (if 0 <? y then (y + 99) / 100 else - ((100 - y) / 100)) <= 9007199254740992
  /\ Z.abs (if 0 <? y then (y + 999) / 1000 else - ((1000 - y) / 1000)) <= 9007199254740992.
Proof. intros Y M. destruct (0 <? y), (y <=? 0); repeat split; lia. Qed.

(** Grouping by the truncated value is grouping by the parts. *)
Theorem C70_groups : forall md t t' fine r r', valid_ts t -> valid_ts t' ->
  In fine [Minute; Hour; Day; Month; Quarter; Year; Decade; Century; Millennium] ->
  timestamp_truncate md t FTUnit fine = Ok r -> timestamp_truncate md t' FTUnit fine = Ok r' ->
  (r = r' <-> forall coarse, In coarse [Minute; Hour; Day; Month; Quarter; Year; Decade; Century; Millennium] ->
    consists_of coarse fine -> timestamp_date_part md t FTUnit coarse = timestamp_date_part md t' FTUnit coarse).
Proof.
  intros md t t' fine r r' V V' I E E'. split.
  - intros <- coarse P C. destruct (C70_keeps md t coarse fine r V C P E) as [<- _].
    now destruct (C70_keeps md t' coarse fine r V' C P E') as [<- _].
  - intros H. assert (In fine c13_units) as Uf by (unfold c13_units; cbn in *; intuition).
    apply truncate_inv in E as [L _]; auto. apply truncate_inv in E' as [L' _]; auto.
    destruct (ts2t_reading md t V) as ([[y m] d] & h & mi & s & us & _ & R).
    destruct (ts2t_reading md t' V') as ([[y' m'] d'] & h' & mi' & s' & us' & _ & R').
    assert (forall c k, floor_fields fine y m d h mi s us = Some (c, k) -> floor_fields fine y' m' d' h' mi' s' us' = Some (c, k) ->
      r = r') as G.
    { intros c [[[h0 mi0] s0] us0] F F'.
      destruct (floor_latest _ _ _ _ _ _ _ _ _ _ _ _ _ _ R F) as (_ & _ & L0).
      destruct (floor_latest _ _ _ _ _ _ _ _ _ _ _ _ _ _ R' F') as (_ & _ & L0').
      rewrite (latest_unique _ _ _ _ L L0), (latest_unique _ _ _ _ L' L0'). reflexivity. }
    pose proof R as (_ & _ & n & N & _). pose proof R' as (_ & _ & n' & N' & _).
    pose proof (ts_parts md t y m d h mi s us n V R N) as (A1 & A2 & A3 & A4 & A5 & _).
    pose proof (ts_parts md t' y' m' d' h' mi' s' us' n' V' R' N') as (B1 & B2 & B3 & B4 & B5 & _). unfold exactly in *.
    destruct (parts_year md t _ _ _ _ _ _ _ V R) as (Y1 & Y2 & Y3 & Y4).
    destruct (parts_year md t' _ _ _ _ _ _ _ V' R') as (Z1 & Z2 & Z3 & Z4).
    pose proof (reading_year_bounds _ _ _ _ _ _ R V) as (_ & Yb & _ & Mb & Db).
    pose proof (reading_year_bounds _ _ _ _ _ _ R' V') as (_ & Yb' & _ & Mb' & Db').
    assert (clock_ok h mi s us /\ clock_ok h' mi' s' us') as [Ck Ck'] by (destruct R as (_ & ? & _), R' as (_ & ? & _); auto).
    unfold clock_ok in Ck, Ck'. clear R R' L L' N N' V V' Uf.
    assert (K : forall u a b, consists_of u fine -> In u [Minute; Hour; Day; Month; Quarter; Year; Decade; Century; Millennium] ->
      timestamp_date_part md t FTUnit u = Ok (f64_of_Z a) -> timestamp_date_part md t' FTUnit u = Ok (f64_of_Z b) ->
      Z.abs a <= 2 ^ 53 -> Z.abs b <= 2 ^ 53 -> a = b).
    { intros u a b C P Ea Eb Ba Bb. specialize (H u P C). rewrite Ea, Eb in H. injection H as H. now apply C16_exact in H. }
    change (2 ^ 53) with 9007199254740992 in K.
    destruct (part_sizes y m Yb Mb) as (S1 & S2 & S3 & S4 & S5). destruct (part_sizes y' m' Yb' Mb') as (S1' & S2' & S3' & S4' & S5').
    unfold api_year in Y1, Z1.
    assert (consists_of Hour fine -> h = h') as K1 by (intros C; apply (K Hour h h' C); auto; [cbn; tauto|clear - Ck; lia|clear - Ck'; lia]).
    assert (consists_of Minute fine -> mi = mi') as K2 by (intros C; apply (K Minute mi mi' C); auto; [cbn; tauto|clear - Ck; lia|clear - Ck'; lia]).
    assert (consists_of Day fine -> d = d') as K3 by (intros C; apply (K Day d d' C); auto; [cbn; tauto|clear - Db; lia|clear - Db'; lia]).
    assert (consists_of Month fine -> m = m') as K4 by (intros C; apply (K Month m m' C); auto; [cbn; tauto|clear - Mb; lia|clear - Mb'; lia]).
    assert (consists_of Quarter fine -> (m + 2) / 3 = (m' + 2) / 3) as K5 by (intros C; apply (K Quarter _ _ C); auto; cbn; tauto).
    pose proof (fun C P => K Year _ _ C P Y1 Z1 S3 S3') as K6.
    pose proof (fun C P => K Decade _ _ C P Y2 Z2 S2 S2') as K7. pose proof (fun C P => K Century _ _ C P Y3 Z3 S4 S4') as K8.
    pose proof (fun C P => K Millennium _ _ C P Y4 Z4 S5 S5') as K9.
    assert (consists_of Year fine -> y = y') as K6'.
    { intros C. specialize (K6 C ltac:(cbn; tauto)). clear - K6. destruct (Z.leb_spec y 0), (Z.leb_spec y' 0); lia. }
    assert (consists_of Century fine -> (y - 1) / 100 = (y' - 1) / 100) as K8'.
    { intros C. specialize (K8 C ltac:(cbn; tauto)). clear - K8. destruct (Z.ltb_spec 0 y), (Z.ltb_spec 0 y'); lia. }
    assert (consists_of Millennium fine -> (y - 1) / 1000 = (y' - 1) / 1000) as K9'.
    { intros C. specialize (K9 C ltac:(cbn; tauto)). clear - K9. destruct (Z.ltb_spec 0 y), (Z.ltb_spec 0 y'); lia. }
    assert (consists_of Decade fine -> y / 10 = y' / 10) as K7' by (intros C; apply (K7 C); cbn; tauto).
    clear - K1 K2 K3 K4 K5 K6' K7' K8' K9' G I.
    cbn in I. repeat destruct I as [<-|I]; try contradiction; cbn [floor_fields] in G.
    all: repeat match goal with
      | Hk : consists_of ?u ?f -> _ |- _ =>
          first [ let C := fresh in assert (C : consists_of u f) by (split; [cbn; lia|intros Q; try discriminate Q; auto]);
                  specialize (Hk C); clear C
                | clear Hk ] end.
    all: apply (G _ _ eq_refl); clear G; repeat match goal with |- Some _ = Some _ => apply f_equal | |- (_, _) = (_, _) => apply f_equal2 end; try congruence; lia.
Qed.
Print Assumptions C70_groups.

(** 17 August 2019 and Month, Year *)
Example C70_case : consists_of Year Month /\ consists_of Millennium Century /\ consists_of Decade Year /\ ~ consists_of Century Decade
  /\ timestamp_truncate Debug (7168 * usecs_day + 5) FTUnit Month = Ok (7152 * usecs_day)
  /\ timestamp_truncate Debug (7152 * usecs_day) FTUnit Year = Ok (6940 * usecs_day)
  /\ timestamp_truncate Debug (7168 * usecs_day + 5) FTUnit Year = Ok (6940 * usecs_day).
Proof.
  unfold consists_of. repeat split; try (vm_compute; congruence); auto; try discriminate.
  intros [_ H]. destruct (H eq_refl) as [|[]]; discriminate.
Qed.
