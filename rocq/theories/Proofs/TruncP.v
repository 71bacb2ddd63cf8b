(** Timestamp truncation. *)
From Verif Require Import Model.DateTime Spec.Calendar Spec.Ranges Spec.Clock Spec.Units
  Proofs.Arith Proofs.Cal Proofs.DateP Proofs.TsP Proofs.AddP.
From Coq Require Import Lia.

(** Chronological order of readings is the lexicographic order of their fields. *)
Lemma reading_le c h mi s us t c' h' mi' s' us' b :
  reading c h mi s us t -> reading c' h' mi' s' us' b ->
  (b <= t <-> ymd_lt c' c \/ (c' = c /\ clock h' mi' s' us' <= clock h mi s us)).
Proof.
  intros R R'. pose proof (reading_instant _ _ _ _ _ _ R) as E. pose proof (reading_instant _ _ _ _ _ _ R') as E'.
  destruct R as (V & C & _), R' as (V' & C' & _).
  pose proof (clock_bounds _ _ _ _ C). pose proof (clock_bounds _ _ _ _ C').
  unfold instant, usecs_day in *. rewrite <- (J_lt_iff c' c) by auto. subst b t.
  split.
  - intros L. destruct (Z.lt_trichotomy (J c') (J c)) as [?|[Ej|?]]; [left; auto| |lia].
    right. split; [now apply J_inj|]. lia.
  - intros [L|[-> L]]; lia.
Qed.

Lemma start_field unit c h mi s us t c0 h0 mi0 s0 us0 :
  reading c h mi s us t -> valid_ymd c0 -> clock_ok h0 mi0 s0 us0 ->
  (ymd_lt c0 c \/ (c0 = c /\ clock h0 mi0 s0 us0 <= clock h mi s us)) ->
  is_start unit (instant c0 (clock h0 mi0 s0 us0)) ->
  (forall c' h' mi' s' us' b, reading c' h' mi' s' us' b -> is_start unit b ->
     (ymd_lt c' c \/ (c' = c /\ clock h' mi' s' us' <= clock h mi s us)) ->
     (ymd_lt c' c0 \/ (c' = c0 /\ clock h' mi' s' us' <= clock h0 mi0 s0 us0))) ->
  latest_start unit t (instant c0 (clock h0 mi0 s0 us0)).
Proof.
  intros R V C L S M. pose proof (instant_reading c0 h0 mi0 s0 us0 V C) as R0.
  split; [exact S|]. split; [apply (reading_le _ _ _ _ _ _ _ _ _ _ _ _ R R0); exact L|].
  intros b Sb Lb. destruct Sb as (y & m & d & h' & mi' & s' & us' & Rb & Hb).
  apply (reading_le _ _ _ _ _ _ _ _ _ _ _ _ R0 Rb). apply (M _ _ _ _ _ b Rb).
  - exists y, m, d, h', mi', s', us'. auto.
  - now apply (reading_le _ _ _ _ _ _ _ _ _ _ _ _ R Rb).
Qed.

Lemma is_start_reading unit y m d h mi s us b : reading (y, m, d) h mi s us b ->
  is_start unit b ->
    let midnight := h = 0 /\ mi = 0 /\ s = 0 /\ us = 0 in
    match unit with
    | MicroSec => True
    | MilliSec => us mod 1000 = 0
    | Second => us = 0
    | Minute => s = 0 /\ us = 0
    | Hour => mi = 0 /\ s = 0 /\ us = 0
    | Day => midnight
    | Month => d = 1 /\ midnight
    | Quarter => (m = 1 \/ m = 4 \/ m = 7 \/ m = 10) /\ d = 1 /\ midnight
    | Year => m = 1 /\ d = 1 /\ midnight
    | Decade => y mod 10 = 0 /\ m = 1 /\ d = 1 /\ midnight
    | Century => y mod 100 = 1 /\ m = 1 /\ d = 1 /\ midnight
    | Millennium => y mod 1000 = 1 /\ m = 1 /\ d = 1 /\ midnight
    | _ => False
    end.
Proof.
  intros R (y' & m' & d' & h' & mi' & s' & us' & R' & H).
  destruct (reading_unique _ _ _ _ _ _ _ _ _ _ _ R R') as (E & -> & -> & -> & ->).
  injection E as -> -> ->. exact H.
Qed.

(** The fields of the start of the unit containing a reading. *)
Definition floor_fields (unit : date_unit) (y m d h mi s us : Z) : option (ymd * (Z * Z * Z * Z)) :=
  match unit with
  | MicroSec => Some ((y, m, d), (h, mi, s, us))
  | MilliSec => Some ((y, m, d), (h, mi, s, us / 1000 * 1000))
  | Second => Some ((y, m, d), (h, mi, s, 0))
  | Minute => Some ((y, m, d), (h, mi, 0, 0))
  | Hour => Some ((y, m, d), (h, 0, 0, 0))
  | Day => Some ((y, m, d), (0, 0, 0, 0))
  | Month => Some ((y, m, 1), (0, 0, 0, 0))
  | Quarter => Some ((y, (m - 1) / 3 * 3 + 1, 1), (0, 0, 0, 0))
  | Year => Some ((y, 1, 1), (0, 0, 0, 0))
  | Decade => Some ((y / 10 * 10, 1, 1), (0, 0, 0, 0))
  | Century => Some (((y - 1) / 100 * 100 + 1, 1, 1), (0, 0, 0, 0))
  | Millennium => Some (((y - 1) / 1000 * 1000 + 1, 1, 1), (0, 0, 0, 0))
  | _ => None
  end.

Lemma lex_split y' m' d' y0 m0 d0 (P : Prop) :
  (y' < y0 \/ y' = y0 /\ (m' < m0 \/ m' = m0 /\ (d' < d0 \/ d' = d0 /\ P))) ->
  (y' < y0 \/ y' = y0 /\ (m' < m0 \/ m' = m0 /\ d' < d0)) \/ ((y', m', d') = (y0, m0, d0) /\ P).
Proof. intros [?|[-> [?|[-> [?|[-> ?]]]]]]; auto 6. Qed.
Lemma valid_first_of y m : 1 <= m <= 12 -> valid_ymd (y, m, 1).
Proof. intros H. pose proof (month_len_bounds y m H). split; lia. Qed.

Lemma floor_latest unit y m d h mi s us t c0 h0 mi0 s0 us0 :
  reading (y, m, d) h mi s us t ->
  floor_fields unit y m d h mi s us = Some (c0, (h0, mi0, s0, us0)) ->
  valid_ymd c0 /\ clock_ok h0 mi0 s0 us0 /\ latest_start unit t (instant c0 (clock h0 mi0 s0 us0)).
Proof.
  intros R E. destruct R as (V & C & RR) eqn:ER. clear ER RR.
  assert (valid_ymd c0 /\ clock_ok h0 mi0 s0 us0) as [V0 C0].
  { destruct V as [Vm Vd]. unfold clock_ok in *.
    destruct unit; try discriminate E; injection E as <- <- <- <- <-; (split; [|lia]);
    first [split; lia | apply valid_first_of; lia]. }
  split; [exact V0|]. split; [exact C0|].
  destruct V as [Vm Vd].
  apply (start_field unit (y, m, d) h mi s us); auto.
  - unfold clock_ok, clock in *. destruct unit; try discriminate E; injection E as <- <- <- <- <-;
    unfold ymd_lt;
    try (right; split; [reflexivity|lia]).
    + destruct (Z.eq_dec d 1); [subst; right; split; [reflexivity|lia]|left; lia].
    + destruct (Z.eq_dec m ((m - 1) / 3 * 3 + 1)) as [<-|N]; [|left; lia].
      destruct (Z.eq_dec d 1); [subst; right; split; [reflexivity|lia]|left; lia].
    + destruct (Z.eq_dec m 1) as [->|N]; [|left; lia].
      destruct (Z.eq_dec d 1); [subst; right; split; [reflexivity|lia]|left; lia].
    + destruct (Z.eq_dec y (y / 10 * 10)) as [<-|N']; [|left; lia].
      destruct (Z.eq_dec m 1) as [->|N]; [|left; lia].
      destruct (Z.eq_dec d 1); [subst; right; split; [reflexivity|lia]|left; lia].
    + destruct (Z.eq_dec y ((y - 1) / 100 * 100 + 1)) as [<-|N']; [|left; lia].
      destruct (Z.eq_dec m 1) as [->|N]; [|left; lia].
      destruct (Z.eq_dec d 1); [subst; right; split; [reflexivity|lia]|left; lia].
    + destruct (Z.eq_dec y ((y - 1) / 1000 * 1000 + 1)) as [<-|N']; [|left; lia].
      destruct (Z.eq_dec m 1) as [->|N]; [|left; lia].
      destruct (Z.eq_dec d 1); [subst; right; split; [reflexivity|lia]|left; lia].
  - pose proof (instant_reading c0 h0 mi0 s0 us0 V0 C0) as R0. destruct c0 as [[y0 m0] d0].
    exists y0, m0, d0, h0, mi0, s0, us0. split; [exact R0|]. cbv zeta. unfold clock_ok in C.
    destruct unit; try discriminate E; injection E as <- <- <- <- <- <- <-; lia.
  - intros [[y' m'] d'] h' mi' s' us' b Rb Sb L.
    pose proof (is_start_reading _ _ _ _ _ _ _ _ _ Rb Sb) as H. cbv zeta in H.
    destruct Rb as ([Vm' Vd'] & C' & _). unfold clock_ok, clock, ymd_lt in *.
    clear R V0 C0 Sb.
    destruct unit; try discriminate E; injection E as <- <- <- <- <-;
    (destruct L as [L|[Ec L]]; [|injection Ec as -> -> ->]).
    all: apply lex_split; clear -Vm Vd C Vm' Vd' C' H L; lia.
Qed.

Lemma bc_floor_ok md k n y : -4713 <= y <= 0 -> (k = 8 /\ n = 10 \/ k = 99 /\ n = 100 \/ k = 999 /\ n = 1000) ->
  bc_floor md k n y = Ok (- ((k - (y - 1)) / n) * n).
Proof.
  intros H K. unfold bc_floor. ar_unfold. rewrite ar32_ok by (rng; lia). cbn [bind].
  rewrite ar32_ok by (rng; lia). cbn [bind].
  destruct K as [[-> ->]|[[-> ->]|[-> ->]]]; rewrite Z.quot_div_nonneg by lia;
    (rewrite ar32_ok by (rng; lia)); cbn [bind]; apply ar32_ok; rng; lia.
Qed.

Ltac tmcbv := cbv beta iota zeta delta [set_sec set_min set_hour set_mday set_mon set_year set_isdst
  set_ymd tm_sec tm_min tm_hour tm_mday tm_mon tm_year tm_wday tm_yday tm_isdst mk fst snd
  truncate_micro_sec truncate_milli_sec truncate_sec truncate_minute truncate_hour truncate_day
  truncate_timestamp_month].

Lemma trunc_year_ok md y m d h mi s us :
  truncate_timestamp_year md (mkTm s mi h d m y 0 0 (-1), us) = Ok (mk (y, 1, 1) 0 0 0, 0).
Proof.
  unfold truncate_timestamp_year, truncate_timestamp_quarter. tmcbv. reflexivity.
Qed.

Lemma truncate_fields md unit y m d h mi s us t c0 h0 mi0 s0 us0 :
  valid_ts t -> reading (y, m, d) h mi s us t ->
  floor_fields unit y m d h mi s us = Some (c0, (h0, mi0, s0, us0)) ->
  timestamp_truncate md t FTUnit unit = to_timestamp md (mk c0 h0 mi0 s0) us0.
Proof.
  intros VT R E. unfold timestamp_truncate.
  destruct (ts2t_reading md t VT) as (c' & h' & mi' & s' & us' & E' & R').
  destruct (reading_unique _ _ _ _ _ _ _ _ _ _ _ R R') as (<- & <- & <- & <- & <-).
  rewrite E'. clear E' R'. cbn [bind].
  pose proof (reading_year_bounds _ _ _ _ _ _ R VT) as (_ & Y & _ & Hm & Hd).
  destruct R as (_ & C & _). unfold clock_ok in C.
  destruct unit; try discriminate E; injection E as <- <- <- <- <-; cbn [bind].
  - reflexivity.
  - reflexivity.
  - reflexivity.
  - reflexivity.
  - reflexivity.
  - unfold truncate_timestamp_quarter. tmcbv. ar_unfold. rewrite ar32_ok by (rng; lia). cbn [bind].
    rewrite Z.quot_div_nonneg by lia. rewrite (Z.mul_comm 3). rewrite ar32_ok by (rng; lia). reflexivity.
  - tmcbv. rewrite trunc_year_ok. reflexivity.
  - unfold truncate_timestamp_decade. tmcbv. destruct (Z.ltb_spec 0 y).
    + rewrite Z.quot_div_nonneg by lia. cbn [bind]. tmcbv. rewrite trunc_year_ok. reflexivity.
    + rewrite bc_floor_ok by lia. cbn [bind]. tmcbv. rewrite trunc_year_ok. cbn [bind fst snd].
      replace (- ((8 - (y - 1)) / 10) * 10) with (y / 10 * 10) by lia. reflexivity.
  - unfold truncate_timestamp_century. tmcbv. destruct (Z.ltb_spec 0 y).
    + ar_unfold. rewrite ar32_ok by (rng; lia). cbn [bind]. rewrite Z.quot_div_nonneg by lia.
      rewrite ar32_ok by (rng; lia). cbn [bind].
      rewrite ar32_ok by (rng; lia). cbn [bind]. tmcbv. rewrite trunc_year_ok. cbn [bind fst snd].
      replace ((y + 99) / 100 * 100 - 99) with ((y - 1) / 100 * 100 + 1) by lia. reflexivity.
    + rewrite bc_floor_ok by lia. cbn [bind]. ar_unfold. rewrite ar32_ok by (rng; lia). cbn [bind].
      tmcbv. rewrite trunc_year_ok. cbn [bind fst snd].
      replace (- ((99 - (y - 1)) / 100) * 100 + 1) with ((y - 1) / 100 * 100 + 1) by lia. reflexivity.
  - tmcbv. rewrite Z.quot_div_nonneg by lia. reflexivity.
  - reflexivity.
  - set (y0 := (y - 1) / 1000 * 1000 + 1).
    assert (-5000 <= y0 <= 294276 /\ y0 mod 1000 = 1) as Y0 by (unfold y0; lia).
    assert (truncate_timestamp_millennium md (mk (y, m, d) h mi s, us) =
      truncate_timestamp_century md (mk (y0, m, d) h mi s, us)) as ->.
    { unfold truncate_timestamp_millennium. tmcbv. destruct (Z.ltb_spec 0 y).
      - ar_unfold. rewrite ar32_ok by (rng; lia). cbn [bind]. rewrite Z.quot_div_nonneg by lia.
        rewrite ar32_ok by (rng; lia). cbn [bind].
        rewrite ar32_ok by (rng; lia). cbn [bind]. tmcbv.
        replace ((y + 999) / 1000 * 1000 - 999) with y0 by (unfold y0; lia). reflexivity.
      - rewrite bc_floor_ok by lia. cbn [bind]. ar_unfold. rewrite ar32_ok by (rng; lia). cbn [bind].
        tmcbv. replace (- ((999 - (y - 1)) / 1000) * 1000 + 1) with y0 by (unfold y0; lia). reflexivity. }
    clearbody y0.
    unfold truncate_timestamp_century. tmcbv. destruct (Z.ltb_spec 0 y0).
    + ar_unfold. rewrite ar32_ok by (rng; lia). cbn [bind]. rewrite Z.quot_div_nonneg by lia.
      rewrite ar32_ok by (rng; lia). cbn [bind].
      rewrite ar32_ok by (rng; lia). cbn [bind]. tmcbv. rewrite trunc_year_ok. cbn [bind fst snd].
      replace ((y0 + 99) / 100 * 100 - 99) with y0 by lia. reflexivity.
    + unfold bc_floor. ar_unfold. rewrite ar32_ok by (rng; lia). cbn [bind].
      rewrite ar32_ok by (rng; lia). cbn [bind]. rewrite Z.quot_div_nonneg by lia.
      rewrite ar32_ok by (rng; lia). cbn [bind].
      rewrite ar32_ok by (rng; lia). cbn [bind].
      rewrite ar32_ok by (rng; lia). cbn [bind]. tmcbv. rewrite trunc_year_ok. cbn [bind fst snd].
      replace (- ((99 - (y0 - 1)) / 100) * 100 + 1) with y0 by lia. reflexivity.
Qed.

Definition ts_unit (unit : date_unit) : bool :=
  match unit with
  | MicroSec | MilliSec | Second | Minute | Hour | Day | Month | Quarter | Year | Decade | Century
  | Millennium => true | _ => false end.

Lemma truncate_ok md t unit : valid_ts t -> ts_unit unit = true ->
  exists r, latest_start unit t r /\
    (valid_ts r -> timestamp_truncate md t FTUnit unit = Ok r) /\
    (~ valid_ts r -> exists e, timestamp_truncate md t FTUnit unit = Err e).
Proof.
  intros V U. destruct (ts2t_reading md t V) as ([[y m] d] & h & mi & s & us & _ & R).
  destruct (floor_fields unit y m d h mi s us) as [[c0 [[[h0 mi0] s0] us0]]|] eqn:E.
  - destruct (floor_latest _ _ _ _ _ _ _ _ _ _ _ _ _ _ R E) as (V0 & C0 & L).
    exists (instant c0 (clock h0 mi0 s0 us0)). split; [exact L|].
    rewrite (truncate_fields md unit _ _ _ _ _ _ _ _ _ _ _ _ _ V R E).
    apply to_ts_reading. destruct (tm_mk c0 h0 mi0 s0) as (-> & -> & -> & ->).
    apply instant_reading; auto.
  - destruct unit; discriminate.
Qed.

Lemma latest_unique unit t r r' : latest_start unit t r -> latest_start unit t r' -> r = r'.
Proof.
  intros (S & L & M) (S' & L' & M'). pose proof (M r' S' L'). pose proof (M' r S L). lia.
Qed.
Lemma latest_mono unit t t' r r' : t <= t' -> latest_start unit t r -> latest_start unit t' r' -> r <= r'.
Proof. intros H (S & L & M) (S' & L' & M'). apply M'; auto. lia. Qed.
Lemma latest_idem unit t r : latest_start unit t r -> latest_start unit r r.
Proof. intros (S & L & M). split; [auto|]. split; [lia|]. intros; lia. Qed.
