(** Truncation of long intervals: where the 32-bit minutes overflow. *)
From Verif Require Import Model.DateTime Spec.Calendar Spec.Ranges Spec.Clock Spec.IntervalS
  Proofs.Arith Proofs.TsP Proofs.IntervalP Proofs.TimeP Proofs.FloatP Proofs.IvTruncP.
From Coq Require Import List Lia Reals.
Import ListNotations.
Open Scope Z_scope.

(** The minutes that [from_pgtime] sums in 32 bits *)
Lemma from_pgtime_limit s mi h d mo y w yd dst us :
  in_i32 (y * 12 + mo) -> Z.abs y <= 200000000 -> Z.abs mo <= 2147483648 ->
  in_i32 h -> Z.abs mi < 60 -> Z.abs s < 60 -> Z.abs us < 1000000 -> (h < 0 -> mi <= 0) -> (0 < h -> 0 <= mi) ->
  let tm := mkTm s mi h d mo y w yd dst in
  (in_i32 (h * 60 + mi) -> forall md, interval_from_pgtime md tm us = Ok (from_mdt (y * 12 + mo) d (clock h mi s us)))
  /\ (~ in_i32 (h * 60 + mi) -> interval_from_pgtime Debug tm us = Fault FArith
      /\ exists c, interval_from_pgtime Release tm us = Ok (from_mdt (y * 12 + mo) d c) /\ c <> clock h mi s us).
Proof.
  intros H Y M Hh Hmi Hs Hus N1 N2 tm.
  assert (forall md, interval_from_pgtime md tm us =
    let* a := mul32 md h 60 in let* hm := add32 md a mi in
    let* q := mul64 md hm 60 in let* q := add64 md q s in let* q := mul64 md q USECS_PER_SEC in let* time := add64 md q us in
    Ok (from_mdt (y * 12 + mo) d time)) as E.
  { intros md. subst tm. unfold interval_from_pgtime. cbn [tm_year tm_mon tm_hour tm_min tm_sec tm_mday].
    pose proof (months_f64 y mo H Y M) as R. cbv zeta. set (total := fadd _ _) in *. clearbody total.
    unfold fgt. rewrite (rep_lt_int _ _ i32_max (y * 12 + mo)); [|apply rep_int; unfold i32_max; lia|exact R].
    rewrite (rep_lt_int _ _ (y * 12 + mo) i32_min); [|exact R|apply rep_int; unfold i32_min; lia].
    destruct (Z.ltb_spec i32_max (y * 12 + mo)); [unfold in_i32 in H; lia|].
    destruct (Z.ltb_spec (y * 12 + mo) i32_min); [unfold in_i32 in H; lia|]. cbn [orb].
    rewrite (rep_to_i32 _ _ R H). reflexivity. }
  split.
  - intros L md. rewrite E. unit_consts. unfold clock. ar. reflexivity.
  - intros L. split.
    + rewrite E. unit_consts. ar_unfold. unfold ar32.
      destruct (in32b (h * 60)) eqn:B1; [|reflexivity]. cbn [bind]. unfold ar32.
      destruct (in32b (h * 60 + mi)) eqn:B2; [|reflexivity]. exfalso. apply L. unfold in32b in B2. rng; lia.
    + assert (exists v, in_i32 v /\ v <> h * 60 + mi /\
        (let* a := mul32 Release h 60 in add32 Release a mi) = Ok v) as (v & V & D & Ev).
      { exists (wrap32 (h * 60 + mi)). split; [apply wrap32_range|]. split.
        - intros K. apply L. rewrite <- K. apply wrap32_range.
        - unfold mul32, add32, ar32.
          assert (forall z, (if in32b z then Ok z else Ok (wrap32 z)) = Ok (wrap32 z)) as W.
          { intros z. destruct (in32b z) eqn:B; [|reflexivity]. rewrite wrap32_id; [reflexivity|].
            unfold in32b in B. rng; lia. }
          rewrite W. cbn [bind]. rewrite W. f_equal. unfold wrap32.
          clear - h mi. set (x := h * 60). clearbody x.
          pose proof (Z.div_mod (x + 2147483648) 4294967296 ltac:(lia)).
          replace ((x + 2147483648) mod 4294967296 - 2147483648 + mi + 2147483648)
            with (x + mi + 2147483648 + (- ((x + 2147483648) / 4294967296)) * 4294967296) by lia.
          rewrite Z_mod_plus_full. reflexivity. }
      exists (clock 0 v s us). split.
      * rewrite E. destruct (mul32 Release h 60) as [a| |] eqn:E1; try discriminate Ev. cbn [bind] in Ev |- *.
        rewrite Ev. cbn [bind]. clear - V Hs Hus. unit_consts. unfold clock. repeat (ar; cbn [bind]). reflexivity.
      * unfold clock. clear - D Hs Hus. lia.
Qed.

(** The whole minutes that truncation to [unit] keeps *)
Definition kept_minutes (unit : date_unit) (t : Z) : Z :=
  match unit with Hour => 60 * Z.quot t 3600000000 | _ => Z.quot t 60000000 end.

Lemma minutes_split t : Z.quot t 3600000000 * 60 + Z.quot (Z.rem t 3600000000) 60000000 = Z.quot t 60000000 /\
  (Z.quot t 3600000000 < 0 -> Z.quot (Z.rem t 3600000000) 60000000 <= 0) /\
  (0 < Z.quot t 3600000000 -> 0 <= Z.quot (Z.rem t 3600000000) 60000000).
Proof. split; [lia|]. split; intros; lia. Qed.

Lemma truncate_limit a unit : fields_ok a -> In unit [Hour; Minute; Second; MilliSec; MicroSec] ->
  in_i32 (Z.quot (iv_time a) 3600000000) ->
  (in_i32 (kept_minutes unit (iv_time a)) -> forall md, exists b,
     interval_truncate md a FTUnit unit = Ok b /\ truncated_iv unit a b)
  /\ (~ in_i32 (kept_minutes unit (iv_time a)) -> interval_truncate Debug a FTUnit unit = Fault FArith
      /\ exists b, interval_truncate Release a FTUnit unit = Ok b /\ ~ truncated_iv unit a b).
Proof.
  intros (Hm & Hd & Ht) U I.
  assert (forall mi s us n, Z.abs mi < 60 -> Z.abs s < 60 -> Z.abs us < 1000000 ->
    let h := Z.quot (iv_time a) 3600000000 in
    (h < 0 -> mi <= 0) -> (0 < h -> 0 <= mi) -> h * 60 + mi = kept_minutes unit (iv_time a) ->
    (forall md, interval_truncate md a FTUnit unit =
       interval_from_pgtime md (mkTm s mi h (iv_day a) (Z.rem (iv_month a) 12) (Z.quot (iv_month a) 12) 0 0 (-1)) us) ->
    (forall b, truncated_iv unit a b <-> iv_month b = iv_month a /\ iv_day b = iv_day a /\ toward_zero n (iv_time a) (iv_time b)) ->
    0 < n -> clock h mi s us = Z.quot (iv_time a) n * n ->
    (in_i32 (kept_minutes unit (iv_time a)) -> forall md, exists b,
       interval_truncate md a FTUnit unit = Ok b /\ truncated_iv unit a b)
    /\ (~ in_i32 (kept_minutes unit (iv_time a)) -> interval_truncate Debug a FTUnit unit = Fault FArith
        /\ exists b, interval_truncate Release a FTUnit unit = Ok b /\ ~ truncated_iv unit a b)) as G.
  { intros mi s us n B1 B2 B3 h N1 N2 K E T N C.
    pose proof (mon_year (iv_month a) Hm) as (Y1 & Y2).
    assert (Z.quot (iv_month a) 12 * 12 + Z.rem (iv_month a) 12 = iv_month a) as Y3
      by (rewrite (Z.mul_comm _ 12); symmetry; apply Z.quot_rem').
    destruct (from_pgtime_limit s mi h (iv_day a) (Z.rem (iv_month a) 12) (Z.quot (iv_month a) 12) 0 0 (-1) us)
      as (P1 & P2); auto.
    { rewrite Y3. exact Hm. } { clear - Y1. lia. } { clear - Y2. lia. }
    rewrite K, Y3 in P1, P2. pose proof (trunc_to_spec (iv_time a) n N) as TS.
    split.
    - intros L md. eexists. split; [rewrite E; apply P1; exact L|]. apply T. cbn [from_mdt iv_month iv_day iv_time].
      rewrite C. split; [reflexivity|]. split; [reflexivity|]. exact TS.
    - intros L. destruct (P2 L) as (F & c & Ec & D). split; [rewrite E; exact F|].
      eexists. split; [rewrite E; exact Ec|]. intros X. apply D. rewrite C.
      assert (truncated_iv unit a (from_mdt (iv_month a) (iv_day a) (Z.quot (iv_time a) n * n))) as X2.
      { apply T. split; [reflexivity|]. split; [reflexivity|]. exact TS. }
      pose proof (truncated_fun _ _ _ _ X X2) as Q. injection Q as Q. exact Q. }
  pose proof (clk_bounds (iv_time a)) as (B1 & B2 & B3 & B4).
  assert (interval_to_pgtime Debug a = Ok (iv_tm a, iv_us a) /\ interval_to_pgtime Release a = Ok (iv_tm a, iv_us a)) as (TD & TR).
  { rewrite !iv_to_pgtime_ok by (split; auto). rewrite in32b_true by exact I. auto. }
  assert (forall md, interval_to_pgtime md a = Ok (iv_tm a, iv_us a)) as TP by (intros []; assumption).
  set (t := iv_time a) in *.
  pose proof (minutes_split t) as (KM & S1 & S2).
  cbn [In] in U. destruct U as [<-|[<-|[<-|[<-|[<-|[]]]]]].
  - apply (G 0 0 0 3600000000); try reflexivity; try apply clk_h; try (intros; discriminate); try (intros _; apply Z.le_refl).
    + cbn [kept_minutes]. rewrite Z.add_0_r. apply Z.mul_comm.
    + intros md. unfold interval_truncate. rewrite TP. reflexivity.
  - apply (G (Z.quot (Z.rem t 3600000000) 60000000) 0 0 60000000); try assumption; try reflexivity; try apply clk_m.
    intros md. unfold interval_truncate. rewrite TP. reflexivity.
  - apply (G (Z.quot (Z.rem t 3600000000) 60000000) (Z.quot (Z.rem t 60000000) 1000000) 0 1000000); try assumption; try reflexivity; try apply clk_s.
    intros md. unfold interval_truncate. rewrite TP. reflexivity.
  - apply (G (Z.quot (Z.rem t 3600000000) 60000000) (Z.quot (Z.rem t 60000000) 1000000) (Z.quot (Z.rem t 1000000) 1000 * 1000) 1000); try assumption; try reflexivity; try apply clk_ms.
    intros md. unfold interval_truncate. rewrite TP. reflexivity.
  - apply (G (Z.quot (Z.rem t 3600000000) 60000000) (Z.quot (Z.rem t 60000000) 1000000) (Z.rem t 1000000) 1); try assumption; try reflexivity.
    + intros md. unfold interval_truncate. rewrite TP. reflexivity.
    + rewrite Z.quot_1_r, Z.mul_1_r. apply clk_u.
Qed.

Lemma truncate_over a unit : fields_ok a -> ~ in_i32 (Z.quot (iv_time a) 3600000000) ->
  forall md, interval_truncate md a FTUnit unit = Err EOverflow.
Proof.
  intros F L md. unfold interval_truncate. rewrite iv_to_pgtime_ok by auto.
  destruct (in32b _) eqn:B; [|reflexivity]. exfalso. apply L. unfold in32b in B. rng; lia.
Qed.

Lemma hours_of_minutes unit t : In unit [Hour; Minute; Second; MilliSec; MicroSec] ->
  in_i32 (kept_minutes unit t) -> in_i32 (Z.quot t 3600000000).
Proof.
  intros U H. pose proof (minutes_split t) as (K & S1 & S2).
  cbn [In] in U. repeat destruct U as [<-|U]; try contradiction; cbn [kept_minutes] in H;
    set (h := Z.quot t 3600000000) in *; try rewrite <- K in H; clear - H S1 S2; rng; lia.
Qed.
