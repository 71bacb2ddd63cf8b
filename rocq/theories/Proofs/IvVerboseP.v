(** Interval text in the verbose Postgres style: layout, length and reading back. *)
From Verif Require Import Model.Parse Spec.Calendar Spec.Ranges Spec.Clock Spec.Text Spec.IntervalS
  Proofs.Arith Proofs.TsP Proofs.IntervalP Proofs.IvTruncP Proofs.DigitsP Proofs.FormatP Proofs.ParseP
  Proofs.RoundTripP Proofs.IvParseP Proofs.IvReadP Proofs.IvPostgresP.
Open Scope Z_scope.

Lemma sg0 b : sg b 0 = 0. Proof. now destruct b. Qed.
Lemma sg_sg b v : sg b (sg b v) = v. Proof. destruct b; cbn [sg]; lia. Qed.
Lemma sg_eq0 b v : sg b v = 0 -> v = 0. Proof. destruct b; cbn [sg]; lia. Qed.
Lemma sg_xorb a b v : sg (xorb a b) v = sg b (sg a v).
Proof. destruct a, b; cbn [xorb sg]; lia. Qed.
Lemma sg_le b v k : Z.abs v <= k -> Z.abs (sg b v) <= k. Proof. destruct b; cbn [sg]; lia. Qed.

Lemma vb_part md u v z b : Z.abs v <= i32_max -> (z = true -> b = false) ->
  exists ps ts z' b', add_verbose_int_part md v (uword u) (z, b) = Ok (spaced ps, (z', b'))
    /\ Forall2 piece ps ts /\ part_tokens u (sg b' v) ts
    /\ (length (spaced ps) <= 18)%nat /\ (length ps <= 2)%nat /\ z' = (z && (v =? 0))
    /\ (z = false -> b' = b) /\ (z' = true -> b' = false).
Proof.
  intros R Zb. unfold add_verbose_int_part, part_tokens. destruct (Z.eqb_spec v 0) as [->|N].
  - exists [], [], z, b. rewrite sg0, andb_true_r. repeat split; auto; cbn; lia.
  - set (b' := if z then v <? 0 else b).
    assert ((if z then abs32 md v else if b then neg32 md v else Ok v) = Ok (sg b' v)) as ->.
    { unfold b'. unfold i32_max in R. destruct z.
      - unfold abs32. rewrite ar32_ok by (rng; lia). f_equal. destruct (Z.ltb_spec v 0); cbn [sg]; lia.
      - destruct b; [|reflexivity]. unfold neg32. rewrite ar32_ok by (rng; lia). reflexivity. }
    cbn [bind]. pose proof (sg_le b' v _ R) as R'. assert (in_i32 (sg b' v)) as R2 by (unfold i32_max in R'; rng; lia).
    destruct (pg_ltostr_ok _ R2) as (t & -> & I & L). cbn [bind].
    destruct (num_piece (sg b' v) false t I R2 L) as (k & P & NT); [discriminate|]. cbn [app] in P, NT.
    destruct (unit_word u (negb (v =? 1))) as (Pw & Dw & Lw).
    set (w := uword u ++ (if negb (v =? 1) then [115] else [])) in *.
    exists [t; w], [(k, t); (Some KString, w)], false, b'.
    split; [|split; [|split; [|split; [|split; [|split; [|split]]]]]].
    + cbn [spaced List.map concat app]. rewrite app_nil_r. reflexivity.
    + constructor; [exact P|constructor; [exact Pw|constructor]].
    + destruct (Z.eqb_spec (sg b' v) 0) as [E|_]; [now apply sg_eq0 in E|]. eauto.
    + cbn [spaced List.map concat app length]. rewrite app_nil_r, app_length. cbn [length]. lia.
    + cbn; lia.
    + now rewrite andb_false_r.
    + intros ->. reflexivity.
    + discriminate.
Qed.

Lemma sec_piece s us t (neg : bool) : seconds_text 1 s us t ->
  exists k, piece (sgt neg t) k /\ sec_token neg s us k.
Proof.
  intros S. exists (Some (if neg then KTz else KNumber), sgt neg t). split; [|exists t; auto].
  destruct S as (ds & P & H). destruct (padded_cons _ _ _ P) as (c & r & Ec & Dc).
  assert (forallb is_digit ds = true) as F by eauto using padded_digits. assert (ds <> []) as N by (rewrite Ec; discriminate).
  destruct H as [[_ ->]|[_ (fr & Ff & ->)]].
  - destruct neg; cbn [sgt]; [|now apply piece_number].
    apply piece_signed; [auto|now apply digits_head|now apply digits_signed].
  - destruct (fraction_facts _ _ Ff) as (F2 & L2 & _). assert (fr <> []) as N2 by (destruct fr; [cbn in L2; lia|discriminate]).
    destruct neg; cbn [sgt]; [|now apply piece_decimal].
    apply piece_signed; [auto| |].
    + subst ds. exact Dc.
    + rewrite forallb_app. cbn [forallb]. now rewrite !digits_signed.
Qed.

Lemma sec_word (pl : bool) : let w := bs "sec" ++ (if pl then [115] else []) in
  piece w (Some KString, w) /\ decode_units w = Ok (UNITS, kcode KSecond).
Proof.
  cbv zeta. split; [|destruct pl; vm_compute; reflexivity].
  assert (lowers (bs "sec" ++ (if pl then [115] else [])) = bs "sec" ++ (if pl then [115] else [])) as E by (destruct pl; reflexivity).
  rewrite <- E at 2. apply piece_word; destruct pl; (reflexivity || discriminate).
Qed.

(** The seconds part. *)
Definition sec_tokens (b nt : bool) (s us : Z) (ts : list token) : Prop :=
  if (0 <? s) || (0 <? us) then
    exists k w, ts = [k; (Some KString, w)] /\ sec_token (xorb nt b) s us k /\ decode_units w = Ok (UNITS, kcode KSecond)
  else ts = [].

Definition vb_sec (md : mode) (sec fsec : Z) (is_zero is_before : bool) : res (bytes * (bool * bool)) :=
    if nz sec || nz fsec then
      let neg := (sec <? 0) || ((sec =? 0) && (fsec <? 0)) in
      let is_before' := if neg && is_zero then true else is_before in
      let sign :=
        if neg then (if is_zero then [] else if negb is_before then [45] else [])
        else if is_before then [45] else [] in
      let* s := append_seconds md sec fsec MAX_PRECISION false in
      let* asec := abs32 md sec in
      Ok (32 :: sign ++ s ++ bs " sec" ++ (if negb (asec =? 1) || nz fsec then [115] else []),
          (false, is_before'))
    else Ok ([], (is_zero, is_before)).

Lemma vb_seconds md nt h mi s us z b : time_ok nt h mi s us -> (z = true -> b = false) ->
  exists ps ts z' b', vb_sec md (sg nt s) (sg nt us) z b = Ok (spaced ps, (z', b'))
   /\ Forall2 piece ps ts /\ sec_tokens b' nt s us ts /\ (length (spaced ps) <= 18)%nat /\ (length ps <= 2)%nat
   /\ z' = z && negb ((0 <? s) || (0 <? us)) /\ (z = false -> b' = b) /\ (z' = true -> b' = false).
Proof.
  intros (Hh & Hm & Hs & Hu & Tn) Zb. unfold vb_sec, sec_tokens. rewrite !sg_nz by lia.
  destruct ((0 <? s) || (0 <? us)) eqn:NZ.
  - replace ((sg nt s <? 0) || (sg nt s =? 0) && (sg nt us <? 0)) with nt
      by (destruct nt; cbn [sg]; lia).
    cbv zeta.
    destruct (append_seconds_ok md (sg nt s) (sg nt us) false) as (t & E & St); [destruct nt; cbn [sg]; lia..|].
    unfold MAX_PRECISION. rewrite E. cbn [bind]. rewrite !sg_abs in St by lia.
    assert (abs32 md (sg nt s) = Ok s) as -> by (unfold abs32; rewrite sg_abs by lia; apply ar32_ok; rng; lia). cbn [bind].
    set (b' := if nt && z then true else b).
    replace (if nt then if z then [] else if negb b then [45] else [] else if b then [45] else [])
      with (if xorb nt b' then [45] else []) by (unfold b'; destruct nt, z, b; try reflexivity; now specialize (Zb eq_refl)).
    destruct (sec_piece s us t (xorb nt b') St) as (k & P & K).
    destruct (sec_word (negb (s =? 1) || (0 <? us))) as (Pw & Dw). set (w := bs "sec" ++ _) in *.
    exists [sgt (xorb nt b') t; w], [k; (Some KString, w)], false, b'.
    split; [|split; [|split; [|split; [|split; [|split; [|split]]]]]].
    + cbn [spaced List.map concat app]. rewrite app_nil_r. destruct (xorb nt b'); reflexivity.
    + constructor; [exact P|constructor; [exact Pw|constructor]].
    + eauto 6.
    + pose proof (seconds_len _ _ _ _ 2 St ltac:(change (10 ^ Z.of_nat 2) with 100; lia) ltac:(lia)).
      cbn [spaced List.map concat app length]. rewrite app_nil_r, app_length. cbn [length].
      assert (length w <= 4)%nat by (unfold w; destruct (negb (s =? 1) || (0 <? us)); cbn; lia).
      destruct (xorb nt b'); cbn [sgt length]; lia.
    + cbn; lia.
    + now rewrite andb_false_r.
    + intros ->. unfold b'. now rewrite andb_false_r.
    + discriminate.
  - exists [], [], z, b. rewrite andb_true_r. repeat split; auto; cbn; lia.
Qed.

Lemma part_same u v b bF z ts : part_tokens u (sg b v) ts -> (z = true -> v = 0) -> (z = false -> b = bF) ->
  part_tokens u (sg bF v) ts.
Proof.
  intros P H1 H2. destruct z; [rewrite H1 in * by easy; now rewrite sg0 in *|now rewrite <- H2].
Qed.

Lemma tokenize_at fuel n room s : n < 25 -> stops is_punct s -> tokenize (S fuel) n room (64 :: s) = tokenize fuel n room s.
Proof.
  intros N S. cbn [tokenize]. rewrite eat_ws_cons by easy. unfold MAX_DATE_FIELDS. destruct (Z.leb_spec 25 n); [lia|].
  change (64 :: s) with ([64] ++ s). rewrite (eat_app is_punct [64] s) by easy. reflexivity.
Qed.

Lemma ago_field md i x : i_fmask i = 0 -> interval_field md INTERVAL_FULL_RANGE (Some KString, bs "ago") i x =
  (x, Ok (mkI (kcode KMinute - kcode KMinute + snd (match decode_units (bs "ago") with Ok p => p | _ => (AGO, 0) end)) 0 true (i_dtype i))).
Proof. intros F. destruct i. cbn in F. subst. vm_compute. reflexivity. Qed.

Lemma verbose_zero md st : plain_style st = true -> interval_try_from_str md (bs "@ 0") (-1) st = Ok (from_mdt 0 0 0).
Proof. destruct md, st; try discriminate; intros _; vm_compute; reflexivity. Qed.

Lemma sec_read md b nt s us ts rest ty x : sec_tokens b nt s us ts -> 0 <= s < 60 -> 0 <= us < 1000000 ->
  tm_sec (fst x) = 0 -> snd x = 0 ->
  exists ty' fm', interval_fields md INTERVAL_FULL_RANGE (rev ts ++ rest) (mkI ty 0 b KDelta) x =
    interval_fields md INTERVAL_FULL_RANGE rest (mkI ty' fm' b KDelta) (s_fsec (sg b (sg nt us)) (s_sec (sg b (sg nt s)) x))
  /\ (fm' = 0 /\ s = 0 /\ us = 0 \/ fm' = mask SECOND \/ fm' = DTK_ALL_SECS_M).
Proof.
  intros S Hs Hu X1 X2. unfold sec_tokens in S. destruct ((0 <? s) || (0 <? us)) eqn:NZ.
  - destruct S as (k & w & -> & K & D). cbn [rev app].
    destruct (second_pair md (xorb nt b) s us w k rest (mkI ty 0 b KDelta) x D K) as (m & Hm & Em); auto.
    { rng. lia. }
    rewrite !sg_xorb in Em. cbn [i_fmask i_before i_dtype] in Em. change (Z.lor 0 m) with m in Em.
    eexists _, _. split; [exact Em|]. auto.
  - subst ts. exists ty, 0. assert (s = 0) as -> by lia. assert (us = 0) as -> by lia. rewrite !sg0. cbn [rev app].
    split; [|auto]. destruct x as [[] ?]. cbn in X1, X2. subst. reflexivity.
Qed.

Lemma verbose_ok md a : writable_iv a ->
  exists txt, interval_format md a IPostgresVerbose = Ok txt /\ (length txt <= 127)%nat
  /\ forall st, plain_style st = true -> read_back md a (interval_try_from_str md txt (-1) st).
Proof.
  intros A. destruct (fields_of md a A) as (ny & y & mo & nt & h & mi & s & us & E & M & T & D & A1 & A3 & Ra).
  unfold interval_format. rewrite E. cbn [bind fst snd format_interval]. unfold format_verbose.
  cbn [tm_year tm_mon tm_mday tm_hour tm_min tm_sec]. cbv zeta.
  pose proof M as (My & Mmo & Mn). pose proof T as (Th & Tmi & Ts & Tu & Tn).
  assert (forall b v, 0 <= v <= 2147483647 -> Z.abs (sg b v) <= i32_max) as RR by (intros [] v V; cbn [sg]; unfold i32_max; lia).
  pose proof (RR ny y ltac:(lia)) as Ry. pose proof (RR ny mo ltac:(lia)) as Rmo.
  pose proof (RR nt h ltac:(lia)) as Rh. pose proof (RR nt mi ltac:(lia)) as Rmi.
  destruct (vb_part md UYear (sg ny y) true false Ry ltac:(auto)) as (p1 & t1 & z1 & b1 & E1 & F1 & P1 & L1 & N1 & Z1 & B1 & X1).
  change (bs "year") with (uword UYear). rewrite E1. cbn [bind].
  destruct (vb_part md UMon (sg ny mo) z1 b1 Rmo X1) as (p2 & t2 & z2 & b2 & E2 & F2 & P2 & L2 & N2 & Z2 & B2 & X2).
  change (bs "mon") with (uword UMon). rewrite E2. cbn [bind].
  destruct (vb_part md UDay (iv_day a) z2 b2 D X2) as (p3 & t3 & z3 & b3 & E3 & F3 & P3 & L3 & N3 & Z3 & B3 & X3).
  change (bs "day") with (uword UDay). rewrite E3. cbn [bind].
  destruct (vb_part md UHour (sg nt h) z3 b3 Rh X3) as (p4 & t4 & z4 & b4 & E4 & F4 & P4 & L4 & N4 & Z4 & B4 & X4).
  change (bs "hour") with (uword UHour). rewrite E4. cbn [bind].
  destruct (vb_part md UMin (sg nt mi) z4 b4 Rmi X4) as (p5 & t5 & z5 & b5 & E5 & F5 & P5 & L5 & N5 & Z5 & B5 & X5).
  change (bs "min") with (uword UMin). rewrite E5. cbn [bind].
  destruct (vb_seconds md nt h mi s us z5 b5 T X5) as (p6 & t6 & z6 & b6 & E6 & F6 & P6 & L6 & N6 & Z6 & B6 & X6).
  match goal with |- context [bind (bind ?X _) _] => change X with (vb_sec md (sg nt s) (sg nt us) z5 b5) end.
  rewrite E6. cbn [bind].
  destruct z6.
  - (* everything is zero *)
    rewrite (X6 eq_refl).
    assert (z5 = true /\ s = 0 /\ us = 0) as (-> & -> & ->) by (clear - Z6 Ts Tu; destruct z5; [|discriminate]; cbn [andb] in Z6; lia).
    symmetry in Z5. apply andb_prop in Z5 as [-> Z5]. symmetry in Z4. apply andb_prop in Z4 as [-> Z4].
    symmetry in Z3. apply andb_prop in Z3 as [-> Z3]. symmetry in Z2. apply andb_prop in Z2 as [-> Z2].
    symmetry in Z1. cbn [andb] in Z1. rewrite Z.eqb_eq in *.
    unfold part_tokens in *. rewrite Z1, Z2, Z3, Z4, Z5, ?sg0 in *. change (0 =? 0) with true in *. cbv iota in *.
    subst t1 t2 t3 t4 t5. cbn in P6. subst t6.
    inversion F1; inversion F2; inversion F3; inversion F4; inversion F5; inversion F6. subst.
    exists (bs "@ 0"). split; [reflexivity|]. split; [cbn; lia|]. intros st St. rewrite verbose_zero by easy.
    apply sg_eq0 in Z1, Z2, Z4, Z5. subst. destruct a as [ti dd mm]. unfold from_mdt. cbn [iv_month iv_day iv_time] in *. subst.
    rewrite !sg0. split; [reflexivity|]. intros K. exfalso. apply K. unfold minutes_fit. cbn. lia.
  - (* at least one field *)
    assert (part_tokens UYear (sg b6 (sg ny y)) t1 /\ part_tokens UMon (sg b6 (sg ny mo)) t2 /\ part_tokens UDay (sg b6 (iv_day a)) t3
      /\ part_tokens UHour (sg b6 (sg nt h)) t4 /\ part_tokens UMin (sg b6 (sg nt mi)) t5) as (Q1 & Q2 & Q3 & Q4 & Q5).
    { assert (z5 = true \/ b5 = b6) as K5 by (destruct z5; [now left|right; symmetry; auto]).
      assert (z4 = true \/ b4 = b6) as K4 by (destruct z4; [now left|right; cbn in Z5; subst z5; rewrite <- B5 by easy; symmetry; auto]).
      assert (z3 = true \/ b3 = b6) as K3 by (destruct z3; [now left|right; cbn in Z4; subst z4; rewrite <- B4 by easy; destruct K4; auto; discriminate]).
      assert (z2 = true \/ b2 = b6) as K2 by (destruct z2; [now left|right; cbn in Z3; subst z3; rewrite <- B3 by easy; destruct K3; auto; discriminate]).
      assert (z1 = true \/ b1 = b6) as K1 by (destruct z1; [now left|right; cbn in Z2; subst z2; rewrite <- B2 by easy; destruct K2; auto; discriminate]).
      assert (forall u v b z z' ts, part_tokens u (sg b v) ts -> z' = z && (v =? 0) -> z' = true \/ b = b6 -> part_tokens u (sg b6 v) ts) as G.
      { intros u v b z z' ts P -> [K| ->]; [|exact P]. apply andb_prop in K as [_ K]. apply Z.eqb_eq in K. subst v. now rewrite sg0 in *. }
      repeat split; eapply G; eauto. }
    set (pa := if b6 then [bs "ago"] else []). set (ta := if b6 then [(Some KString, bs "ago")] else []).
    assert (Forall2 piece pa ta) as Fa.
    { unfold pa, ta. destruct b6; [|constructor]. constructor; [|constructor]. apply (piece_word (bs "ago")); [reflexivity|discriminate]. }
    set (ps := ((((((p1 ++ p2) ++ p3) ++ p4) ++ p5) ++ p6) ++ pa)).
    set (ts := ((((((t1 ++ t2) ++ t3) ++ t4) ++ t5) ++ t6) ++ ta)).
    assert (Forall2 piece ps ts) as FF by (unfold ps, ts; repeat apply Forall2_app; auto).
    exists (64 :: spaced ps).
    assert (spaced ps = spaced p1 ++ spaced p2 ++ spaced p3 ++ spaced p4 ++ spaced p5 ++ spaced p6 ++ [] ++ (if b6 then bs " ago" else [])) as EP.
    { unfold ps. rewrite !spaced_app, <- !app_assoc. cbn [app]. repeat f_equal. unfold pa. destruct b6; reflexivity. }
    assert (length (spaced ps) <= 112)%nat as L.
    { rewrite EP, !app_length. assert (length (if b6 then bs " ago" else []) <= 4)%nat by (destruct b6; cbn; lia). cbn [length]. lia. }
    rewrite <- EP. split; [apply fits_ok; cbn [length]; lia|]. split; [cbn [length]; lia|]. intros st St.
    assert (length ps <= 13)%nat as Lps.
    { unfold ps. rewrite !app_length. assert (length pa <= 1)%nat by (unfold pa; destruct b6; cbn; lia). lia. }
    assert (parse_date_time (64 :: spaced ps) = Ok ts) as PT.
    { rewrite parse_date_time_cons by discriminate. rewrite tokenize_at by (try lia; destruct (spaced_ends ps) as [-> |[r ->]]; reflexivity || exact I). cbn [length].
      apply tokenize_pieces; [exact FF|lia|unfold blen; lia|]. pose proof (spaced_len _ _ FF). lia. }
    set (d := iv_day a) in *.
    assert (exists i, interval_fields md INTERVAL_FULL_RANGE (rev ts) init_i (tm_new, 0) =
      ((mkTm (sg b6 (sg nt s)) (sg b6 (sg nt mi)) (sg b6 (sg nt h)) (sg b6 d) (sg b6 (sg ny mo)) (sg b6 (sg ny y)) 0 0 (-1), sg b6 (sg nt us)), Ok i)
      /\ i_fmask i <> 0 /\ i_dtype i = KDelta /\ i_before i = b6) as (i & FI & I1 & I2 & I3).
    { unfold ts. rewrite !rev_app_distr.
      set (R := rev t6 ++ rev t5 ++ rev t4 ++ rev t3 ++ rev t2 ++ rev t1).
      assert (exists ty0, interval_fields md INTERVAL_FULL_RANGE (rev ta ++ R) init_i (tm_new, 0) =
        interval_fields md INTERVAL_FULL_RANGE R (mkI ty0 0 b6 KDelta) (tm_new, 0)) as (ty0 & E0).
      { unfold ta. destruct b6; [|exists (tt_code IgnoreDtf); reflexivity]. cbn [rev app interval_fields].
        rewrite ago_field by reflexivity. cbn [step_bind]. eexists. reflexivity. }
      match goal with |- context [interval_fields ?x1 ?x2 ?x3 ?x4 ?x5] => change (interval_fields x1 x2 x3 x4 x5) with
        (interval_fields md INTERVAL_FULL_RANGE (rev ta ++ R) init_i (tm_new, 0)) end.
      rewrite E0. unfold R.
      destruct (sec_read md b6 nt s us t6 (rev t5 ++ rev t4 ++ rev t3 ++ rev t2 ++ rev t1) ty0 (tm_new, 0) P6 Ts Tu eq_refl eq_refl) as (ty6 & fm6 & -> & H6).
      assert (forall u, has fm6 (umask u) = false) as HU by (intros u; destruct H6 as [(-> & _)|[->| ->]]; destruct u; reflexivity).
      match goal with |- context [interval_fields md _ _ _ (s_fsec ?A (s_sec ?B ?X))] =>
        change (s_fsec A (s_sec B X)) with (mkTm (sg b6 (sg nt s)) 0 0 0 0 0 0 0 (-1), sg b6 (sg nt us)) end.
      assert (forall v, Z.abs v <= i32_max -> in_i32 (sg b6 v)) as RI.
      { intros v V. apply (sg_le b6) in V. unfold i32_max in V. rng. lia. }
      destruct (opt_part md UMin (sg b6 (sg nt mi)) t5 (rev t4 ++ rev t3 ++ rev t2 ++ rev t1) (mkI ty6 fm6 b6 KDelta)
        (mkTm (sg b6 (sg nt s)) 0 0 0 0 0 0 0 (-1), sg b6 (sg nt us)) Q5 (RI _ Rmi) eq_refl (HU UMin)) as (ty5 & fm5 & -> & G5 & Y5).
      cbn [i_before i_dtype i_fmask] in *.
      destruct (opt_part md UHour (sg b6 (sg nt h)) t4 (rev t3 ++ rev t2 ++ rev t1) (mkI ty5 fm5 b6 KDelta)
        (mkTm (sg b6 (sg nt s)) (sg b6 (sg nt mi)) 0 0 0 0 0 0 (-1), sg b6 (sg nt us)) Q4 (RI _ Rh) eq_refl (G5 (umask UHour) eq_refl (HU UHour))) as (ty4 & fm4 & E4' & G4 & Y4).
      cbn [i_before i_dtype i_fmask] in *.
      change (uset UMin (sg b6 (sg nt mi)) (mkTm (sg b6 (sg nt s)) 0 0 0 0 0 0 0 (-1), sg b6 (sg nt us))) with (mkTm (sg b6 (sg nt s)) (sg b6 (sg nt mi)) 0 0 0 0 0 0 (-1), sg b6 (sg nt us)).
      rewrite E4'. clear E4'.
      destruct (opt_part md UDay (sg b6 d) t3 (rev t2 ++ rev t1) (mkI ty4 fm4 b6 KDelta)
        (mkTm (sg b6 (sg nt s)) (sg b6 (sg nt mi)) (sg b6 (sg nt h)) 0 0 0 0 0 (-1), sg b6 (sg nt us)) Q3 (RI _ D) eq_refl
        (G4 (umask UDay) eq_refl (G5 (umask UDay) eq_refl (HU UDay)))) as (ty3 & fm3 & E3' & G3 & Y3).
      cbn [i_before i_dtype i_fmask] in *.
      change (uset UHour (sg b6 (sg nt h)) (mkTm (sg b6 (sg nt s)) (sg b6 (sg nt mi)) 0 0 0 0 0 0 (-1), sg b6 (sg nt us))) with (mkTm (sg b6 (sg nt s)) (sg b6 (sg nt mi)) (sg b6 (sg nt h)) 0 0 0 0 0 (-1), sg b6 (sg nt us)).
      rewrite E3'. clear E3'.
      destruct (opt_part md UMon (sg b6 (sg ny mo)) t2 (rev t1) (mkI ty3 fm3 b6 KDelta)
        (mkTm (sg b6 (sg nt s)) (sg b6 (sg nt mi)) (sg b6 (sg nt h)) (sg b6 d) 0 0 0 0 (-1), sg b6 (sg nt us)) Q2 (RI _ Rmo) eq_refl
        (G3 (umask UMon) eq_refl (G4 (umask UMon) eq_refl (G5 (umask UMon) eq_refl (HU UMon))))) as (ty2 & fm2 & E2' & G2 & Y2).
      cbn [i_before i_dtype i_fmask] in *.
      change (uset UDay (sg b6 d) (mkTm (sg b6 (sg nt s)) (sg b6 (sg nt mi)) (sg b6 (sg nt h)) 0 0 0 0 0 (-1), sg b6 (sg nt us))) with (mkTm (sg b6 (sg nt s)) (sg b6 (sg nt mi)) (sg b6 (sg nt h)) (sg b6 d) 0 0 0 0 (-1), sg b6 (sg nt us)).
      rewrite E2'. clear E2'. rewrite <- (app_nil_r (rev t1)).
      destruct (opt_part md UYear (sg b6 (sg ny y)) t1 [] (mkI ty2 fm2 b6 KDelta)
        (mkTm (sg b6 (sg nt s)) (sg b6 (sg nt mi)) (sg b6 (sg nt h)) (sg b6 d) (sg b6 (sg ny mo)) 0 0 0 (-1), sg b6 (sg nt us)) Q1 (RI _ Ry) eq_refl
        (G2 (umask UYear) eq_refl (G3 (umask UYear) eq_refl (G4 (umask UYear) eq_refl (G5 (umask UYear) eq_refl (HU UYear)))))) as (ty1 & fm1 & E1' & G1 & Y1).
      cbn [i_before i_dtype i_fmask] in *.
      change (uset UMon (sg b6 (sg ny mo)) (mkTm (sg b6 (sg nt s)) (sg b6 (sg nt mi)) (sg b6 (sg nt h)) (sg b6 d) 0 0 0 0 (-1), sg b6 (sg nt us))) with (mkTm (sg b6 (sg nt s)) (sg b6 (sg nt mi)) (sg b6 (sg nt h)) (sg b6 d) (sg b6 (sg ny mo)) 0 0 0 (-1), sg b6 (sg nt us)).
      rewrite E1'. clear E1'.
      eexists. split; [reflexivity|]. cbn [i_fmask i_dtype i_before]. split; [|auto].
      apply Y1. destruct (Z.eq_dec (sg b6 (sg ny y)) 0) as [Ey|]; [left|now right].
      apply Y2. destruct (Z.eq_dec (sg b6 (sg ny mo)) 0) as [Em|]; [left|now right].
      apply Y3. destruct (Z.eq_dec (sg b6 d) 0) as [Ed|]; [left|now right].
      apply Y4. destruct (Z.eq_dec (sg b6 (sg nt h)) 0) as [Eh|]; [left|now right].
      apply Y5. destruct (Z.eq_dec (sg b6 (sg nt mi)) 0) as [Ei|]; [left|now right].
      destruct H6 as [(_ & -> & ->)|[->| ->]]; [|discriminate|discriminate].
      apply sg_eq0 in Ey, Em, Ed, Eh, Ei. rewrite Ey in Z1. rewrite Em in Z2. rewrite Ed in Z3. rewrite Eh in Z4. rewrite Ei in Z5.
      subst. discriminate. }
    apply (read_plain md _ _ st (sg b6 (sg nt s)) (sg b6 (sg nt mi)) (sg b6 (sg nt h)) (sg b6 d) (sg b6 (sg ny mo)) (sg b6 (sg ny y)) 0 0 (-1) (sg b6 (sg nt us)) i a St PT FI I1 I2).
    + intros Q. rewrite Q in FI. cbn [rev interval_fields] in FI. apply (f_equal snd) in FI. cbn [snd] in FI. injection FI as Ei. apply I1. now rewrite <- Ei.
    + apply sg_le. rewrite sg_abs; lia.
    + enough (Z.abs (sg b6 (sg ny mo)) <= 11) by lia. apply sg_le. rewrite sg_abs; lia.
    + left. now apply sg_le.
    + now apply sg_le.
    + do 2 apply one_sign_sg. left. lia.
    + exact Ra.
    + rewrite I3, A1. clear. destruct b6, ny; cbn [sg]; lia.
    + rewrite I3. symmetry. apply sg_sg.
    + rewrite I3, A3. clear. unfold clock. destruct b6, nt; cbn [sg]; lia.
Qed.
