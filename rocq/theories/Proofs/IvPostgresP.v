(** Interval text in the Postgres styles: layout, length and reading back. *)
From Verif Require Import Model.Parse Spec.Calendar Spec.Ranges Spec.Clock Spec.Text Spec.IntervalS
  Proofs.Arith Proofs.TsP Proofs.IntervalP Proofs.IvTruncP Proofs.DigitsP Proofs.FormatP Proofs.ParseP
  Proofs.RoundTripP Proofs.IvParseP Proofs.IvReadP.
Open Scope Z_scope.

(** ** The fields of an interval *)
Lemma readable_writable a : readable_iv a -> writable_iv a.
Proof.
  intros (F & M & D). split; [exact F|]. split; [|exact D]. unfold minutes_fit in M.
  pose proof (Z.quot_rem' (iv_time a) 60000000) as E. pose proof (Z.rem_bound_abs (iv_time a) 60000000 ltac:(lia)).
  set (q := Z.quot _ _) in *. set (r := Z.rem _ _) in *. clearbody q r. clear - E M H. lia.
Qed.
Lemma read_back_iff md a r : read_back md a r -> (r = Ok a <-> minutes_fit a).
Proof.
  intros (P & N). split; [|exact P]. intros ->.
  assert (minutes_fit a \/ ~ minutes_fit a) as [M|M]; [|exact M|].
  { unfold minutes_fit. lia. }
  specialize (N M). destruct md; [discriminate|]. destruct N as (c & E & D). destruct a. cbn in *. congruence.
Qed.
Lemma readable_back md a r : readable_iv a -> read_back md a r -> r = Ok a.
Proof. intros (_ & M & _) (H & _). auto. Qed.

Lemma sg_abs neg v : 0 <= v -> Z.abs (sg neg v) = v.
Proof. destruct neg; cbn; lia. Qed.

Definition time_ok (nt : bool) (h mi s us : Z) : Prop :=
  0 <= h <= 2147483647 /\ 0 <= mi < 60 /\ 0 <= s < 60 /\ 0 <= us < 1000000
  /\ (nt = true -> 0 < h \/ 0 < mi \/ 0 < s \/ 0 < us).
Definition month_ok (ny : bool) (y mo : Z) : Prop :=
  0 <= y <= 178956970 /\ 0 <= mo < 12 /\ (ny = true -> 0 < y \/ 0 < mo).

Lemma split_months m : in_i32 m -> exists ny y mo, Z.quot m 12 = sg ny y /\ Z.rem m 12 = sg ny mo /\ month_ok ny y mo
  /\ m = sg ny (y * 12 + mo).
Proof.
  intros H. unfold month_ok. rng. exists (m <? 0), (Z.abs m / 12), (Z.abs m mod 12).
  assert (m = sg (m <? 0) (Z.abs m)) as E by (destruct (Z.ltb_spec m 0); cbn [sg]; lia).
  assert (0 <= Z.abs m <= 2147483648) as B by lia. assert (m < 0 -> 0 < Z.abs m) as B' by lia.
  destruct (Z.ltb_spec m 0); cbn [sg] in *; set (n := Z.abs m) in *; clearbody n; subst m.
  - rewrite Z.quot_opp_l, Z.rem_opp_l, Z.quot_div_nonneg, Z.rem_mod_nonneg by lia. repeat split; try lia.
  - rewrite Z.quot_div_nonneg, Z.rem_mod_nonneg by lia. repeat split; try lia; discriminate.
Qed.

Lemma split_time t : Z.abs t < 2147483648 * 3600000000 -> exists nt h mi s us,
  Z.quot t 3600000000 = sg nt h /\ Z.quot (Z.rem t 3600000000) 60000000 = sg nt mi
  /\ Z.quot (Z.rem t 60000000) 1000000 = sg nt s /\ Z.rem t 1000000 = sg nt us /\ time_ok nt h mi s us
  /\ t = sg nt (clock h mi s us).
Proof.
  intros H. unfold time_ok, clock.
  exists (t <? 0), (Z.abs t / 3600000000), ((Z.abs t mod 3600000000) / 60000000), ((Z.abs t mod 60000000) / 1000000), (Z.abs t mod 1000000).
  assert (0 <= Z.abs t) as N by lia.
  assert (t = sg (t <? 0) (Z.abs t)) as E by (destruct (Z.ltb_spec t 0); cbn [sg]; lia).
  assert (0 <= Z.abs t / 3600000000 <= 2147483647 /\ 0 <= Z.abs t mod 3600000000 / 60000000 < 60
   /\ 0 <= Z.abs t mod 60000000 / 1000000 < 60 /\ 0 <= Z.abs t mod 1000000 < 1000000 /\
   ((Z.abs t / 3600000000 * 60 + Z.abs t mod 3600000000 / 60000000) * 60 + Z.abs t mod 60000000 / 1000000) * 1000000 + Z.abs t mod 1000000 = Z.abs t) as B.
  { clear E. set (u := Z.abs t) in *. clearbody u. clear t. lia. }
  split; [|split; [|split; [|split; [|split]]]].
  - rewrite E at 1. destruct (Z.ltb_spec t 0); cbn [sg]; rewrite ?Z.quot_opp_l, Z.quot_div_nonneg by lia; reflexivity.
  - rewrite E at 1. assert (0 <= Z.abs t mod 3600000000) by (apply Z.mod_pos_bound; lia).
    destruct (Z.ltb_spec t 0); cbn [sg]; rewrite ?Z.rem_opp_l, Z.rem_mod_nonneg, ?Z.quot_opp_l, Z.quot_div_nonneg by lia; reflexivity.
  - rewrite E at 1. assert (0 <= Z.abs t mod 60000000) by (apply Z.mod_pos_bound; lia).
    destruct (Z.ltb_spec t 0); cbn [sg]; rewrite ?Z.rem_opp_l, Z.rem_mod_nonneg, ?Z.quot_opp_l, Z.quot_div_nonneg by lia; reflexivity.
  - rewrite E at 1. destruct (Z.ltb_spec t 0); cbn [sg]; rewrite ?Z.rem_opp_l, Z.rem_mod_nonneg by lia; reflexivity.
  - destruct B as (B1 & B2 & B3 & B4 & B5). repeat split; try lia.
  - destruct B as (B1 & B2 & B3 & B4 & B5). rewrite E at 1. f_equal.
    replace (Z.abs t) with (((Z.abs t / 3600000000 * 60 + Z.abs t mod 3600000000 / 60000000) * 60 + Z.abs t mod 60000000 / 1000000) * 1000000 + Z.abs t mod 1000000) at 1 by exact B5.
    lia.
Qed.

Lemma fields_of md a : writable_iv a -> exists ny y mo nt h mi s us,
  interval_to_pgtime md a = Ok (mkTm (sg nt s) (sg nt mi) (sg nt h) (iv_day a) (sg ny mo) (sg ny y) 0 0 (-1), sg nt us)
  /\ month_ok ny y mo /\ time_ok nt h mi s us /\ Z.abs (iv_day a) <= i32_max
  /\ iv_month a = sg ny (y * 12 + mo) /\ iv_time a = sg nt (clock h mi s us) /\ in_i32 (iv_month a).
Proof.
  intros (F & T & D). pose proof F as (Fm & Fd & Ft).
  destruct (split_months (iv_month a) Fm) as (ny & y & mo & E1 & E2 & M & EM).
  destruct (split_time (iv_time a) T) as (nt & h & mi & s & us & E3 & E4 & E5 & E6 & TT & ET).
  exists ny, y, mo, nt, h, mi, s, us. split; [|split; [|split; [|split; [|split; [|split]]]]]; auto.
  - rewrite iv_to_pgtime_ok by easy. unfold iv_tm, iv_us. rewrite E1, E2, E3, E4, E5, E6.
    rewrite in32b_true; [reflexivity|]. destruct TT as (H & _). rng. destruct nt; cbn [sg]; lia.
  - rng. unfold i32_max, i32_min in *. lia.
Qed.

(** ** Numbers and their tokens *)
Lemma decimal_facts n ds : decimal n ds -> forallb is_digit ds = true /\ ds <> [] /\ 0 <= n.
Proof.
  intros ((F & N & V) & _). split; [now apply digits_forallb|]. split; [easy|].
  rewrite <- V. now apply digits_value_bound.
Qed.
Lemma digits_no_colon l : forallb is_digit l = true -> existsb (fun b => b =? 58) l = false.
Proof.
  induction l as [|c l IH]; cbn; [easy|]. intros E. apply andb_prop in E as [E1 E2]. rewrite IH by easy.
  apply is_digit_iff in E1. unfold digit in E1. destruct (Z.eqb_spec c 58); [lia|easy].
Qed.
Lemma digits_signed l : forallb is_digit l = true -> forallb signed_char l = true.
Proof. apply forallb_weaken. intros x E. unfold signed_char. now rewrite E. Qed.
Lemma digits_head l : forallb is_digit l = true -> l <> [] -> match l with d :: _ => is_digit d = true | [] => False end.
Proof. destruct l as [|c r]; [easy|]. cbn. intros E _. now apply andb_prop in E. Qed.

Lemma num_piece v (plus : bool) t : int_text v t -> in_i32 v -> (length t <= 11)%nat -> (plus = true -> 0 <= v) ->
  exists k, piece ((if plus then [43] else []) ++ t) (k, (if plus then [43] else []) ++ t)
    /\ num_token v (k, (if plus then [43] else []) ++ t).
Proof.
  intros I R L P. unfold int_text in I. destruct (Z.ltb_spec v 0) as [N|N].
  - destruct I as (ds & -> & D). destruct (decimal_facts _ _ D) as (F & Ne & _). cbn [length] in L.
    destruct plus; [specialize (P eq_refl); lia|]. cbn [app]. exists (Some KTz). split.
    + apply piece_signed; [auto|now apply digits_head|now apply digits_signed].
    + split.
      * right. cbn [fst snd existsb]. split; [easy|]. split; [eauto|]. now rewrite digits_no_colon.
      * cbn [snd]. rewrite <- (app_nil_r ds). rewrite (str2i32_neg (- v)); [now rewrite Z.opp_involutive| | |rng; lia|exact Logic.I].
        -- now destruct D. -- lia.
  - destruct (decimal_facts _ _ I) as (F & Ne & _). pose proof (padded_len _ _ _ 10 (proj1 (decimal_padded1 _ _) I)) as L10.
    assert (length t <= 10)%nat as L'.
    { apply L10; [|lia]. change (10 ^ Z.of_nat 10) with 10000000000. rng. lia. }
    destruct plus; cbn [app].
    + exists (Some KTz). split.
      * apply piece_signed; [auto|now apply digits_head|now apply digits_signed].
      * split.
        -- right. cbn [fst snd existsb]. split; [easy|]. split; [eauto|]. now rewrite digits_no_colon.
        -- cbn [snd]. rewrite <- (app_nil_r t). rewrite (str2i32_pos v); [easy|now destruct I|lia|rng; lia|exact Logic.I].
    + exists (Some KNumber). split; [now apply piece_number|]. split; [now left|].
      cbn [snd]. rewrite <- (app_nil_r t). rewrite (str2i32_numeral v); [easy|now destruct I|lia|rng; lia|exact Logic.I].
Qed.

Definition uword (u : unit5) : bytes :=
  match u with UYear => bs "year" | UMon => bs "mon" | UDay => bs "day" | UHour => bs "hour" | UMin => bs "min" end.
Lemma unit_word u (pl : bool) : let w := uword u ++ (if pl then [115] else []) in
  piece w (Some KString, w) /\ decode_units w = Ok (UNITS, ucode u) /\ (length w <= 5)%nat.
Proof.
  cbv zeta. split; [|destruct u, pl; split; vm_compute; (reflexivity || lia)].
  assert (lowers (uword u ++ (if pl then [115] else [])) = uword u ++ (if pl then [115] else [])) as E by (destruct u, pl; reflexivity).
  rewrite <- E at 2. apply piece_word; destruct u, pl; (reflexivity || discriminate).
Qed.

(** ** Postgres style *)
Definition joined (z : bool) (T : bytes) (ps : list bytes) : Prop :=
  if z then T = [] /\ ps = [] else 32 :: T = spaced ps.

Lemma joined_add z T ps ps' : ps' <> [] -> joined z T ps ->
  exists tx, spaced ps' = 32 :: tx /\ joined false (T ++ (if z then [] else [32]) ++ tx) (ps ++ ps').
Proof.
  intros N J. destruct ps' as [|p ps']; [easy|]. exists (p ++ spaced ps'). split; [reflexivity|].
  unfold joined in *. destruct z.
  - destruct J as [-> ->]. reflexivity.
  - rewrite spaced_app, <- J. reflexivity.
Qed.

Lemma pg_part u v z b T ps : in_i32 v -> joined z T ps ->
  exists tx z' b' ps' ts', add_postgres_int_part v (uword u) (z, b) = Ok (tx, (z', b'))
    /\ joined z' (T ++ tx) (ps ++ ps') /\ Forall2 piece ps' ts' /\ part_tokens u v ts'
    /\ (length tx <= 19)%nat /\ (length ps' <= 2)%nat /\ z' = (z && (v =? 0)).
Proof.
  intros R J. unfold add_postgres_int_part, part_tokens. destruct (Z.eqb_spec v 0) as [->|N].
  - exists [], z, b, [], []. rewrite !app_nil_r, andb_true_r. repeat split; auto; cbn; lia.
  - destruct (pg_ltostr_ok v R) as (t & -> & I & L). cbn [bind].
    destruct (num_piece v (b && (0 <? v)) t I R L) as (k & P & NT); [intros E; lia|].
    set (nt := (if b && (0 <? v) then [43] else []) ++ t) in *.
    destruct (unit_word u (negb (v =? 1))) as (Pw & Dw & Lw).
    set (w := uword u ++ (if negb (v =? 1) then [115] else [])) in *.
    destruct (joined_add z T ps [nt; w] ltac:(discriminate) J) as (tx & Etx & Jt).
    exists ((if z then [] else [32]) ++ tx), false, (v <? 0), [nt; w], [(k, nt); (Some KString, w)].
    cbn in Etx. rewrite app_nil_r in Etx. injection Etx as <-.
    split; [|split; [exact Jt|split; [|split; [|split; [|split]]]]].
    + unfold nt. rewrite <- !app_assoc. reflexivity.
    + constructor; [exact P|constructor; [exact Pw|constructor]].
    + exists (k, nt), w. auto.
    + assert (length nt <= 12)%nat.
      { unfold nt. rewrite app_length. destruct (b && (0 <? v)); cbn [length]; lia. }
      rewrite !app_length. cbn [length].
      destruct z; cbn [length]; lia.
    + cbn; lia.
    + now rewrite andb_false_r.
Qed.

Lemma hms_abs md nt h mi s us : time_ok nt h mi s us ->
  abs32 md (sg nt h) = Ok h /\ abs32 md (sg nt mi) = Ok mi /\
  exists th tmi tse, pg_ltostr_zeropad md h 2 = Ok th /\ pg_ltostr_zeropad md mi 2 = Ok tmi /\
   append_seconds md (sg nt s) (sg nt us) MAX_PRECISION true = Ok tse /\
   clock_text 2 h mi s us (th ++ 58 :: tmi ++ 58 :: tse).
Proof.
  intros (Hh & Hm & Hs & Hu & _).
  assert (forall v, 0 <= v <= i32_max -> abs32 md (sg nt v) = Ok v) as A.
  { intros v V. unfold abs32. rewrite sg_abs by lia. apply ar32_ok. rng. unfold i32_max in *. lia. }
  rewrite !A by (unfold i32_max; lia). split; [easy|]. split; [easy|].
  destruct (zeropad_ok md 2 h ltac:(lia) ltac:(rng; lia)) as (th & E1 & Ph & _).
  destruct (zeropad_ok md 2 mi ltac:(lia) ltac:(rng; lia)) as (tmi & E2 & Pm & _).
  destruct (append_seconds_ok md (sg nt s) (sg nt us) true) as (ts & E & Ps); [destruct nt; cbn [sg]; lia..|].
  rewrite !sg_abs in Ps by lia. exists th, tmi, ts. repeat split; auto. exists th, tmi, ts. auto.
Qed.

Lemma sg_nz nt v : 0 <= v -> nz (sg nt v) = (0 <? v).
Proof. intros H. unfold nz, sg. destruct nt, (Z.ltb_spec 0 v); rewrite ?negb_true_iff, ?negb_false_iff, ?Z.eqb_neq, ?Z.eqb_eq; lia. Qed.
Lemma sg_neg nt v : 0 <= v -> (sg nt v <? 0) = (nt && (0 <? v)).
Proof. intros H. destruct nt; cbn [sg andb]; lia. Qed.
Lemma sg_pos nt v : 0 <= v -> (0 <? sg nt v) = (negb nt && (0 <? v)).
Proof. intros H. destruct nt; cbn [sg andb negb]; lia. Qed.

Lemma time_neg nt h mi s us : time_ok nt h mi s us ->
  ((sg nt h <? 0) || (sg nt mi <? 0) || (sg nt s <? 0) || (sg nt us <? 0)) = nt.
Proof.
  intros (Hh & Hm & Hs & Hu & N). rewrite !sg_neg by lia. destruct nt; cbn [andb orb]; [|easy].
  specialize (N eq_refl). lia.
Qed.
Lemma clock_zero h mi s us : 0 <= h -> 0 <= mi -> 0 <= s -> 0 <= us ->
  (0 <? h) || (0 <? mi) || (0 <? s) || (0 <? us) = false -> h = 0 /\ mi = 0 /\ s = 0 /\ us = 0.
Proof. lia. Qed.

(** The optional clock of the Postgres style. *)
Definition clock_tokens (nt : bool) (h mi s us : Z) (ts : list token) : Prop :=
  exists t, clock_text 2 h mi s us t /\
  (ts = [(Some KTime, t)] /\ nt = false \/ exists c, (c = if nt then 45 else 43) /\ ts = [(Some KTz, c :: t)]).

Lemma clock_read md nt h mi s us ts rest tm us0 : clock_tokens nt h mi s us ts -> time_ok nt h mi s us ->
  interval_fields md INTERVAL_FULL_RANGE (rev ts ++ rest) init_i (tm, us0) =
  interval_fields md INTERVAL_FULL_RANGE rest (mkI (kcode KDay) DTK_TIME_M false KDelta)
    (put_clock (sg nt h) (sg nt mi) (sg nt s) (sg nt us) (tm, us0)).
Proof.
  intros (t & C & H) (Hh & Hm & Hs & Hu & _). destruct H as [[-> ->]|(c & -> & ->)]; cbn [rev app interval_fields].
  - rewrite (clock_field md 2 h mi s us) by (auto; try lia; rng; lia). reflexivity.
  - rewrite (signed_clock_field md _ 2 h mi s us) by (auto; try (destruct nt; auto); try lia; rng; lia).
    destruct nt; reflexivity.
Qed.

Lemma clock_piece2 (c : bool) d w h mi s us t : clock_text w h mi s us t -> d = 43 \/ d = 45 ->
  piece ((if c then [d] else []) ++ t) (Some (if c then KTz else KTime), (if c then [d] else []) ++ t).
Proof.
  intros C D. destruct c; cbn [app]; [|now apply (piece_clock w h mi s us)].
  apply piece_signed; [lia| |now apply (clock_chars w h mi s us)].
  destruct (clock_cons _ _ _ _ _ _ C) as (x & r & -> & E). exact E.
Qed.

Definition iv_len : nat := 100.

Lemma postgres_ok md a : writable_iv a ->
  exists txt, interval_format md a IPostgres = Ok txt /\ (length txt <= iv_len)%nat
  /\ forall st, plain_style st = true -> read_back md a (interval_try_from_str md txt (-1) st).
Proof.
  intros A. destruct (fields_of md a A) as (ny & y & mo & nt & h & mi & s & us & E & M & T & D & A1 & A3 & Ra).
  unfold interval_format. rewrite E. cbn [bind fst snd format_interval]. unfold format_postgres.
  cbn [tm_year tm_mon tm_mday tm_hour tm_min tm_sec]. cbv zeta.
  pose proof M as (My & Mmo & Mn). pose proof T as (Th & Tmi & Ts & Tu & Tn).
  assert (in_i32 (sg ny y)) as Ry by (rng; destruct ny; cbn [sg]; lia).
  assert (in_i32 (sg ny mo)) as Rmo by (rng; destruct ny; cbn [sg]; lia).
  assert (in_i32 (iv_day a)) as Rd by (unfold i32_max in D; rng; lia).
  destruct (pg_part UYear (sg ny y) true false [] [] Ry (conj eq_refl eq_refl)) as (ty & z1 & b1 & p1 & t1 & E1 & J1 & F1 & PT1 & L1 & N1 & Z1).
  change (bs "year") with (uword UYear). rewrite E1. cbn [bind]. cbn [app] in J1.
  destruct (pg_part UMon (sg ny mo) z1 b1 ty p1 Rmo J1) as (tmo & z2 & b2 & p2 & t2 & E2 & J2 & F2 & PT2 & L2 & N2 & Z2).
  change (bs "mon") with (uword UMon). rewrite E2. cbn [bind].
  destruct (pg_part UDay (iv_day a) z2 b2 _ _ Rd J2) as (td & z3 & b3 & p3 & t3 & E3 & J3 & F3 & PT3 & L3 & N3 & Z3).
  change (bs "day") with (uword UDay). rewrite E3. cbn [bind].
  rewrite !sg_nz by lia.
  destruct (hms_abs md nt h mi s us T) as (B1 & B2 & th & tmi & tse & B3 & B4 & B5 & C).
  rewrite B1. cbn [bind]. rewrite B3. cbn [bind]. rewrite B2. cbn [bind]. rewrite B4. cbn [bind]. rewrite B5. cbn [bind].
  rewrite time_neg by easy.
  set (tc := th ++ 58 :: tmi ++ 58 :: tse) in *.
  assert (length tc <= 26)%nat as Lc.
  { apply (clock_len _ _ _ _ _ _ 10) in C; [lia|..]; change (10 ^ Z.of_nat 10) with 10000000000; lia. }
  set (shown := z3 || (0 <? h) || (0 <? mi) || (0 <? s) || (0 <? us)).
  set (sgn := if nt then [45] else if b3 then [43] else []).
  assert (exists pc, (if shown then Ok ((if z3 then [] else [32]) ++ sgn ++ tc) else Ok []) = Ok pc /\ (length pc <= 28)%nat
    /\ exists p4 t4, joined false (((ty ++ tmo) ++ td) ++ pc) (((p1 ++ p2) ++ p3) ++ p4) /\ Forall2 piece p4 t4 /\ (length p4 <= 1)%nat
    /\ (if shown then clock_tokens nt h mi s us t4 else t4 = [])) as (pc & Epc & Lpc & p4 & t4 & J4 & F4 & N4 & CT).
  { destruct shown eqn:Sh.
    - destruct (joined_add z3 _ _ [sgn ++ tc] ltac:(discriminate) J3) as (tx & Etx & Jt).
      cbn in Etx. rewrite app_nil_r in Etx. injection Etx as <-.
      eexists. split; [reflexivity|]. split.
      { rewrite !app_length. unfold sgn. destruct z3, nt, b3; cbn [length]; lia. }
      assert (exists t4, piece (sgn ++ tc) t4 /\ clock_tokens nt h mi s us [t4]) as (t4 & P4 & C4).
      { exists (Some (if (nt || b3)%bool then KTz else KTime), sgn ++ tc). split.
        - pose proof (clock_piece2 (nt || b3) (if nt then 45 else 43) _ _ _ _ _ _ C) as Q.
          unfold sgn. destruct nt, b3; cbn [orb] in Q; apply Q; auto.
        - exists tc. split; [exact C|]. unfold sgn. destruct nt, b3; cbn; eauto. }
      exists [sgn ++ tc], [t4]. split; [exact Jt|]. split; [auto|]. split; [cbn; lia|easy].
    - destruct z3; [discriminate|]. eexists. split; [reflexivity|]. split; [cbn; lia|].
      exists [], []. rewrite !app_nil_r. split; [exact J3|]. split; [auto|]. split; [cbn; lia|]. reflexivity. }
  match goal with |- context [bind ?X _] => change X with (bind (if shown then Ok ((if z3 then [] else [32]) ++ sgn ++ tc) else Ok []) (fun t => Ok (ty ++ tmo ++ td ++ t))) end.
  rewrite Epc. cbn [bind].
  replace (ty ++ tmo ++ td ++ pc) with (((ty ++ tmo) ++ td) ++ pc) by now rewrite <- !app_assoc.
  set (txt := ((ty ++ tmo) ++ td) ++ pc) in *.
  assert (length txt <= iv_len)%nat as Lt by (unfold txt, iv_len; rewrite !app_length; lia).
  exists txt. split; [apply fits_ok; unfold iv_len in Lt; lia|]. split; [exact Lt|].
  intros st St. cbn [joined] in J4.
  assert (Forall2 piece (((p1 ++ p2) ++ p3) ++ p4) (((t1 ++ t2) ++ t3) ++ t4)) as FF by (repeat apply Forall2_app; auto).
  assert (parse_date_time txt = Ok (((t1 ++ t2) ++ t3) ++ t4)) as PT.
  { apply (parse_pieces _ _ _ J4 FF); [rewrite !app_length; lia|unfold iv_len in Lt; lia]. }
  assert (exists i, interval_fields md INTERVAL_FULL_RANGE (rev (((t1 ++ t2) ++ t3) ++ t4)) init_i (tm_new, 0) =
    ((mkTm (sg nt s) (sg nt mi) (sg nt h) (iv_day a) (sg ny mo) (sg ny y) 0 0 (-1), sg nt us), Ok i)
    /\ i_fmask i <> 0 /\ i_dtype i = KDelta /\ i_before i = false) as (i & FI & I1 & I2 & I3).
  { rewrite !rev_app_distr.
    assert (exists ty0 fm0, interval_fields md INTERVAL_FULL_RANGE (rev t4 ++ rev t3 ++ rev t2 ++ rev t1) init_i (tm_new, 0) =
      interval_fields md INTERVAL_FULL_RANGE (rev t3 ++ rev t2 ++ rev t1) (mkI ty0 fm0 false KDelta) (mkTm (sg nt s) (sg nt mi) (sg nt h) 0 0 0 0 0 (-1), sg nt us)
      /\ has fm0 (umask UDay) = false /\ has fm0 (umask UMon) = false /\ has fm0 (umask UYear) = false
      /\ (fm0 <> 0 \/ z3 = false)) as (ty0 & fm0 & -> & H1 & H2 & H3 & H4).
    { destruct shown eqn:Sh.
      - rewrite (clock_read md nt h mi s us) by easy. eexists _, _. split; [reflexivity|].
        repeat split; try (vm_compute; reflexivity). left. discriminate.
      - subst t4. unfold shown in Sh. destruct z3; [discriminate|]. cbn [orb] in Sh.
        destruct (clock_zero h mi s us) as (-> & -> & -> & ->); try lia; auto.
        exists (tt_code IgnoreDtf), 0. replace (sg nt 0) with 0 by now destruct nt. cbn [rev app].
        repeat split. now right. }
    destruct (opt_part md UDay (iv_day a) t3 (rev t2 ++ rev t1) (mkI ty0 fm0 false KDelta) (mkTm (sg nt s) (sg nt mi) (sg nt h) 0 0 0 0 0 (-1), sg nt us) PT3 Rd eq_refl H1) as (ty1 & fm1 & -> & G1 & Q1).
    cbn [i_before i_dtype i_fmask] in *.
    destruct (opt_part md UMon (sg ny mo) t2 (rev t1) (mkI ty1 fm1 false KDelta) (uset UDay (iv_day a) (mkTm (sg nt s) (sg nt mi) (sg nt h) 0 0 0 0 0 (-1), sg nt us)) PT2 Rmo eq_refl (G1 (umask UMon) eq_refl H2)) as (ty2 & fm2 & -> & G2 & Q2).
    cbn [i_before i_dtype i_fmask] in *.
    rewrite <- (app_nil_r (rev t1)).
    destruct (opt_part md UYear (sg ny y) t1 [] (mkI ty2 fm2 false KDelta) (uset UMon (sg ny mo) (uset UDay (iv_day a) (mkTm (sg nt s) (sg nt mi) (sg nt h) 0 0 0 0 0 (-1), sg nt us))) PT1 Ry eq_refl (G2 (umask UYear) eq_refl (G1 (umask UYear) eq_refl H3))) as (ty3 & fm3 & -> & G3 & Q3).
    cbn [i_before i_dtype i_fmask] in *.
    eexists. split; [reflexivity|]. cbn [i_fmask i_dtype i_before]. split; [|auto].
    apply Q3. destruct (Z.eq_dec (sg ny y) 0) as [Ey|]; [left|now right].
    apply Q2. destruct (Z.eq_dec (sg ny mo) 0) as [Em|]; [left|now right].
    apply Q1. destruct H4 as [|H4]; [now left|right]. intros Ed.
    rewrite Ey in Z1. rewrite Em in Z2. rewrite Ed in Z3. subst. discriminate. }
  apply (read_plain md txt _ st (sg nt s) (sg nt mi) (sg nt h) (iv_day a) (sg ny mo) (sg ny y) 0 0 (-1) (sg nt us) i a St PT FI I1 I2); rewrite ?sg_abs, ?I3 by lia; auto; try lia.
  - intros Q. rewrite Q in FF. inversion FF as [Q2|]. rewrite <- Q2 in J4. discriminate J4.
  - unfold i32_max. lia.
  - apply one_sign_sg. left. lia.
  - cbn [sg]. rewrite A1. destruct ny; cbn [sg]; lia.
  - cbn [sg]. rewrite A3. unfold clock. destruct nt; cbn [sg]; lia.
Qed.
