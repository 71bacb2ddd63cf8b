(** Interval text in the SQL standard style: layout, length and reading back. *)
From Verif Require Import Model.Parse Spec.Calendar Spec.Ranges Spec.Clock Spec.Text Spec.IntervalS
  Proofs.Arith Proofs.TsP Proofs.IntervalP Proofs.IvTruncP Proofs.DigitsP Proofs.FormatP Proofs.ParseP
  Proofs.RoundTripP Proofs.IvParseP Proofs.IvReadP Proofs.IvPostgresP Proofs.IvVerboseP.
Open Scope Z_scope.

Lemma read_sql md txt t rest x i m a : parse_date_time txt = Ok (t :: rest) ->
  interval_fields md INTERVAL_FULL_RANGE (rev (t :: rest)) init_i (tm_new, 0) = (x, Ok i) ->
  i_fmask i <> 0 -> i_dtype i = KDelta -> i_before i = false ->
  Z.abs (snd x) < 1000000 -> in_i32 (tm_sec (fst x)) -> starts_minus (snd t) = Ok m ->
  (let x' := if m && negb (existsb starts_sign rest) then force_negative x else x in
   read_back md a (interval_from_pgtime md (fst x') (snd x'))) ->
  read_back md a (interval_try_from_str md txt (-1) ISQLStandard).
Proof.
  intros P F FM DT B U S M E. unfold interval_try_from_str.
  change (0 <=? -1) with false. cbv iota. rewrite P. cbn [bind].
  unfold decode_interval. fold init_i. cbn [fst].
  rewrite F. cbn [step_bind].
  destruct (Z.eqb_spec (i_fmask i) 0) as [|_]; [easy|].
  destruct x as [tm us]. cbn [fst snd] in *. rewrite carry_none by easy. cbn [step_bind].
  rewrite M, B, DT. cbn [andb step_bind bind]. cbv zeta in E. match type of E with read_back _ _ ?r => destruct r end; exact E.
Qed.

(** ** Year-month fields *)
Definition presign (p : option bool) : bytes := match p with None => [] | Some true => [45] | Some false => [43] end.
Definition pneg (p : option bool) : bool := match p with Some true => true | _ => false end.

Lemma decimal_len n t k : decimal n t -> n < 10 ^ Z.of_nat k -> (1 <= k)%nat -> (length t <= k)%nat.
Proof. intros D. apply (padded_len 1 n t k). now apply decimal_padded1. Qed.

Lemma presign_str p n t s : decimal n t -> n <= i32_max -> stops is_digit s ->
  str2i32 (presign p ++ t ++ s) = Ok (sg (pneg p) n, s).
Proof.
  intros D L S.
  assert (length t <= 10)%nat as Lt by (apply (decimal_len n); [easy|change (10 ^ Z.of_nat 10) with 10000000000; unfold i32_max in L; lia|lia]).
  destruct D as [D _]. destruct p as [[|]|]; cbn [presign app pneg sg].
  - apply str2i32_neg; auto. unfold i32_max in L. lia.
  - now apply str2i32_pos.
  - now apply str2i32_numeral.
Qed.

Lemma starts_minus_pre p t : (exists c r, t = c :: r /\ is_digit c = true) -> starts_minus (presign p ++ t) = Ok (pneg p).
Proof.
  intros (c & r & -> & D). destruct p as [[|]|]; cbn; [reflexivity..|].
  apply is_digit_iff, digit_not_sign in D as [_ ->]. reflexivity.
Qed.

Lemma decimal_cons n t : decimal n t -> exists c r, t = c :: r /\ is_digit c = true.
Proof. intros D. apply (padded_cons 1 n). now apply decimal_padded1. Qed.

Lemma ym_number md p y mo ty tmo u : decimal y ty -> decimal mo tmo -> 0 <= y <= 178956970 -> 0 <= mo < 12 ->
  in_i32 (sg (pneg p) (y * 12 + mo)) ->
  interval_number md (presign p ++ ty ++ 45 :: tmo) u = Ok (kcode KMonth, sg (pneg p) (y * 12 + mo), f0).
Proof.
  intros Dy Dm Hy Hm R. unfold interval_number.
  rewrite (presign_str p y) by (auto; unfold i32_max; lia || reflexivity). cbn [bind].
  change (45 =? 45) with true. cbv iota.
  pose proof (presign_str None mo tmo [] Dm ltac:(unfold i32_max; lia) I) as Q. cbn [presign app pneg sg] in Q.
  rewrite app_nil_r in Q. rewrite Q. cbn [bind]. unfold MONTHS_PER_YEAR.
  destruct (Z.ltb_spec mo 0); [lia|]. destruct (Z.leb_spec 12 mo); [lia|]. cbn [orb].
  rewrite starts_minus_pre.
  2:{ destruct (decimal_cons _ _ Dy) as (c & r & -> & D). cbn [app]. eauto. }
  cbn [bind].
  assert ((if pneg p then neg32 md mo else Ok mo) = Ok (sg (pneg p) mo)) as ->.
  { destruct (pneg p); [|reflexivity]. unfold neg32. rewrite ar32_ok by (rng; lia). reflexivity. }
  cbn [bind].
  replace (sg (pneg p) y * 12 + sg (pneg p) mo) with (sg (pneg p) (y * 12 + mo)) by (destruct (pneg p); cbn [sg]; lia).
  set (tot := sg (pneg p) (y * 12 + mo)) in *.
  destruct (Z.ltb_spec i32_max tot); [rng; unfold i32_max in *; lia|].
  destruct (Z.ltb_spec tot i32_min); [rng; unfold i32_min in *; lia|]. cbn [orb].
  unfold mul32. rewrite ar32_ok by (rng; unfold tot in *; destruct (pneg p); cbn [sg] in *; lia). cbn [bind].
  unfold add32. replace (sg (pneg p) y * 12 + sg (pneg p) mo) with tot by (unfold tot; destruct (pneg p); cbn [sg]; lia).
  rewrite ar32_ok by easy. reflexivity.
Qed.

Lemma ym_step md p y mo ty tmo i x : decimal y ty -> decimal mo tmo -> 0 <= y <= 178956970 -> 0 <= mo < 12 ->
  in_i32 (sg (pneg p) (y * 12 + mo)) -> tm_mon (fst x) = 0 -> has (i_fmask i) (mask MONTH) = false ->
  num_step md INTERVAL_FULL_RANGE (presign p ++ ty ++ 45 :: tmo) i x =
  (s_mon (sg (pneg p) (y * 12 + mo)) x, Ok (mkI (kcode KMonth) (Z.lor (i_fmask i) (mask MONTH)) (i_before i) (i_dtype i))).
Proof.
  intros Dy Dm Hy Hm R X H. unfold num_step, interval_number_field.
  rewrite (ym_number md p y mo) by easy. change (tfield_of (kcode KMonth)) with (Ok (A := tfield) KMonth). cbv iota.
  rewrite X. unfold add32. rewrite Z.add_0_l, ar32_ok by easy. cbn [step_set step_bind].
  unfold adjust_fract_days. rewrite fnz_f0. cbn [negb step_bind fst snd].
  unfold merge_i. cbn [i_set_ty i_fmask i_ty i_before i_dtype]. now rewrite H.
Qed.

Definition ym_kind (p : option bool) : option tfield := Some (match p with None => KDate | _ => KTz end).
Lemma ym_piece p y mo ty tmo : decimal y ty -> decimal mo tmo ->
  piece (presign p ++ ty ++ 45 :: tmo) (ym_kind p, presign p ++ ty ++ 45 :: tmo).
Proof.
  intros Dy Dm. destruct (decimal_facts _ _ Dy) as (F1 & N1 & _). destruct (decimal_facts _ _ Dm) as (F2 & N2 & _).
  destruct p as [b|]; cbn [presign app]; [|now apply piece_pair].
  assert (forallb signed_char (ty ++ 45 :: tmo) = true) as F.
  { rewrite forallb_app. cbn [forallb]. now rewrite !digits_signed. }
  assert (match ty ++ 45 :: tmo with d :: _ => is_digit d = true | [] => False end) as H.
  { destruct (decimal_cons _ _ Dy) as (c & r & -> & D). exact D. }
  destruct b; apply piece_signed; auto.
Qed.
Lemma ym_field md p y mo ty tmo i x : decimal y ty -> decimal mo tmo -> 0 <= y <= 178956970 -> 0 <= mo < 12 ->
  in_i32 (sg (pneg p) (y * 12 + mo)) -> tm_mon (fst x) = 0 -> has (i_fmask i) (mask MONTH) = false ->
  interval_field md INTERVAL_FULL_RANGE (ym_kind p, presign p ++ ty ++ 45 :: tmo) i x =
  (s_mon (sg (pneg p) (y * 12 + mo)) x, Ok (mkI (kcode KMonth) (Z.lor (i_fmask i) (mask MONTH)) (i_before i) (i_dtype i))).
Proof.
  intros Dy Dm Hy Hm R X H. rewrite <- (ym_step md p y mo ty tmo) by easy.
  destruct p as [b|]; [|reflexivity]. cbn [ym_kind]. apply tz_field.
  - destruct b; cbn; eauto.
  - destruct (decimal_facts _ _ Dy) as (F1 & N1 & _). destruct (decimal_facts _ _ Dm) as (F2 & N2 & _).
    rewrite !existsb_app. cbn [existsb]. rewrite (digits_no_colon ty F1), (digits_no_colon tmo F2). destruct b; reflexivity.
Qed.

(** ** The clock without padding *)
Lemma iv_hms_ok md h mi s us n : 0 <= h <= 2147483647 -> 0 <= mi < 60 -> 0 <= s < 60 -> 0 <= us < 1000000 ->
  exists t, iv_hms md h mi (sg n s) (sg n us) = Ok t /\ clock_text 1 h mi s us t /\ (length t <= 26)%nat.
Proof.
  intros Hh Hm Hs Hu. unfold iv_hms.
  destruct (pg_ltostr_nonneg h ltac:(lia)) as (th & -> & Ph & _). cbn [bind].
  destruct (zeropad_ok md 2 mi ltac:(lia) ltac:(rng; lia)) as (tmi & -> & Pm & _). cbn [bind].
  destruct (append_seconds_ok md (sg n s) (sg n us) true) as (ts & E & Ps); [destruct n; cbn [sg]; lia..|].
  unfold MAX_PRECISION. rewrite E. cbn [bind]. rewrite !sg_abs in Ps by lia.
  assert (clock_text 1 h mi s us (th ++ 58 :: tmi ++ 58 :: ts)) as C.
  { exists th, tmi, ts. rewrite <- decimal_padded1. auto. }
  eexists. split; [reflexivity|]. split; [exact C|].
  apply (clock_len _ _ _ _ _ _ 10) in C; [lia|..]; change (10 ^ Z.of_nat 10) with 10000000000; lia.
Qed.

Definition ck_kind (p : option bool) : option tfield := Some (match p with None => KTime | _ => KTz end).
Lemma ck_piece p h mi s us t : clock_text 1 h mi s us t -> piece (presign p ++ t) (ck_kind p, presign p ++ t).
Proof.
  intros C. pose proof (fun c d => clock_piece2 c d _ _ _ _ _ _ C) as Q.
  destruct p as [[|]|]; cbn [presign ck_kind]; [apply (Q true 45)|apply (Q true 43)|apply (Q false 43)]; auto.
Qed.
Lemma ck_field md p h mi s us t i x : clock_text 1 h mi s us t ->
  0 <= h <= i32_max -> 0 <= mi < 60 -> 0 <= s < 60 -> 0 <= us < 1000000 -> has (i_fmask i) DTK_TIME_M = false ->
  interval_field md INTERVAL_FULL_RANGE (ck_kind p, presign p ++ t) i x =
  (put_clock (sg (pneg p) h) (sg (pneg p) mi) (sg (pneg p) s) (sg (pneg p) us) x,
   Ok (mkI (kcode KDay) (Z.lor (i_fmask i) DTK_TIME_M) (i_before i) (i_dtype i))).
Proof.
  intros C Hh Hm Hs Hu H. destruct p as [[|]|]; cbn [presign ck_kind pneg sg app].
  - apply (signed_clock_field md 45 1 h mi s us); auto; lia.
  - apply (signed_clock_field md 43 1 h mi s us); auto; lia.
  - apply (clock_field md 1 h mi s us); auto; lia.
Qed.

(** Days *)
Definition day_kind (p : option bool) : option tfield := Some (match p with None => KNumber | _ => KTz end).
Lemma day_num p n t : decimal n t -> n <= i32_max -> num_token (sg (pneg p) n) (day_kind p, presign p ++ t)
  /\ piece (presign p ++ t) (day_kind p, presign p ++ t).
Proof.
  intros D L. destruct (decimal_facts _ _ D) as (F & N & Hn). split.
  - split.
    + destruct p as [b|]; [right|now left]. cbn [day_kind fst snd]. split; [reflexivity|]. split.
      * destruct b; cbn; eauto.
      * rewrite existsb_app, (digits_no_colon t F). destruct b; reflexivity.
    + cbn [snd]. rewrite <- (app_nil_r t). now apply presign_str.
  - destruct p as [b|]; cbn [presign app day_kind]; [|now apply piece_number].
    destruct b; apply piece_signed; auto using digits_signed; now apply digits_head.
Qed.
Lemma day_field md v t i x : num_token v t -> in_i32 v -> i_ty i = kcode KDay -> tm_mday (fst x) = 0 ->
  has (i_fmask i) (mask DAY) = false ->
  interval_field md INTERVAL_FULL_RANGE t i x =
  (s_mday v x, Ok (mkI (kcode KDay) (Z.lor (i_fmask i) (mask DAY)) (i_before i) (i_dtype i))).
Proof.
  intros N R T X H. rewrite (num_field md _ v) by easy. unfold num_step. rewrite T. change (kcode KDay) with (ucode UDay).
  rewrite (unit_number md UDay (snd t) v x); [|apply N|easy|easy]. cbn [step_bind fst snd].
  unfold merge_i. cbn [i_set_ty i_fmask i_ty i_before i_dtype]. change (umask UDay) with (mask DAY). now rewrite H.
Qed.

Lemma from_fields md a s mi h d mo us : fields_ok a -> Z.abs h <= i32_max -> one_sign h mi s us ->
  iv_month a = mo -> iv_day a = d -> iv_time a = clock h mi s us ->
  read_back md a (interval_from_pgtime md (mkTm s mi h d mo 0 0 0 (-1)) us).
Proof.
  intros F Hh O E1 E2 E3. destruct F as (F1 & F2 & F3). rewrite E1 in F1. unfold i32_max in Hh.
  apply from_pgtime_back; auto; rng; lia.
Qed.

Lemma sql_zero md : interval_try_from_str md (bs "0") (-1) ISQLStandard = Ok (from_mdt 0 0 0).
Proof. destruct md; vm_compute; reflexivity. Qed.

Definition some_sign (b : bool) : option bool := if b then Some true else None.
Lemma some_sign_text (b : bool) t : (if b then [45] else []) ++ t = presign (some_sign b) ++ t.
Proof. now destruct b. Qed.
Lemma pneg_some b : pneg (some_sign b) = b. Proof. now destruct b. Qed.
Lemma neg_pos_sg (b : bool) v : 0 <= v -> neg_pos v = - v. Proof. unfold neg_pos. destruct (Z.ltb_spec 0 v); lia. Qed.
Lemma neg_pos_neg v : 0 <= v -> neg_pos (- v) = - v. Proof. unfold neg_pos. destruct (Z.ltb_spec 0 (- v)); lia. Qed.

Lemma force_negative_ok s mi h d mo y w yd dst us : force_negative (mkTm s mi h d mo y w yd dst, us) =
  (mkTm (neg_pos s) (neg_pos mi) (neg_pos h) (neg_pos d) (neg_pos mo) (neg_pos y) w yd dst, neg_pos us).
Proof. reflexivity. Qed.

Lemma sql_ok md a : writable_iv a ->
  exists txt, interval_format md a ISQLStandard = Ok txt /\ (length txt <= 127)%nat
  /\ read_back md a (interval_try_from_str md txt (-1) ISQLStandard).
Proof.
  intros A. destruct (fields_of md a A) as (ny & y & mo & nt & h & mi & s & us & E & M & T & D & A1 & A3 & Ra).
  assert (fields_ok a) as Fa by apply A.
  unfold interval_format. rewrite E. cbn [bind fst snd format_interval]. unfold format_sql.
  cbn [tm_year tm_mon tm_mday tm_hour tm_min tm_sec]. cbv zeta.
  pose proof M as (My & Mmo & Mn). pose proof T as (Th & Tmi & Ts & Tu & Tn).
  set (Y := (0 <? y) || (0 <? mo)). set (C := (0 <? h) || (0 <? mi) || (0 <? s) || (0 <? us)).
  set (d := iv_day a) in *.
  assert (ny = true -> Y = true) as KY by (intros K; specialize (Mn K); unfold Y; lia).
  assert (nt = true -> C = true) as KC by (intros K; specialize (Tn K); unfold C; lia).
  rewrite !sg_nz by lia. rewrite !sg_neg, !sg_pos by lia.
  replace (ny && (0 <? y) || ny && (0 <? mo) || (d <? 0) || nt && (0 <? h) || nt && (0 <? mi) || nt && (0 <? s) || nt && (0 <? us))
    with (ny || (d <? 0) || nt).
  2:{ clear - KY KC. unfold Y, C in *. destruct ny, nt; cbn [andb orb]; try specialize (KY eq_refl); try specialize (KC eq_refl);
      destruct (0 <? y), (0 <? mo), (d <? 0), (0 <? h), (0 <? mi), (0 <? s), (0 <? us); cbn in *; congruence. }
  replace (negb ny && (0 <? y) || negb ny && (0 <? mo) || (0 <? d) || negb nt && (0 <? h) || negb nt && (0 <? mi) || negb nt && (0 <? s) || negb nt && (0 <? us))
    with (negb ny && Y || (0 <? d) || negb nt && C).
  2:{ unfold Y, C. destruct ny, nt; cbn [negb andb orb]; rewrite ?orb_false_r, ?orb_assoc; reflexivity. }
  fold Y. replace (nz d || (0 <? h) || (0 <? mi) || (0 <? s) || (0 <? us)) with (nz d || C) by (unfold C; rewrite !orb_assoc; reflexivity).
  assert (forall (b : bool) v, Z.abs v <= i32_max -> (if b then neg32 md v else Ok v) = Ok (sg b v)) as N32.
  { intros b v V. destruct b; [|reflexivity]. unfold neg32. unfold i32_max in V. rewrite ar32_ok by (rng; lia). reflexivity. }
  assert (forall b v, 0 <= v <= 2147483647 -> Z.abs (sg b v) <= i32_max) as RR by (intros [] v V; cbn [sg]; unfold i32_max; lia).
  assert (forall v, Z.abs v <= i32_max -> abs32 md v = Ok (Z.abs v)) as A32.
  { intros v V. unfold abs32. unfold i32_max in V. apply ar32_ok. rng. lia. }
  assert (forall v, 0 <= v <= i32_max -> exists t, pg_ltostr v = Ok t /\ decimal v t /\ (length t <= 10)%nat) as LT.
  { intros v V. unfold i32_max in V. destruct (pg_ltostr_nonneg v ltac:(lia)) as (t & Et & Dt & _). exists t. repeat split; auto; try apply Dt.
    apply (decimal_len v); [easy|change (10 ^ Z.of_nat 10) with 10000000000; lia|lia]. }
  set (neg := ny || (d <? 0) || nt). set (pos := negb ny && Y || (0 <? d) || negb nt && C).
  set (std := negb (neg && pos || Y && (nz d || C))).
  rewrite !N32 by (try apply RR; auto; lia). cbn [bind].
  assert ((if neg && std then neg64 md (sg nt us) else Ok (sg nt us)) = Ok (sg (neg && std) (sg nt us))) as ->.
  { destruct (neg && std); [|reflexivity]. unfold neg64. rewrite ar64_ok; [reflexivity|]. rng. destruct nt; cbn [sg]; lia. }
  cbn [bind].
  destruct (negb neg && negb pos) eqn:Z0.
  { (* zero *)
    apply andb_prop in Z0 as [Z1 Z2]. apply negb_true_iff in Z1, Z2.
    assert (ny = false /\ nt = false /\ Y = false /\ C = false /\ d = 0) as (-> & -> & HY & HC & Hd).
    { unfold neg, pos in *. clear - Z1 Z2. destruct ny, nt; cbn in *; try discriminate; try (destruct (d <? 0); discriminate).
      destruct Y, C; cbn in *; try discriminate; rewrite ?orb_true_r in *; try discriminate. lia. }
    rewrite Z1. cbn [andb bind app]. exists (bs "0"). split; [reflexivity|]. split; [cbn; lia|]. rewrite sql_zero.
    assert (y = 0 /\ mo = 0 /\ h = 0 /\ mi = 0 /\ s = 0 /\ us = 0) as (-> & -> & -> & -> & -> & ->)
      by (unfold Y, C in *; clear - HY HC My Mmo Th Tmi Ts Tu; lia).
    unfold d in Hd. replace (from_mdt 0 0 0) with a by (destruct a; unfold from_mdt; cbn in *; now subst).
    split; [reflexivity|]. intros K. exfalso. apply K. unfold minutes_fit. rewrite A3. split; vm_compute; discriminate. }
  destruct std eqn:Std; cbn [negb]; [|].
  2:{ (* mixed signs *)
    rewrite andb_false_r. cbn [sg]. rewrite !sg_neg by lia.
    assert ((ny && (0 <? y) || ny && (0 <? mo)) = ny) as -> by (clear - KY; unfold Y in KY; destruct ny; cbn [andb orb]; auto).
    assert ((nt && (0 <? h) || nt && (0 <? mi) || nt && (0 <? s) || nt && (0 <? us)) = nt) as -> by (clear - KC; unfold C in KC; destruct nt; cbn [andb orb]; auto).
    rewrite !A32 by (try apply RR; auto; lia). rewrite !sg_abs by lia. cbn [bind].
    destruct (LT y ltac:(unfold i32_max; lia)) as (ty & -> & Dy & Ly). cbn [bind].
    destruct (LT mo ltac:(unfold i32_max; lia)) as (tmo & -> & Dmo & Lmo). cbn [bind].
    destruct (LT (Z.abs d) ltac:(lia)) as (td & -> & Dd & Ld). cbn [bind].
    destruct (iv_hms_ok md h mi s us nt Th Tmi Ts Tu) as (tc & -> & Ct & Lc). cbn [bind app].
    set (py := Some ny). set (pd := Some (d <? 0)). set (pt := Some nt).
    set (t1 := presign py ++ ty ++ 45 :: tmo). set (t2 := presign pd ++ td). set (t3 := presign pt ++ tc).
    exists (t1 ++ spaced [t2; t3]).
    assert ((if ny then 45 else 43) :: ty ++ 45 :: tmo ++ 32 :: (if d <? 0 then 45 else 43) :: td ++ 32 :: (if nt then 45 else 43) :: tc
      = t1 ++ spaced [t2; t3]) as ->.
    { unfold t1, t2, t3, py, pd, pt. unfold spaced. cbn [List.map concat app presign]. rewrite app_nil_r.
      destruct ny, (d <? 0), nt; cbn [presign app]; rewrite <- ?app_assoc; cbn [app]; rewrite <- ?app_assoc; reflexivity. }
    assert (length (t1 ++ spaced [t2; t3]) <= 60)%nat as L.
    { unfold t1, t2, t3, spaced. cbn [List.map concat]. rewrite !app_length. cbn [length]. rewrite !app_length. cbn [length].
      assert (forall b, length (presign (Some b)) = 1)%nat as PL by now intros []. unfold py, pd, pt. rewrite !PL. cbn [length].
      assert (length tmo <= 2)%nat by (apply (decimal_len mo); [easy|change (10 ^ Z.of_nat 2) with 100; lia|lia]). lia. }
    split; [apply fits_ok; lia|]. split; [lia|].
    destruct (day_num pd (Z.abs d) td Dd D) as (ND & PD).
    assert (sg (pneg pd) (Z.abs d) = d) as Ed by (unfold pd, pneg; destruct (Z.ltb_spec d 0); cbn [sg]; lia). rewrite Ed in ND.
    assert (forall b, pneg (Some b) = b) as PN by now intros [].
    assert (in_i32 d) as Rd by apply Fa.
    eapply (read_sql md _ (ym_kind py, t1) [(day_kind pd, t2); (ck_kind pt, t3)]).
    - apply (parse_pieces _ [t1; t2; t3]); [reflexivity| |cbn; lia|lia].
      constructor; [apply (ym_piece py y mo); auto|]. constructor; [exact PD|]. constructor; [|constructor].
      apply (ck_piece pt h mi s us); auto.
    - cbn [rev app interval_fields]. unfold t3.
      rewrite (ck_field md pt h mi s us tc) by (auto; try lia; unfold i32_max; lia). cbn [step_bind].
      rewrite (day_field md d) by (auto; reflexivity). cbn [step_bind].
      unfold t1. rewrite (ym_field md py y mo) by (auto; try reflexivity; unfold py; rewrite PN, <- A1; apply Fa). cbn [step_bind].
      reflexivity.
    - vm_compute. discriminate.
    - reflexivity.
    - reflexivity.
    - unfold pt. rewrite PN. cbn [snd put_clock s_mday s_mon]. rewrite sg_abs; lia.
    - unfold pt. rewrite PN. cbn. rng. destruct nt; cbn [sg]; lia.
    - unfold t1. apply starts_minus_pre. destruct (decimal_cons _ _ Dy) as (c & r & -> & Dc). cbn [app]. eauto.
    - assert (existsb starts_sign [(day_kind pd, t2); (ck_kind pt, t3)] = true) as ->.
      { unfold t2, pd. cbn [existsb]. assert (starts_sign (day_kind (Some (d <? 0)), presign (Some (d <? 0)) ++ td) = true) as -> by (destruct (d <? 0); reflexivity). reflexivity. }
      rewrite andb_false_r. cbv zeta. unfold py, pt. rewrite !PN. 
      change (read_back md a (interval_from_pgtime md (mkTm (sg nt s) (sg nt mi) (sg nt h) d (sg ny (y * 12 + mo)) 0 0 0 (-1)) (sg nt us))).
      apply from_fields; auto; rewrite ?sg_abs by lia; try (unfold i32_max; lia); [apply one_sign_sg; left; lia|].
      rewrite A3. unfold clock. destruct nt; cbn [sg]; lia. }
  (* one sign *)
  rewrite andb_true_r.
  assert (neg && pos || Y && (nz d || C) = false) as Std' by (unfold std in Std; now apply negb_true_iff in Std).
  apply orb_false_iff in Std' as [S1 S2].
  assert (nz d = true <-> d <> 0) as Nd by (unfold nz; rewrite negb_true_iff, Z.eqb_neq; reflexivity).
  destruct Y eqn:HY.
  - (* years and months *)
    cbn [andb] in S2. apply orb_false_iff in S2 as [Sd Sc].
    assert (nt = false) as -> by (destruct nt; [rewrite KC in Sc by easy; discriminate|reflexivity]).
    assert (d = 0) as Hd by (unfold nz in Sd; apply negb_false_iff, Z.eqb_eq in Sd; exact Sd).
    assert (neg = ny) as -> by (unfold neg; rewrite Hd; change (0 <? 0) with false; now rewrite !orb_false_r).
    rewrite !sg_sg.
    destruct (LT y ltac:(unfold i32_max; lia)) as (ty & -> & Dy & Ly). cbn [bind].
    destruct (LT mo ltac:(unfold i32_max; lia)) as (tmo & -> & Dmo & Lmo). cbn [bind].
    rewrite some_sign_text. set (py := some_sign ny). set (t1 := presign py ++ ty ++ 45 :: tmo).
    assert (h = 0 /\ mi = 0 /\ s = 0 /\ us = 0) as (-> & -> & -> & ->) by (unfold C in Sc; clear - Sc Th Tmi Ts Tu; lia).
    exists t1. assert (length t1 <= 22)%nat as L.
    { unfold t1. rewrite !app_length. cbn [length]. assert (length (presign py) <= 1)%nat by (unfold py; destruct ny; cbn; lia). lia. }
    split; [apply fits_ok; lia|]. split; [lia|].
    eapply (read_sql md _ (ym_kind py, t1) []).
    + apply (parse_pieces _ [t1]); [unfold spaced; cbn; now rewrite app_nil_r| |cbn; lia|lia].
      constructor; [apply (ym_piece py y mo); auto|constructor].
    + cbn [rev app interval_fields]. unfold t1.
      rewrite (ym_field md py y mo) by (auto; try reflexivity; unfold py; rewrite pneg_some, <- A1; apply Fa). cbn [step_bind].
      reflexivity.
    + vm_compute. discriminate.
    + reflexivity.
    + reflexivity.
    + cbn. lia.
    + cbn. rng. lia.
    + unfold t1. apply starts_minus_pre. destruct (decimal_cons _ _ Dy) as (c & r & -> & Dc). cbn [app]. eauto.
    + cbn [existsb negb]. rewrite andb_true_r. unfold py. rewrite pneg_some. cbv zeta.
      replace (if ny then force_negative (s_mon (sg ny (y * 12 + mo)) (tm_new, 0)) else s_mon (sg ny (y * 12 + mo)) (tm_new, 0))
        with (mkTm 0 0 0 0 (sg ny (y * 12 + mo)) 0 0 0 (-1), 0).
      * cbn [fst snd]. apply from_fields; auto; try (unfold i32_max; lia). left. lia.
      * destruct ny; [|reflexivity]. cbn [sg].
        change (s_mon (- (y * 12 + mo)) (tm_new, 0)) with (mkTm 0 0 0 0 (- (y * 12 + mo)) 0 0 0 (-1), 0). rewrite force_negative_ok.
        rewrite neg_pos_neg by lia. reflexivity.
  - assert (y = 0 /\ mo = 0) as (-> & ->) by (unfold Y in HY; clear - HY My Mmo; lia).
    assert (ny = false) as -> by (destruct ny; [now discriminate KY|reflexivity]). cbn [sg] in A1. rewrite ?orb_false_l in *. cbn [negb andb orb] in *.
    assert (forall v, sg neg (sg false v) = sg neg v) as _ by reflexivity.
    assert (d <> 0 -> neg = (d <? 0)) as Kd.
    { intros Hd. unfold neg, pos in *. clear - Hd S1. destruct nt, C; destruct (Z.ltb_spec d 0), (Z.ltb_spec 0 d); cbn in *; try lia; congruence || easy. }
    assert (C = true -> neg = nt) as Kt.
    { intros Hc. unfold neg, pos in *. rewrite Hc in *. clear - S1. destruct nt; destruct (Z.ltb_spec d 0), (Z.ltb_spec 0 d); cbn in *; try lia; congruence || easy. }
    assert (forall v, v = 0 \/ C = true -> sg neg (sg nt v) = v) as SS.
    { intros v [->|K]; [now rewrite !sg0|]. rewrite Kt by easy. apply sg_sg. }
    assert (forall v, v = 0 \/ C = true -> sg neg v = sg nt v) as ST.
    { intros v [->|K]; [now rewrite !sg0|]. now rewrite Kt. }
    assert ((h = 0 \/ C = true) /\ (mi = 0 \/ C = true) /\ (s = 0 \/ C = true) /\ (us = 0 \/ C = true)) as (Ch & Cm & Cs & Cu).
    { unfold C. clear - Th Tmi Ts Tu. lia. }
    rewrite !SS by easy.
    destruct (iv_hms_ok md h mi s us false Th Tmi Ts Tu) as (tc & Etc & Ct & Lc). cbn [sg] in Etc.
    destruct (nz d) eqn:Hd.
    + (* days *)
      assert (d <> 0) as Dn by (now apply Nd).
      assert (sg neg d = Z.abs d) as -> by (rewrite (Kd Dn); destruct (Z.ltb_spec d 0); cbn [sg]; lia).
      destruct (LT (Z.abs d) ltac:(lia)) as (td & -> & Dd & Ld). cbn [bind]. rewrite Etc. cbn [bind].
      replace ((if neg then [45] else []) ++ td ++ 32 :: tc) with (presign (some_sign neg) ++ td ++ 32 :: tc) by (destruct neg; reflexivity).
      set (pd := some_sign neg). set (t1 := presign pd ++ td).
      destruct (day_num pd (Z.abs d) td Dd D) as (ND & PD).
      assert (sg (pneg pd) (Z.abs d) = d) as Ed by (unfold pd; rewrite pneg_some, (Kd Dn); destruct (Z.ltb_spec d 0); cbn [sg]; lia). rewrite Ed in ND.
      exists (t1 ++ 32 :: tc). split.
      { unfold t1. rewrite <- app_assoc. apply fits_ok. rewrite !app_length. cbn [length]. assert (length (presign pd) <= 1)%nat by (unfold pd; destruct neg; cbn; lia). lia. }
      assert (length (t1 ++ 32%Z :: tc) <= 40)%nat as L.
      { unfold t1. rewrite !app_length. cbn [length]. assert (length (presign pd) <= 1)%nat by (unfold pd; destruct neg; cbn; lia). lia. }
      split; [lia|].
      eapply (read_sql md _ (day_kind pd, t1) [(ck_kind None, presign None ++ tc)]).
      * apply (parse_pieces _ [t1; tc]); [unfold spaced; cbn; now rewrite app_nil_r| |cbn; lia|lia].
        constructor; [exact PD|]. constructor; [|constructor]. apply (ck_piece None h mi s us); auto.
      * cbn [rev app interval_fields]. unfold t1.
        rewrite (ck_field md None h mi s us tc) by (auto; try lia; unfold i32_max; lia). cbn [step_bind].
        rewrite (day_field md d) by (auto; try reflexivity; apply Fa). cbn [step_bind].
        reflexivity.
      * vm_compute. discriminate.
      * reflexivity.
      * reflexivity.
      * cbn [pneg sg put_clock s_mday snd]. lia.
      * cbn. rng. lia.
      * unfold t1. apply starts_minus_pre. eauto using decimal_cons.
      * assert (existsb starts_sign [(ck_kind None, presign None ++ tc)] = false) as ->.
        { cbn [existsb presign app]. destruct (clock_cons _ _ _ _ _ _ Ct) as (c & r & -> & Dc). unfold starts_sign. cbn [snd].
          apply is_digit_iff, digit_not_sign in Dc as [-> ->]. reflexivity. }
        cbn [negb]. rewrite andb_true_r. unfold pd. rewrite pneg_some. cbv zeta. cbn [pneg sg].
        replace (if neg then force_negative (s_mday d (put_clock h mi s us (tm_new, 0))) else s_mday d (put_clock h mi s us (tm_new, 0)))
          with (mkTm (sg nt s) (sg nt mi) (sg nt h) d 0 0 0 0 (-1), sg nt us).
        -- cbn [fst snd]. apply from_fields; auto; rewrite ?sg_abs by lia; try (unfold i32_max; lia); [apply one_sign_sg; left; lia|].
           rewrite A3. unfold clock. destruct nt; cbn [sg]; lia.
        -- rewrite <- !ST by easy. destruct neg; [|reflexivity]. cbn [sg].
           change (s_mday d (put_clock h mi s us (tm_new, 0))) with (mkTm s mi h d 0 0 0 0 (-1), us). rewrite force_negative_ok.
           replace (neg_pos d) with d.
           { rewrite (neg_pos_sg true s), (neg_pos_sg true mi), (neg_pos_sg true h), (neg_pos_sg true us) by lia. reflexivity. }
           symmetry in Kd. specialize (Kd Dn). apply Z.ltb_lt in Kd. unfold neg_pos. destruct (Z.ltb_spec 0 d); lia.
    + (* clock only *)
      assert (d = 0) as Dz by (unfold nz in Hd; apply negb_false_iff, Z.eqb_eq in Hd; exact Hd).
      assert (neg = nt) as Nn by (unfold neg; rewrite Dz; reflexivity). rewrite Nn in *.
      rewrite Etc. cbn [bind].
      replace ((if nt then [45] else []) ++ tc) with (presign (some_sign nt) ++ tc) by (destruct nt; reflexivity).
      set (pt := some_sign nt). set (t1 := presign pt ++ tc).
      exists t1. assert (length t1 <= 40)%nat as L.
      { unfold t1. rewrite !app_length. assert (length (presign pt) <= 1)%nat by (unfold pt; destruct nt; cbn; lia). lia. }
      split; [apply fits_ok; lia|]. split; [lia|].
      eapply (read_sql md _ (ck_kind pt, t1) []).
      * apply (parse_pieces _ [t1]); [unfold spaced; cbn; now rewrite app_nil_r| |cbn; lia|lia].
        constructor; [|constructor]. apply (ck_piece pt h mi s us); auto.
      * cbn [rev app interval_fields]. unfold t1.
        rewrite (ck_field md pt h mi s us tc) by (auto; try lia; unfold i32_max; lia). cbn [step_bind].
        reflexivity.
      * vm_compute. discriminate.
      * reflexivity.
      * reflexivity.
      * cbn [put_clock snd]. rewrite sg_abs; lia.
      * cbn. rng. destruct (pneg pt); cbn [sg]; lia.
      * unfold t1. apply starts_minus_pre. eauto using clock_cons.
      * cbn [existsb negb]. rewrite andb_true_r. unfold pt. rewrite pneg_some. cbv zeta.
        replace (if nt then force_negative (put_clock (sg nt h) (sg nt mi) (sg nt s) (sg nt us) (tm_new, 0)) else put_clock (sg nt h) (sg nt mi) (sg nt s) (sg nt us) (tm_new, 0))
          with (mkTm (sg nt s) (sg nt mi) (sg nt h) 0 0 0 0 0 (-1), sg nt us).
        -- cbn [fst snd]. apply from_fields; auto; rewrite ?sg_abs by lia; try (unfold i32_max; lia); [apply one_sign_sg; left; lia|].
           rewrite A3. unfold clock. destruct nt; cbn [sg]; lia.
        -- destruct nt; [|reflexivity]. cbn [sg].
           change (put_clock (- h) (- mi) (- s) (- us) (tm_new, 0)) with (mkTm (- s) (- mi) (- h) 0 0 0 0 0 (-1), - us). rewrite force_negative_ok.
           rewrite !neg_pos_neg by lia. reflexivity.
Qed.
