(** Interval texts in the ISO 8601 style with a negative field are never read. *)
From Verif Require Import Model.Parse Model.Format Spec.Calendar Spec.Ranges Spec.Clock Spec.Text Spec.IntervalS
  Proofs.Arith Proofs.TsP Proofs.IntervalP Proofs.FloatP Proofs.ClockP Proofs.IvTruncP Proofs.DigitsP Proofs.FormatP
  Proofs.ParseP Proofs.RoundTripP Proofs.IvParseP Proofs.IvReadP Proofs.IvPostgresP Proofs.IvVerboseP Proofs.IvSqlP Proofs.IvIsoP.
From Coq Require Import List ZArith Bool Lia.
Import ListNotations.
Open Scope Z_scope.

Definition head_ok (t : bytes) : Prop := exists c r, t = c :: r /\ (is_digit c = true \/ c = 45).
(** One field of either sign. *)
Definition part_ok (u : unit5) (v : Z) (t : bytes) : Prop :=
  (0 <= v /\ iso_part u v t \/ v < 0 /\ exists r, t = 45 :: r) /\ (v = 0 \/ head_ok t)
  /\ forallb date_word_char t = true /\ (length t <= 12)%nat.
Lemma part_text v u : Z.abs v <= i32_max -> exists t, add_iso8601_int_part v (uletter u) = Ok t /\ part_ok u v t.
Proof.
  intros B. destruct (Z.le_gt_cases 0 v) as [P|P].
  - destruct (iso_int_part v u ltac:(lia)) as (t & E & I). exists t. split; [exact E|]. split; [auto|]. split; [|split].
    + destruct (iso_head _ _ _ I) as [[-> _]|(d & r & -> & D)]; [auto|]. right. exists d, r. auto.
    + exact (iso_chars _ _ _ I).
    + pose proof (iso_len _ _ _ I ltac:(lia)). lia.
  - unfold add_iso8601_int_part. destruct (Z.eqb_spec v 0); [lia|].
    destruct (pg_ltostr_ok v) as (t & -> & I & _); [rng; unfold i32_max in *; lia|]. cbn [bind]. eexists. split; [reflexivity|].
    unfold int_text in I. destruct (Z.ltb_spec v 0); [|lia]. destruct I as (ds & -> & D).
    split; [right; split; [lia|cbn [app]; eauto]|]. split; [right; exists 45, (ds ++ [uletter u]); auto|].
    assert (iso_part u (- v) (ds ++ [uletter u])) as I by (unfold iso_part; destruct (Z.eqb_spec (- v) 0); [lia|eauto]).
    split; [cbn [app forallb]; now rewrite (iso_chars _ _ _ I)|]. pose proof (iso_len _ _ _ I ltac:(lia)). cbn [app length]. lia.
Qed.
Lemma minus_stops md f r dp hf x : iso_loop md (S f) (45 :: r) dp hf x = Err EInvalid.
Proof. reflexivity. Qed.

Definition secs_ok (s us : Z) (t : bytes) : Prop :=
  (0 <= s /\ 0 <= us /\ iso_secs s us t \/ (s < 0 \/ us < 0) /\ exists r, t = 45 :: r) /\ (s = 0 /\ us = 0 \/ head_ok t)
  /\ forallb date_word_char t = true /\ (length t <= 12)%nat.
Lemma secs_part md s us : -60 < s < 60 -> -1000000 < us < 1000000 -> exists ts,
  (if nz s || nz us then
        let* s0 := append_seconds md s us MAX_PRECISION false in
        Ok ((if (s <? 0) || (us <? 0) then [45] else []) ++ s0 ++ [83])
      else Ok []) = Ok ts /\ secs_ok s us ts.
Proof.
  intros Bs Bu. unfold secs_ok, iso_secs. destruct (nz s || nz us) eqn:N.
  - destruct (append_seconds_ok md s us false) as (t & E & T); [lia..|]. unfold MAX_PRECISION. rewrite E. cbn [bind].
    eexists. split; [reflexivity|]. pose proof (sec_chars _ _ _ _ T) as C. destruct (sec_head _ _ _ _ T) as (d & r & H & D).
    pose proof (sec_len _ _ _ T ltac:(lia)) as L.
    destruct ((s <? 0) || (us <? 0)) eqn:Q.
    + cbn [app]. split; [right; split; [lia|eauto]|]. split; [right; exists 45, (t ++ [83]); auto|].
      cbn [forallb length]. rewrite forallb_app', C, app_length. cbn [length]. split; [reflexivity|lia].
    + rewrite !Z.abs_eq in T by lia. cbn [app]. split; [left; split; [lia|split; [lia|eauto]]|].
      split; [right; exists d, (r ++ [83]); rewrite H; auto|]. rewrite forallb_app', C, app_length. cbn [length]. split; [reflexivity|lia].
  - exists []. split; [reflexivity|]. unfold nz in N. split; [left; split; [lia|split; [lia|reflexivity]]|]. split; [left; lia|]. split; [reflexivity|cbn; lia].
Qed.

Lemma neg_body md y mo d h mi s us ty tmo td th tmi ts fuel :
  part_ok UYear y ty -> part_ok UMon mo tmo -> part_ok UDay d td -> part_ok UHour h th -> part_ok UMin mi tmi -> secs_ok s us ts ->
  Z.abs y <= i32_max -> Z.abs mo <= i32_max -> Z.abs d <= i32_max -> Z.abs h <= i32_max -> Z.abs mi <= i32_max ->
  y < 0 \/ mo < 0 \/ d < 0 \/ h < 0 \/ mi < 0 \/ s < 0 \/ us < 0 ->
  let b := ty ++ tmo ++ td ++ (if nz h || nz mi || nz s || nz us then [84] else []) ++ th ++ tmi ++ ts in
  (length b < fuel)%nat -> iso_loop md fuel b true false (tm_new, 0) = Err EInvalid.
Proof.
  intros (Py & _) (Pmo & _) (Pd & _) (Ph & _) (Pmi & _) (Ps & _) By Bmo Bd Bh Bmi N. cbv zeta. intros L.
  destruct Py as [[Ny Py]|[Ny (r & ->)]]; [|destruct fuel as [|fuel]; [lia|apply minus_stops]].
  destruct (iso_step md UYear y ty (tmo ++ td ++ (if nz h || nz mi || nz s || nz us then [84] else []) ++ th ++ tmi ++ ts)
    fuel false (tm_new, 0) Py ltac:(lia) eq_refl ltac:(rng; cbn; lia) L) as (f1 & hf1 & L1 & E1).
  change true with (date_unit UYear). rewrite E1. clear E1 L. change (date_unit UYear) with (date_unit UMon).
  destruct Pmo as [[Nmo Pmo]|[Nmo (r & ->)]]; [|destruct f1 as [|f1]; [lia|apply minus_stops]].
  destruct (iso_step md UMon mo tmo (td ++ (if nz h || nz mi || nz s || nz us then [84] else []) ++ th ++ tmi ++ ts)
    f1 hf1 (uset UYear y (tm_new, 0)) Pmo ltac:(lia) eq_refl ltac:(rng; cbn; lia) L1) as (f2 & hf2 & L2 & E2).
  rewrite E2. clear E2 L1. change (date_unit UMon) with (date_unit UDay).
  destruct Pd as [[Nd Pd]|[Nd (r & ->)]]; [|destruct f2 as [|f2]; [lia|apply minus_stops]].
  destruct (iso_step md UDay d td ((if nz h || nz mi || nz s || nz us then [84] else []) ++ th ++ tmi ++ ts)
    f2 hf2 (uset UMon mo (uset UYear y (tm_new, 0))) Pd ltac:(lia) eq_refl ltac:(rng; cbn; unfold i32_max in *; lia) L2) as (f3 & hf3 & L3 & E3).
  rewrite E3. clear E3 L2.
  change (uset UDay d (uset UMon mo (uset UYear y (tm_new, 0)))) with (mkTm 0 0 0 d mo y 0 0 (-1), 0).
  assert (nz h || nz mi || nz s || nz us = true) as T by (unfold nz; lia). rewrite T in *.
  cbn [app length] in *. destruct f3 as [|f3]; [lia|].
  assert (iso_loop md (S f3) (84 :: th ++ tmi ++ ts) (date_unit UDay) hf3 (mkTm 0 0 0 d mo y 0 0 (-1), 0) =
      iso_loop md f3 (th ++ tmi ++ ts) (date_unit UHour) false (mkTm 0 0 0 d mo y 0 0 (-1), 0)) as -> by reflexivity.
  destruct Ph as [[Nh Ph]|[Nh (r & ->)]]; [|destruct f3 as [|f3]; [cbn in L3; lia|apply minus_stops]].
  destruct (iso_step md UHour h th (tmi ++ ts) f3 false (mkTm 0 0 0 d mo y 0 0 (-1), 0) Ph ltac:(lia) eq_refl
      ltac:(rng; cbn; unfold i32_max in *; lia) ltac:(lia)) as (f4 & hf4 & L4 & E4).
  rewrite E4. clear E4 L3. change (date_unit UHour) with (date_unit UMin).
  change (uset UHour h (mkTm 0 0 0 d mo y 0 0 (-1), 0)) with (mkTm 0 0 h d mo y 0 0 (-1), 0).
  destruct Pmi as [[Nmi Pmi]|[Nmi (r & ->)]]; [|destruct f4 as [|f4]; [lia|apply minus_stops]].
  destruct (iso_step md UMin mi tmi ts f4 hf4 (mkTm 0 0 h d mo y 0 0 (-1), 0) Pmi ltac:(lia) eq_refl
      ltac:(rng; cbn; unfold i32_max in *; lia) L4) as (f5 & hf5 & L5 & E5).
  rewrite E5. clear E5 L4.
  destruct Ps as [(Ns & Nu & _)|[_ (r & ->)]]; [lia|]. destruct f5 as [|f5]; [lia|apply minus_stops].
Qed.

Lemma neg_tokens b : forallb date_word_char b = true -> (length b <= 126)%nat ->
  head_ok b \/ (exists b', b = 84 :: b' /\ head_ok b') ->
  exists t, parse_date_time (80 :: b) = Ok [(Some KDate, 112 :: t)].
Proof.
  intros F L H.
  assert ((exists d r, is_digit d = true /\ (b = d :: r \/ b = 84 :: d :: r)) \/ (exists r, b = 45 :: r \/ b = 84 :: 45 :: r)) as [K|(r & K)].
  { destruct H as [(c & r & -> & [D| ->])|(b' & -> & (c & r & -> & [D| ->]))]; [left|right|left|right]; eauto 6. }
  - now apply iso_tokens.
  - assert (exists t, alpha_begin (80 :: b) = Ok ((Some KDate, 112 :: t), []) /\ blen (112 :: t) <= 127) as (t & E & Lt).
    { unfold blen. destruct K as [-> | ->].
      - exists (45 :: r). split; [|cbn [length] in *; lia]. unfold alpha_begin, eat_alphabetics.
        change (80 :: 45 :: r) with ([80] ++ 45 :: r). rewrite eat_app by easy.
        change (45 =? 45) with true. cbn [orb bind]. now rewrite eat_all.
      - exists (116 :: 45 :: r). split; [|cbn [length] in *; lia]. unfold alpha_begin, eat_alphabetics.
        change (80 :: 84 :: 45 :: r) with ([80; 84] ++ 45 :: r). rewrite eat_app by easy.
        change (45 =? 45) with true. cbn [orb bind].
        rewrite eat_all; [reflexivity|]. cbn [forallb] in F. now apply andb_prop in F. }
    exists t. unfold parse_date_time. remember (length (80 :: b)) as n. destruct n as [|n]; [discriminate|].
    cbn [tokenize]. rewrite eat_ws_cons by easy. change (MAX_DATE_FIELDS <=? 0) with false. cbv iota.
    change (is_digit 80) with false. change (80 =? 46) with false. change (is_alpha 80) with true. cbv iota.
    rewrite E. cbn [bind fst snd]. unfold use_buf, MAX_DATE_LEN. destruct (Z.leb_spec (blen (112 :: t)) 128); [|lia].
    reflexivity.
Qed.

Lemma part_head {u v t} r : part_ok u v t -> v = 0 /\ t ++ r = r \/ head_ok (t ++ r).
Proof.
  intros (P & [->|(c & q & -> & C)] & _); [|right; exists c, (q ++ r); auto].
  destruct P as [[_ P]|[P _]]; [|lia]. left. unfold iso_part in P. cbn in P. now subst.
Qed.
Theorem iso_neg md a : writable_iv a -> iv_month a < 0 \/ iv_day a < 0 \/ iv_time a < 0 ->
  exists txt, interval_format md a IISO8601 = Ok txt /\ forall md' st, interval_try_from_str md' txt (-1) st = Err EInvalid.
Proof.
  intros V N. destruct (fields_of md a V) as (ny & y & mo & nt & h & mi & s & us & F & (My & Mm & Mn) & (Th & Tm & Ts & Tu & Tn) & D & Em & Et & Rm).
  assert (sg ny y < 0 \/ sg ny mo < 0 \/ iv_day a < 0 \/ sg nt h < 0 \/ sg nt mi < 0 \/ sg nt s < 0 \/ sg nt us < 0) as N'.
  { destruct N as [N|[N|N]]; [|auto|].
    - destruct ny; cbn [sg] in *; lia.
    - unfold clock in Et. destruct nt; cbn [sg] in *; lia. }
  assert (Z.abs (sg ny y) <= i32_max /\ Z.abs (sg ny mo) <= i32_max /\ Z.abs (sg nt h) <= i32_max /\ Z.abs (sg nt mi) <= i32_max
    /\ -60 < sg nt s < 60 /\ -1000000 < sg nt us < 1000000) as (By & Bmo & Bh & Bmi & Bs & Bu).
  { unfold i32_max. rewrite !sg_abs by lia. destruct nt; cbn [sg]; lia. }
  revert F N' By Bmo Bh Bmi Bs Bu. generalize (sg ny y) (sg ny mo) (sg nt h) (sg nt mi) (sg nt s) (sg nt us).
  clear - D. intros y mo h mi s us F N By Bmo Bh Bmi Bs Bu.
  unfold interval_format. rewrite F. cbn [bind fst snd format_interval]. unfold format_iso8601.
  cbn [tm_year tm_mon tm_mday tm_hour tm_min tm_sec]. destruct (negb _) eqn:Z0; [unfold nz in Z0; lia|].
  destruct (part_text y UYear By) as (ty & E1 & P1). cbn [uletter] in E1. rewrite E1. cbn [bind].
  destruct (part_text mo UMon Bmo) as (tmo & E2 & P2). cbn [uletter] in E2. rewrite E2. cbn [bind].
  destruct (part_text (iv_day a) UDay D) as (td & E3 & P3). cbn [uletter] in E3. rewrite E3. cbn [bind].
  destruct (part_text h UHour Bh) as (th & E4 & P4). cbn [uletter] in E4. rewrite E4. cbn [bind].
  destruct (part_text mi UMin Bmi) as (tmi & E5 & P5). cbn [uletter] in E5. rewrite E5. cbn [bind].
  destruct (secs_part md s us Bs Bu) as (ts & E6 & P6). rewrite E6. cbn [bind].
  set (T := if nz h || nz mi || nz s || nz us then [84] else []).
  set (b := ty ++ tmo ++ td ++ T ++ th ++ tmi ++ ts).
  assert (length b <= 80)%nat as Lb.
  { unfold b. rewrite !app_length. destruct P1 as (_ & _ & _ & ?), P2 as (_ & _ & _ & ?), P3 as (_ & _ & _ & ?), P4 as (_ & _ & _ & ?), P5 as (_ & _ & _ & ?), P6 as (_ & _ & _ & ?).
    assert (length T <= 1)%nat by (unfold T; destruct (nz h || nz mi || nz s || nz us); cbn; lia). lia. }
  assert (forallb date_word_char b = true) as Fb.
  { unfold b. rewrite !forallb_app'. destruct P1 as (_ & _ & -> & _), P2 as (_ & _ & -> & _), P3 as (_ & _ & -> & _), P4 as (_ & _ & -> & _), P5 as (_ & _ & -> & _), P6 as (_ & _ & -> & _).
    unfold T. now destruct (nz h || nz mi || nz s || nz us). }
  assert (head_ok b \/ exists b', b = 84 :: b' /\ head_ok b') as Hb.
  { unfold b. destruct (part_head (tmo ++ td ++ T ++ th ++ tmi ++ ts) P1) as [[Y1 ->]|H]; [|auto].
    destruct (part_head (td ++ T ++ th ++ tmi ++ ts) P2) as [[Y2 ->]|H]; [|auto].
    destruct (part_head (T ++ th ++ tmi ++ ts) P3) as [[Y3 ->]|H]; [|auto].
    right. exists (th ++ tmi ++ ts). split; [unfold T; replace (nz h || nz mi || nz s || nz us) with true by (unfold nz; lia); reflexivity|].
    destruct (part_head (tmi ++ ts) P4) as [[Y4 ->]|H]; [|auto].
    destruct (part_head ts P5) as [[Y5 ->]|H]; [|auto]. destruct P6 as (_ & [[Y6 Y7]|H] & _); [lia|exact H]. }
  exists (80 :: b). split; [apply fits_ok; cbn [length]; lia|]. intros md' st.
  destruct (neg_tokens b Fb ltac:(lia) Hb) as (t & Et'). unfold interval_try_from_str. change (0 <=? -1) with false. cbv iota.
  rewrite Et'. cbn [bind]. unfold decode_interval. fold init_i. cbn [rev app fst]. rewrite iso_field. cbn [step_bind].
  unfold decode_iso8601_interval. cbn [fst]. destruct b as [|c0 b0] eqn:Eb; [destruct Hb as [(? & ? & ? & _)|(? & ? & _)]; discriminate|].
  change (80 =? 80) with true. cbv iota. rewrite <- Eb. unfold b, T. rewrite (neg_body md' y mo (iv_day a) h mi s us ty tmo td th tmi ts); auto; fold T; fold b; lia.
Qed.
