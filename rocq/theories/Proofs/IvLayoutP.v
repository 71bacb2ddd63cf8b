(** The interval formats write the layouts of Spec/IntervalLayout.v. Used by C74. *)
From Verif Require Import Model.Format Spec.Calendar Spec.Ranges Spec.Clock Spec.Text Spec.IntervalS Spec.IntervalLayout
  Proofs.Arith Proofs.DigitsP Proofs.FormatP Proofs.IvTruncP Proofs.IvLenP.
From Coq Require Import Lia List Bool.
Import ListNotations.
Open Scope Z_scope.

Definition fields_at (tm : pgtime) (us : Z) : fields :=
  mkFields (tm_year tm) (tm_mon tm) (tm_mday tm) (tm_hour tm) (tm_min tm) (tm_sec tm) us.

Lemma same_sign_2 a b : (0 <= a /\ 0 <= b) \/ (a <= 0 /\ b <= 0) -> same_sign [a; b].
Proof. unfold same_sign. intros [[? ?]|[? ?]]; [left|right]; repeat constructor; auto. Qed.
Lemma same_sign_4 a b c d : (0 <= a /\ 0 <= b /\ 0 <= c /\ 0 <= d) \/ (a <= 0 /\ b <= 0 /\ c <= 0 /\ d <= 0) ->
  same_sign [a; b; c; d].
Proof. unfold same_sign. intros [(? & ? & ? & ?)|(? & ? & ? & ?)]; [left|right]; repeat constructor; auto. Qed.
Lemma same_sign_2' a b : same_sign [a; b] -> (0 <= a /\ 0 <= b) \/ (a <= 0 /\ b <= 0).
Proof.
  unfold same_sign. intros [H|H]; [left|right]; repeat (match goal with H : Forall _ (_ :: _) |- _ => inversion H; clear H; subst end); auto.
Qed.
Lemma same_sign_4' a b c d : same_sign [a; b; c; d] ->
  (0 <= a /\ 0 <= b /\ 0 <= c /\ 0 <= d) \/ (a <= 0 /\ b <= 0 /\ c <= 0 /\ d <= 0).
Proof.
  unfold same_sign. intros [H|H]; [left|right]; repeat (match goal with H : Forall _ (_ :: _) |- _ => inversion H; clear H; subst end); auto.
Qed.

Lemma iv_fields a : fields_of_iv a (fields_at (iv_tm a) (iv_us a)).
Proof.
  unfold fields_of_iv, fields_at, iv_tm, iv_us.
  cbn [f_y f_mo f_d f_h f_mi f_s f_us tm_year tm_mon tm_mday tm_hour tm_min tm_sec].
  set (m := iv_month a). set (t := iv_time a). clearbody m t.
  split; [lia|]. split; [lia|]. split; [apply same_sign_2; lia|]. split; [reflexivity|].
  split; [unfold clock; lia|]. do 3 (split; [lia|]). apply same_sign_4. lia.
Qed.
Lemma iv_bounded a : fields_ok a -> iv_day a <> i32_min -> Z.abs (iv_time a) < 2147483648 * 3600000000 ->
  bounded (iv_tm a) (iv_us a).
Proof.
  intros (M & D & _) ND T. rng. unfold iv_tm, iv_us, i32_max, i32_min in *.
  split; cbn [tm_year tm_mon tm_mday tm_hour tm_min tm_sec]; unfold i32_max; lia.
Qed.

Lemma nz_eqb v : nz v = negb (0 =? v). Proof. unfold nz. now rewrite Z.eqb_sym. Qed.

Lemma iso_item_ok v u : Z.abs v <= i32_max -> exists t, add_iso8601_int_part v u = Ok t /\ iso_item v u t.
Proof.
  intros H. unfold add_iso8601_int_part, iso_item. destruct (Z.eqb_spec v 0); [eauto|].
  destruct (pg_ltostr_ok v (in_abs _ H)) as (t & -> & I & _). cbn [bind]. eauto 7.
Qed.

Lemma lead_any s us : (0 <= s /\ 0 <= us) \/ (s <= 0 /\ us <= 0) -> lead_neg [s; us] = (s <? 0) || (us <? 0).
Proof. intros H. cbn. destruct (Z.eqb_spec s 0), (Z.eqb_spec us 0), (Z.ltb_spec s 0), (Z.ltb_spec us 0); cbn; try reflexivity; lia. Qed.
Lemma lead_any4 h mi s us : (0 <= h /\ 0 <= mi /\ 0 <= s /\ 0 <= us) \/ (h <= 0 /\ mi <= 0 /\ s <= 0 /\ us <= 0) ->
  lead_neg [h; mi; s; us] = (h <? 0) || (mi <? 0) || (s <? 0) || (us <? 0).
Proof.
  intros H. cbn. destruct (Z.eqb_spec h 0), (Z.eqb_spec mi 0), (Z.eqb_spec s 0), (Z.eqb_spec us 0),
    (Z.ltb_spec h 0), (Z.ltb_spec mi 0), (Z.ltb_spec s 0), (Z.ltb_spec us 0); cbn; try reflexivity; lia.
Qed.

Definition signs_ok (f : fields) : Prop := same_sign [f_y f; f_mo f] /\ same_sign (clock_fields f).

Lemma iso_layout_ok md tm us : bounded tm us -> signs_ok (fields_at tm us) ->
  exists t, format_iso8601 md tm us = Ok t /\ iso_layout (fields_at tm us) t.
Proof.
  intros [By Bmo Bd Bh Bmi Bs Bu] [S1 S2]. unfold format_iso8601. cbv zeta. unfold iso_layout.
  destruct tm as [s mi h d mo y wd yd dst]. unfold fields_at, clock_fields, all_fields in *.
  cbn [fields_at f_y f_mo f_d f_h f_mi f_s f_us clock_fields all_fields tm_year tm_mon tm_mday tm_hour tm_min tm_sec] in *.
  apply same_sign_4' in S2.
  rewrite !nz_eqb. cbn [blank forallb].
  destruct (iso_item_ok y 89 By) as (ty & Ey & Iy). destruct (iso_item_ok mo 77 Bmo) as (tmo & Em & Im).
  destruct (iso_item_ok d 68 Bd) as (td & Ed & Id). destruct (iso_item_ok h 72 Bh) as (th & Eh & Ih).
  destruct (iso_item_ok mi 77 ltac:(unfold i32_max; lia)) as (tmi & Ei & Ii).
  rewrite Ey, Em, Ed, Eh, Ei. cbn [bind].
  destruct (append_seconds_ok md s us false ltac:(lia) ltac:(lia)) as (x & Ex & Ix).
  change MAX_PRECISION with 6%nat. rewrite Ex. cbn [bind]. unfold abs_seconds.
  destruct (negb (negb (0 =? y) || negb (0 =? mo) || negb (0 =? d) || negb (0 =? h) || negb (0 =? mi) || negb (0 =? s) || negb (0 =? us))) eqn:Z0.
  - rewrite negb_true_iff, !orb_false_iff, !negb_false_iff, !Z.eqb_eq in Z0.
    destruct Z0 as ((((((<- & <-) & <-) & <-) & <-) & <-) & <-). cbn.
    eexists. split; [reflexivity|]. exists [], [], [], [84; 48; 83]. unfold iso_item.
    repeat split; auto. exists [], [], [48; 83]. repeat split; auto.
    exists [48]. split; [|reflexivity]. exists [48]. split; [|auto]. split; [|left; reflexivity].
    split; [repeat constructor; unfold digit; lia|]. split; [discriminate|reflexivity].
  - assert ((0 =? y) && ((0 =? mo) && ((0 =? d) && ((0 =? h) && ((0 =? mi) && ((0 =? s) && ((0 =? us) && true)))))) = false) as ->.
    { destruct (0 =? y), (0 =? mo), (0 =? d), (0 =? h), (0 =? mi), (0 =? s), (0 =? us); cbn in *; congruence. }
    rewrite negb_false_iff in Z0.
    assert ((0 =? h) && ((0 =? mi) && ((0 =? s) && ((0 =? us) && true))) =
      negb (negb (0 =? h) || negb (0 =? mi) || negb (0 =? s) || negb (0 =? us))) as ->.
    { destruct (0 =? h), (0 =? mi), (0 =? s), (0 =? us); reflexivity. }
    assert ((0 =? s) && ((0 =? us) && true) = negb (negb (0 =? s) || negb (0 =? us))) as ->.
    { destruct (0 =? s), (0 =? us); reflexivity. }
    cbn [negb]. rewrite !andb_true_r.
    destruct (negb (0 =? h) || negb (0 =? mi) || negb (0 =? s) || negb (0 =? us)) eqn:Zc; cbn [negb].
    + destruct (negb (0 =? s) || negb (0 =? us)) eqn:Zs; cbn [negb bind].
      * eexists. split; [reflexivity|]. do 4 eexists. do 3 (split; [eassumption|]). split; [reflexivity|].
        do 3 eexists. do 2 (split; [eassumption|]). split; [reflexivity|]. exists x. split; [exact Ix|].
        rewrite lead_any by lia. reflexivity.
      * eexists. split; [reflexivity|]. do 4 eexists. do 3 (split; [eassumption|]). split; [reflexivity|].
        do 3 eexists. do 2 (split; [eassumption|]). split; reflexivity.
    + rewrite !orb_false_iff, !negb_false_iff, !Z.eqb_eq in Zc. destruct Zc as (((<- & <-) & <-) & <-).
      destruct Ih as [[_ ->]|[? _]]; [|lia]. destruct Ii as [[_ ->]|[? _]]; [|lia]. cbn.
      eexists. split; [reflexivity|]. do 4 eexists. do 3 (split; [eassumption|]). split; reflexivity.
Qed.

(** ** Postgres *)
Lemma pg_part_ok before v unit : Z.abs v <= i32_max ->
  exists t, add_postgres_int_part v unit (blank before, tail_neg before)
    = Ok (t, (blank (before ++ [v]), tail_neg (before ++ [v]))) /\ pg_part before v unit t.
Proof.
  intros H. unfold add_postgres_int_part, pg_part.
  assert (blank (before ++ [v]) = blank before && (0 =? v)) as B.
  { unfold blank. rewrite forallb_app. cbn. now rewrite andb_true_r. }
  assert (tail_neg (before ++ [v]) = if v =? 0 then tail_neg before else v <? 0) as T.
  { unfold tail_neg. rewrite rev_unit. reflexivity. }
  rewrite B, T. destruct (Z.eqb_spec v 0) as [->|N].
  - exists []. rewrite andb_true_r. auto.
  - destruct (pg_ltostr_ok v (in_abs _ H)) as (t & -> & I & _). cbn [bind].
    assert ((0 =? v) = false) as -> by lia. rewrite andb_false_r.
    assert ((if negb (v =? 1) then [115] else []) = (if v =? 1 then [] else [115])) as -> by (destruct (v =? 1); reflexivity).
    eexists. split; [reflexivity|]. right. split; [exact N|]. exists t. split; [exact I|]. reflexivity.
Qed.

Lemma postgres_layout_ok md tm us : bounded tm us -> signs_ok (fields_at tm us) ->
  exists t, format_postgres md tm us = Ok t /\ postgres_layout (fields_at tm us) t.
Proof.
  intros [By Bmo Bd Bh Bmi Bs Bu] [S1 S2]. unfold format_postgres. cbv zeta. unfold postgres_layout.
  destruct tm as [s mi h d mo y wd yd dst]. unfold fields_at, clock_fields, all_fields in *.
  cbn [fields_at f_y f_mo f_d f_h f_mi f_s f_us clock_fields all_fields tm_year tm_mon tm_mday tm_hour tm_min tm_sec] in *.
  apply same_sign_4' in S2. cbv zeta.
  destruct (pg_part_ok [] y s_year By) as (ty & Ey & Iy). destruct (pg_part_ok [y] mo s_mon Bmo) as (tmo & Em & Im).
  destruct (pg_part_ok [y; mo] d s_day Bd) as (td & Ed & Id).
  change (true, false) with (blank [], tail_neg []). change (bs "year") with s_year. change (bs "mon") with s_mon. change (bs "day") with s_day.
  rewrite Ey. cbn [bind app]. rewrite Em. cbn [bind app]. rewrite Ed. cbn [bind app].
  rewrite !abs32_ok by (assumption || (unfold i32_max; lia)). cbn [bind].
  destruct (zeropad_ok md 2 (Z.abs h) ltac:(lia) ltac:(unfold i32_max in *; rng; lia)) as (th & Eh & Ph & _).
  destruct (zeropad_ok md 2 (Z.abs mi) ltac:(lia) ltac:(unfold i32_max in *; rng; lia)) as (tmi & Ei & Pi & _).
  destruct (append_seconds_ok md s us true ltac:(lia) ltac:(lia)) as (x & Ex & Ix).
  change MAX_PRECISION with 6%nat. rewrite Eh, Ei, Ex. cbn [bind]. rewrite !nz_eqb.
  set (z := blank [y; mo; d]). set (b := tail_neg [y; mo; d]).
  assert (blank [h; mi; s; us] && negb z = negb (z || negb (0 =? h) || negb (0 =? mi) || negb (0 =? s) || negb (0 =? us))) as ->.
  { cbn [blank forallb]. destruct z, (0 =? h), (0 =? mi), (0 =? s), (0 =? us); reflexivity. }
  destruct (z || negb (0 =? h) || negb (0 =? mi) || negb (0 =? s) || negb (0 =? us)); cbn [negb bind].
  - eexists. split; [reflexivity|]. do 4 eexists. do 3 (split; [eassumption|]). split; [reflexivity|].
    exists (th ++ 58 :: tmi ++ 58 :: x). split; [exists th, tmi, x; auto|]. rewrite lead_any4 by lia. reflexivity.
  - eexists. split; [reflexivity|]. do 4 eexists. do 3 (split; [eassumption|]). split; reflexivity.
Qed.

(** ** Verbose *)
Lemma blank_lead l : blank l = true -> lead_neg l = false.
Proof.
  induction l as [|v l IH]; [reflexivity|]. unfold blank. cbn [forallb lead_neg].
  rewrite andb_true_iff, Z.eqb_eq. intros [<- B]. cbn. auto.
Qed.
Lemma lead_app l r : lead_neg (l ++ r) = if blank l then lead_neg r else lead_neg l.
Proof.
  induction l as [|v l IH]; [reflexivity|]. unfold blank in *. cbn [app forallb lead_neg].
  rewrite (Z.eqb_sym 0 v). destruct (v =? 0); cbn [andb]; [exact IH|reflexivity].
Qed.
Lemma blank_app l r : blank (l ++ r) = blank l && blank r.
Proof. apply forallb_app. Qed.

Lemma vb_part_ok md l v unit : Z.abs v <= i32_max ->
  exists t, add_verbose_int_part md v unit (blank l, lead_neg l)
    = Ok (t, (blank (l ++ [v]), lead_neg (l ++ [v]))) /\ forall r, vb_part (lead_neg (l ++ v :: r)) v unit t.
Proof.
  intros H. unfold add_verbose_int_part, vb_part. rewrite lead_app, blank_app. cbn [blank forallb lead_neg].
  destruct (Z.eqb_spec v 0) as [->|N].
  - exists []. cbn. rewrite andb_true_r. split; [|auto].
    destruct (blank l) eqn:B; [rewrite (blank_lead l B)|]; reflexivity.
  - assert ((0 =? v) = false) as -> by lia. rewrite andb_false_l, andb_false_r.
    rewrite abs32_ok, neg32_ok by assumption.
    assert ((if blank l then Ok (Z.abs v) else if lead_neg l then Ok (- v) else Ok v) =
      Ok (A := Z) (if (if blank l then v <? 0 else lead_neg l) then - v else v)) as ->.
    { destruct (blank l); [destruct (Z.ltb_spec v 0); f_equal; lia|destruct (lead_neg l); reflexivity]. }
    cbn [bind]. set (p := if (if blank l then v <? 0 else lead_neg l) then - v else v).
    assert (Z.abs p <= i32_max) as P by (unfold p; destruct (if blank l then v <? 0 else lead_neg l); lia).
    destruct (pg_ltostr_ok p (in_abs _ P)) as (t & -> & I & _). cbn [bind].
    assert ((if negb (v =? 1) then [115] else []) = (if v =? 1 then [] else [115])) as -> by (destruct (v =? 1); reflexivity).
    eexists. split; [reflexivity|]. intros r. right. split; [exact N|]. exists t.
    split; [|reflexivity]. rewrite lead_app. cbn [lead_neg]. assert ((v =? 0) = false) as -> by lia. exact I.
Qed.

Lemma verbose_layout_ok md tm us : bounded tm us -> signs_ok (fields_at tm us) ->
  exists t, format_verbose md tm us = Ok t /\ verbose_layout (fields_at tm us) t.
Proof.
  intros [By Bmo Bd Bh Bmi Bs Bu] [S1 S2]. unfold format_verbose. cbv zeta. unfold verbose_layout.
  destruct tm as [s mi h d mo y wd yd dst]. unfold fields_at, clock_fields, all_fields, abs_seconds in *.
  cbn [f_y f_mo f_d f_h f_mi f_s f_us tm_year tm_mon tm_mday tm_hour tm_min tm_sec] in *.
  destruct (vb_part_ok md [] y s_year By) as (ty & Ey & Iy). destruct (vb_part_ok md [y] mo s_mon Bmo) as (tmo & Em & Im).
  destruct (vb_part_ok md [y; mo] d s_day Bd) as (td & Ed & Id). destruct (vb_part_ok md [y; mo; d] h s_hour Bh) as (th & Eh & Ih).
  destruct (vb_part_ok md [y; mo; d; h] mi s_min ltac:(unfold i32_max; lia)) as (tmi & Ei & Ii).
  change (true, false) with (blank [], lead_neg []). change (bs "year") with s_year. change (bs "mon") with s_mon.
  change (bs "day") with s_day. change (bs "hour") with s_hour. change (bs "min") with s_min.
  rewrite Ey. cbn [bind]. cbn [app] in *. rewrite Em. cbn [bind]. rewrite Ed. cbn [bind]. rewrite Eh. cbn [bind]. rewrite Ei. cbn [bind].
  specialize (Iy [mo; d; h; mi; s; us]). specialize (Im [d; h; mi; s; us]). specialize (Id [h; mi; s; us]).
  specialize (Ih [mi; s; us]). specialize (Ii [s; us]).
  destruct (append_seconds_ok md s us false ltac:(lia) ltac:(lia)) as (x & Ex & Ix).
  change MAX_PRECISION with 6%nat. rewrite Ex. rewrite !abs32_ok by (unfold i32_max; lia). cbn [bind]. rewrite !nz_eqb.
  assert (lead_neg [y; mo; d; h; mi; s; us] = if blank [y; mo; d; h; mi] then lead_neg [s; us] else lead_neg [y; mo; d; h; mi]) as EL
    by (change [y; mo; d; h; mi; s; us] with ([y; mo; d; h; mi] ++ [s; us]); apply lead_app).
  assert (blank [y; mo; d; h; mi; s; us] = blank [y; mo; d; h; mi] && blank [s; us]) as EB
    by (change [y; mo; d; h; mi; s; us] with ([y; mo; d; h; mi] ++ [s; us]); apply blank_app).
  pose proof (blank_lead [y; mo; d; h; mi]) as BL.
  set (ago := lead_neg [y; mo; d; h; mi; s; us]) in *. rewrite EB.
  set (z := blank [y; mo; d; h; mi]) in *. set (b := lead_neg [y; mo; d; h; mi]) in *.
  assert ((s <? 0) || (s =? 0) && (us <? 0) = lead_neg [s; us]) as ->.
  { cbn. destruct (Z.eqb_spec s 0), (Z.eqb_spec us 0), (Z.ltb_spec s 0), (Z.ltb_spec us 0); cbn; try reflexivity; lia. }
  assert (blank [s; us] = negb (negb (0 =? s) || negb (0 =? us))) as ->.
  { cbn [blank forallb]. destruct (0 =? s), (0 =? us); reflexivity. }
  set (ng := lead_neg [s; us]) in *.
  destruct (negb (0 =? s) || negb (0 =? us)) eqn:Zs; cbn [negb bind].
  - assert ((if ng && z then true else b) = ago) as ->.
    { rewrite EL. destruct z; [rewrite BL by reflexivity|]; destruct ng; reflexivity. }
    assert ((if ng then if z then [] else if negb b then [45] else [] else if b then [45] else []) = minus (xorb ago ng)) as ->.
    { rewrite EL. destruct z; [rewrite BL by reflexivity|]; destruct ng; try reflexivity; destruct b; reflexivity. }
    rewrite andb_false_r.
    assert ((if negb (Z.abs s =? 1) || negb (0 =? us) then [115] else []) = (if (Z.abs s =? 1) && (us =? 0) then [] else [115])) as ->.
    { rewrite (Z.eqb_sym us 0). destruct (Z.abs s =? 1), (0 =? us); reflexivity. }
    change (bs " sec") with (32 :: s_sec).
    eexists. split; [reflexivity|]. eexists ty, tmo, td, th, tmi, _. do 5 (split; [assumption|]).
    split; [reflexivity|]. exists x. split; [exact Ix|]. reflexivity.
  - assert (ago = b) as EA.
    { rewrite EL. rewrite orb_false_iff, !negb_false_iff, !Z.eqb_eq in Zs. destruct Zs as [<- <-].
      destruct z; [rewrite BL by reflexivity|]; reflexivity. }
    rewrite andb_true_r. eexists. split; [reflexivity|]. eexists ty, tmo, td, th, tmi, []. do 5 (split; [assumption|]).
    split; [|reflexivity]. rewrite EA. reflexivity.
Qed.

(** ** SQL standard *)
Lemma mixed_iff y mo d h mi s us : mixed (mkFields y mo d h mi s us) <->
  ((y <? 0) || (mo <? 0) || (d <? 0) || (h <? 0) || (mi <? 0) || (s <? 0) || (us <? 0))
  && ((0 <? y) || (0 <? mo) || (0 <? d) || (0 <? h) || (0 <? mi) || (0 <? s) || (0 <? us))
  || (nz y || nz mo) && (nz d || nz h || nz mi || nz s || nz us) = true.
Proof.
  unfold mixed, all_fields, clock_fields, nz. cbn [f_y f_mo f_d f_h f_mi f_s f_us].
  rewrite !Exists_cons, !Exists_nil, !Forall_cons_iff.
  rewrite orb_true_iff, !andb_true_iff, !orb_true_iff, !negb_true_iff, !Z.ltb_lt, !Z.eqb_neq.
  assert (Forall (fun v : Z => v = 0) []) as F by constructor.
  split.
  - intros [H|[A B]]; [left; tauto|right]. split; [destruct (Z.eq_dec y 0), (Z.eq_dec mo 0); tauto|].
    destruct (Z.eq_dec d 0), (Z.eq_dec h 0), (Z.eq_dec mi 0), (Z.eq_dec s 0), (Z.eq_dec us 0); tauto.
  - intros [H|[A B]]; [left; tauto|right]. split; intros C; [destruct A; tauto|tauto].
Qed.
Lemma nonneg_text v : 0 <= v <= i32_max -> exists t, pg_ltostr v = Ok t /\ padded 1 v t.
Proof.
  intros H. destruct (pg_ltostr_nonneg v) as (t & E & D & _); [unfold i32_max in *; lia|].
  exists t. split; [exact E|]. now apply decimal_padded1.
Qed.
Lemma hms_layout md h mi s us : 0 <= h <= i32_max -> 0 <= mi < 60 -> Z.abs s < 60 -> Z.abs us < 1000000 ->
  exists t, iv_hms md h mi s us = Ok t /\ clock_text 1 h mi (Z.abs s) (Z.abs us) t.
Proof.
  intros H M S U. unfold iv_hms. destruct (nonneg_text h H) as (th & -> & Ph). cbn [bind].
  destruct (zeropad_ok md 2 mi ltac:(lia) ltac:(unfold i32_max in *; rng; lia)) as (tmi & -> & Pi & _). cbn [bind].
  destruct (append_seconds_ok md s us true ltac:(lia) ltac:(lia)) as (x & Ex & Ix).
  change MAX_PRECISION with 6%nat. rewrite Ex. cbn [bind]. eexists. split; [reflexivity|]. exists th, tmi, x. auto.
Qed.

Lemma sql_layout_ok md tm us : bounded tm us -> signs_ok (fields_at tm us) ->
  exists t, format_sql md tm us = Ok t /\ sql_layout (fields_at tm us) t.
Proof.
  intros [By Bmo Bd Bh Bmi Bs Bu] [S1 S2]. unfold format_sql. cbv zeta. unfold sql_layout, sql_clock.
  destruct tm as [s mi h d mo y wd yd dst]. unfold fields_at, clock_fields, all_fields in *.
  cbn [f_y f_mo f_d f_h f_mi f_s f_us tm_year tm_mon tm_mday tm_hour tm_min tm_sec] in *.
  pose proof (mixed_iff y mo d h mi s us) as MX. apply same_sign_2' in S1. apply same_sign_4' in S2.
  set (neg := (y <? 0) || (mo <? 0) || (d <? 0) || (h <? 0) || (mi <? 0) || (s <? 0) || (us <? 0)) in *.
  set (pos := (0 <? y) || (0 <? mo) || (0 <? d) || (0 <? h) || (0 <? mi) || (0 <? s) || (0 <? us)) in *.
  assert (blank [y; mo; d; h; mi; s; us] = negb neg && negb pos) as EB.
  { cbn [blank forallb]. subst neg pos. lia. }
  set (mx := neg && pos || (nz y || nz mo) && (nz d || nz h || nz mi || nz s || nz us)) in *.
  destruct (nonneg_text (Z.abs y) ltac:(lia)) as (ty & Ey & Py). destruct (nonneg_text (Z.abs mo) ltac:(lia)) as (tmo & Em & Pm).
  destruct (nonneg_text (Z.abs d) ltac:(lia)) as (td & Ed & Pd).
  destruct mx eqn:Emx.
  - assert (mixed (mkFields y mo d h mi s us)) as M by (apply MX; reflexivity).
    cbn [negb]. rewrite !andb_false_r. cbn [bind].
    assert (negb neg && negb pos = false) as ->.
    { subst mx neg pos. unfold nz in Emx. lia. }
    cbn [negb]. rewrite !abs32_ok by (assumption || (unfold i32_max; lia)). cbn [bind].
    rewrite Ey, Em, Ed. cbn [bind].
    destruct (hms_layout md (Z.abs h) (Z.abs mi) s us ltac:(lia) ltac:(lia) ltac:(lia) ltac:(lia)) as (tc & Ec & Pc).
    rewrite Ec. cbn [bind app]. eexists. split; [reflexivity|]. exists ty, tmo, td, tc. do 4 (split; [assumption|]).
    left. split; [exact M|]. unfold sign_char. rewrite lead_any4, lead_any by lia.
    assert (lead_neg [d] = (d <? 0)) as -> by (cbn; destruct (Z.eqb_spec d 0) as [->|]; reflexivity).
    reflexivity.
  - assert (~ mixed (mkFields y mo d h mi s us)) as M by (intros M; apply MX in M; discriminate).
    cbn [negb]. rewrite !andb_true_r.
    assert (forall v, In v [y; mo; d; h; mi; s; us] -> (if neg then - v else v) = Z.abs v) as AB.
    { intros v Hv. cbn in Hv. subst mx. destruct neg eqn:En; [destruct pos eqn:Ep; [discriminate|]|].
      - assert (v <= 0); [|lia]. subst pos. clear - Ep Hv. lia.
      - assert (0 <= v); [|lia]. subst neg. clear - En Hv. lia. }
    assert (forall v, Z.abs v <= i32_max -> In v [y; mo; d; h; mi; s; us] -> (if neg then neg32 md v else Ok v) = Ok (Z.abs v)) as N.
    { intros v V Hv. rewrite <- (AB v Hv). destruct neg; [now apply neg32_ok|reflexivity]. }
    rewrite !N by (cbn; tauto || (unfold i32_max; lia)). cbn [bind].
    assert ((if neg then neg64 md us else Ok us) = Ok (Z.abs us)) as ->.
    { rewrite <- (AB us ltac:(cbn; tauto)). destruct neg; [unfold neg64; apply ar64_ok; clear - Bu; rng; lia|reflexivity]. }
    cbn [bind].
    destruct (hms_layout md (Z.abs h) (Z.abs mi) (Z.abs s) (Z.abs us) ltac:(lia) ltac:(lia) ltac:(lia) ltac:(lia)) as (tc & Ec & Pc).
    rewrite !Z.abs_involutive in Pc.
    assert (lead_neg [y; mo; d; h; mi; s; us] = neg) as EL.
    { destruct neg eqn:En.
      - cbn [lead_neg]. assert (forall v, In v [y; mo; d; h; mi; s; us] -> v <= 0) as NP.
        { intros v Hv. specialize (AB v Hv). cbv iota in AB. lia. }
        pose proof (NP y ltac:(cbn; tauto)). pose proof (NP mo ltac:(cbn; tauto)). pose proof (NP d ltac:(cbn; tauto)).
        pose proof (NP h ltac:(cbn; tauto)). pose proof (NP mi ltac:(cbn; tauto)). pose proof (NP s ltac:(cbn; tauto)).
        pose proof (NP us ltac:(cbn; tauto)). subst neg. clear - En H H0 H1 H2 H3 H4 H5.
        destruct (Z.eqb_spec y 0), (Z.eqb_spec mo 0), (Z.eqb_spec d 0), (Z.eqb_spec h 0), (Z.eqb_spec mi 0), (Z.eqb_spec s 0), (Z.eqb_spec us 0); lia.
      - subst neg. clear - En. cbn [lead_neg].
        destruct (Z.eqb_spec y 0), (Z.eqb_spec mo 0), (Z.eqb_spec d 0), (Z.eqb_spec h 0), (Z.eqb_spec mi 0), (Z.eqb_spec s 0), (Z.eqb_spec us 0); lia. }
    rewrite EL, EB.
    assert (blank [y; mo] = negb (nz y || nz mo)) as -> by (unfold nz; cbn [blank forallb]; lia).
    rewrite negb_involutive. fold (nz d).
    assert (exists out, (if negb neg && negb pos then Ok [48]
      else if nz y || nz mo then let* a := pg_ltostr (Z.abs y) in let* b := pg_ltostr (Z.abs mo) in Ok (a ++ 45 :: b)
      else if nz d then let* a := pg_ltostr (Z.abs d) in let* b := iv_hms md (Z.abs h) (Z.abs mi) (Z.abs s) (Z.abs us) in Ok (a ++ 32 :: b)
      else iv_hms md (Z.abs h) (Z.abs mi) (Z.abs s) (Z.abs us)) = Ok out /\
      out = if negb neg && negb pos then [48] else if nz y || nz mo then ty ++ 45 :: tmo else if nz d then td ++ 32 :: tc else tc) as (out & Eo & Fo).
    { rewrite Ey, Em, Ed, Ec. cbn [bind]. destruct (negb neg && negb pos), (nz y || nz mo), (nz d); eauto. }
    rewrite Eo. cbn [bind]. eexists. split; [reflexivity|]. exists ty, tmo, td, tc. do 4 (split; [assumption|]).
    right. split; [exact M|]. rewrite Fo. reflexivity.
Qed.

Lemma layout_ok md a style : fields_ok a -> iv_day a <> i32_min -> Z.abs (iv_time a) < 2147483648 * 3600000000 ->
  exists t, interval_format md a style = Ok t /\ interval_layout style (fields_at (iv_tm a) (iv_us a)) t.
Proof.
  intros F D T. pose proof (iv_bounded a F D T) as B. pose proof (iv_fields a) as FA.
  assert (signs_ok (fields_at (iv_tm a) (iv_us a))) as S by (split; apply FA).
  unfold interval_format. rewrite iv_to_pgtime_ok by exact F.
  rewrite in32b_true by (rng; lia). cbn [bind fst snd].
  destruct (format_len md (iv_tm a) (iv_us a) style B) as (t & E & L).
  rewrite E. cbn [bind]. exists t. split; [apply fits_ok; lia|].
  destruct style; cbn [format_interval interval_layout] in *.
  - destruct (postgres_layout_ok md _ _ B S) as (t' & E' & H). congruence.
  - destruct (verbose_layout_ok md _ _ B S) as (t' & E' & H). congruence.
  - destruct (sql_layout_ok md _ _ B S) as (t' & E' & H). congruence.
  - destruct (iso_layout_ok md _ _ B S) as (t' & E' & H). congruence.
Qed.
