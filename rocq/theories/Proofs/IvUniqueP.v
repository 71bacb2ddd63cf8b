(** Each interval layout determines the fields. Used by C74. *)
From Verif Require Import Model.Base Spec.Calendar Spec.Ranges Spec.Clock Spec.Text Spec.IntervalS Spec.IntervalLayout
  Proofs.Arith Proofs.UniqueP Proofs.IvLayoutP.
From Coq Require Import Lia List Bool.
Import ListNotations.
Open Scope Z_scope.

Definition sign (s : list Z) : Prop := s = [] \/ s = [43] \/ s = [45].

Lemma int_form v n : int_text v n -> exists sg ds, n = sg ++ ds /\ Forall digit ds /\ ds <> [] /\
  (v < 0 /\ sg = [45] \/ 0 <= v /\ sg = []) /\ digits_value ds = Z.abs v.
Proof.
  unfold int_text. destruct (Z.ltb_spec v 0).
  - intros (ds & -> & (D & N & V) & _). exists [45], ds. repeat split; auto. lia.
  - intros ((D & N & V) & _). exists [], n. repeat split; auto. lia.
Qed.
Lemma snum_split sg ds x sg' ds' y : sign sg -> sign sg' -> Forall digit ds -> ds <> [] -> Forall digit ds' -> ds' <> [] ->
  nd x -> nd y -> sg ++ ds ++ x = sg' ++ ds' ++ y -> sg = sg' /\ ds = ds' /\ x = y.
Proof.
  intros S S' D N D' N' X Y E.
  assert (sg = sg') as <-.
  { destruct ds as [|c ds]; [congruence|]. destruct ds' as [|c' ds']; [congruence|].
    inversion D as [|? ? C _]; subst. inversion D' as [|? ? C' _]; subst. unfold digit in *.
    destruct S as [->|[->| ->]], S' as [->|[->| ->]]; cbn in E; try reflexivity; injection E as E0 _; lia. }
  apply app_inv_head in E. destruct (dsplit _ _ _ _ D D' X Y E) as [-> ->]. auto.
Qed.
Lemma int_split v v' n n' x y : int_text v n -> int_text v' n' -> nd x -> nd y -> n ++ x = n' ++ y -> v = v' /\ x = y.
Proof.
  intros I I' X Y E. destruct (int_form v n I) as (sg & ds & -> & D & N & S & V).
  destruct (int_form v' n' I') as (sg' & ds' & -> & D' & N' & S' & V').
  rewrite <- !app_assoc in E.
  apply snum_split in E as (E1 & E2 & E3); auto; try (unfold sign; destruct S as [[? ->]|[? ->]]; tauto);
    try (unfold sign; destruct S' as [[? ->]|[? ->]]; tauto).
  subst. split; [|reflexivity]. destruct S as [[? ->]|[? ->]], S' as [[? Q]|[? Q]]; try discriminate Q; lia.
Qed.

(** ** ISO 8601 *)
(** [x] does not start with a number and the letter [u]. *)
Definition other (u : Z) (x : list Z) : Prop :=
  x = [] \/ (exists r, x = 84 :: r) \/
  exists sg ds w, sign sg /\ Forall digit ds /\ ds <> [] /\ nd w /\ (forall r, w <> u :: r) /\ x = sg ++ ds ++ w.
Lemma item_split v v' u t t' x y : ~ digit u -> iso_item v u t -> iso_item v' u t' -> other u x -> other u y ->
  t ++ x = t' ++ y -> v = v' /\ x = y.
Proof.
  intros U.
  assert (forall v n x y, int_text v n -> other u y -> n ++ u :: x <> y) as C.
  { intros v0 n x0 y0 I O E. destruct (int_form v0 n I) as (sg & ds & -> & D & N & S & V).
    assert (sign sg) as Sg by (unfold sign; destruct S as [[? ->]|[? ->]]; tauto).
    destruct ds as [|c ds]; [congruence|].
    destruct O as [->|[(r & ->)|(sg' & ds' & w & S' & D' & N' & W & F & ->)]].
    - destruct Sg as [->|[->| ->]]; discriminate.
    - inversion D as [|? ? Dc _]; subst. unfold digit in Dc.
      destruct Sg as [->|[->| ->]]; cbn in E; injection E as E _; try lia.
    - rewrite <- app_assoc in E. apply snum_split in E as (_ & _ & E); auto. apply (F x0). congruence. }
  intros [[-> ->]|[Z (n & I & ->)]] [[-> ->]|[Z' (n' & I' & ->)]] X Y E.
  - auto.
  - rewrite <- app_assoc in E. cbn in E. exfalso. apply (C v' n' y x); auto.
  - rewrite <- app_assoc in E. cbn in E. exfalso. apply (C v n x y); auto.
  - rewrite <- !app_assoc in E. cbn [app] in E. apply (int_split v v') in E as [-> E]; auto. injection E as ->. auto.
Qed.
Lemma item_other u v w t x : w <> u -> ~ digit w -> iso_item v w t -> other u x -> other u (t ++ x).
Proof.
  intros N D [[-> ->]|[Z (n & I & ->)]] X; [exact X|]. right. right.
  destruct (int_form v n I) as (sg & ds & -> & Dg & Nn & S & _). exists sg, ds, (w :: x).
  split; [unfold sign; destruct S as [[? ->]|[? ->]]; tauto|]. do 3 (split; [assumption|]).
  split; [intros r; congruence|]. rewrite <- !app_assoc. reflexivity.
Qed.
Lemma abs_signs s us s' us' : same_sign [s; us] -> same_sign [s'; us'] -> Z.abs s = Z.abs s' -> Z.abs us = Z.abs us' ->
  lead_neg [s; us] = lead_neg [s'; us'] -> s = s' /\ us = us'.
Proof.
  intros S S' A B. apply same_sign_2' in S, S'. rewrite !lead_any by assumption. intros E. lia.
Qed.
Lemma abs_signs4 h mi s us h' mi' s' us' : same_sign [h; mi; s; us] -> same_sign [h'; mi'; s'; us'] ->
  Z.abs h = Z.abs h' -> Z.abs mi = Z.abs mi' -> Z.abs s = Z.abs s' -> Z.abs us = Z.abs us' ->
  lead_neg [h; mi; s; us] = lead_neg [h'; mi'; s'; us'] -> h = h' /\ mi = mi' /\ s = s' /\ us = us'.
Proof.
  intros S S'. apply same_sign_4' in S, S'. rewrite !lead_any4 by assumption. intros. lia.
Qed.
Lemma signs_sec f : signs_ok f -> same_sign [f_s f; f_us f].
Proof. intros [_ S]. apply same_sign_2. apply same_sign_4' in S. lia. Qed.
Lemma minus_sign b : sign (minus b). Proof. unfold sign. destruct b; cbn; tauto. Qed.
Lemma minus_inj b b' : minus b = minus b' -> b = b'. Proof. destruct b, b'; cbn; congruence. Qed.
Lemma blank_forall l : blank l = true -> Forall (fun v => v = 0) l.
Proof. unfold blank. rewrite forallb_forall, Forall_forall. intros H x Hx. specialize (H x Hx). lia. Qed.

(** Seconds as digits and what follows. *)
Lemma sec_form w s us t : seconds_text w s us t -> exists ds r, Forall digit ds /\ ds <> [] /\ t = ds ++ r /\
  (r = [] \/ exists fr, r = 46 :: fr).
Proof.
  intros (ds & [(D & N & _) _] & [[_ ->]|[_ (fr & _ & ->)]]).
  - exists ds, []. rewrite app_nil_r. auto.
  - exists ds, (46 :: fr). eauto 6.
Qed.
(** Signed seconds *)
Lemma ssec_split sg sg' s us s' us' w t t' x y : sign sg -> sign sg' -> seconds_text w s us t -> seconds_text w s' us' t' ->
  nf x -> nf y -> sg ++ t ++ x = sg' ++ t' ++ y -> sg = sg' /\ s = s' /\ us = us' /\ x = y.
Proof.
  intros S S' T T' X Y E.
  assert (sg = sg') as <-.
  { destruct (sec_form _ _ _ _ T) as (ds & r & D & N & -> & _). destruct (sec_form _ _ _ _ T') as (ds' & r' & D' & N' & -> & _).
    destruct ds as [|c ds]; [congruence|]. destruct ds' as [|c' ds']; [congruence|].
    inversion D as [|? ? C _]; subst. inversion D' as [|? ? C' _]; subst. unfold digit in *.
    destruct S as [->|[->| ->]], S' as [->|[->| ->]]; cbn in E; try reflexivity; injection E as E0 _; lia. }
  apply app_inv_head in E. destruct (sec_split _ _ _ _ _ _ _ _ _ T T' X Y E) as (-> & -> & ->). auto.
Qed.

(** The signed seconds with their letter. *)
Lemma ssec_other u s us b w t : u <> 46 -> u <> 83 -> seconds_text w s us t -> other u (minus b ++ t ++ [83]).
Proof.
  intros N N' T. destruct (sec_form _ _ _ _ T) as (ds & r & D & Nn & -> & R). right. right.
  exists (minus b), ds, (r ++ [83]). split; [apply minus_sign|]. split; [exact D|]. split; [exact Nn|].
  rewrite <- app_assoc.
  destruct R as [->|(fr & ->)]; cbn; (split; [unfold digit; lia|]); (split; [intros q Q; injection Q; lia|reflexivity]).
Qed.
Lemma nf_S : nf [83]. Proof. cbn. unfold digit. lia. Qed.
Lemma blank2 a b : blank [a; b] = true -> a = 0 /\ b = 0.
Proof. intros H. apply blank_forall in H. inversion H as [|? ? ? H']. inversion H'. auto. Qed.
Lemma blank4 a b c d : blank [a; b; c; d] = true -> a = 0 /\ b = 0 /\ c = 0 /\ d = 0.
Proof. change [a; b; c; d] with ([a; b] ++ [c; d]). rewrite blank_app, andb_true_iff. intros [A B]. apply blank2 in A, B. tauto. Qed.
Lemma fields_eq f f' : f_y f = f_y f' -> f_mo f = f_mo f' -> f_d f = f_d f' -> f_h f = f_h f' -> f_mi f = f_mi f' ->
  f_s f = f_s f' -> f_us f = f_us f' -> f = f'.
Proof. destruct f, f'; cbn. congruence. Qed.

Definition iso_ts (f : fields) (ts : list Z) : Prop :=
  if blank [f_s f; f_us f] && negb (blank (all_fields f)) then ts = []
  else exists x, abs_seconds 1 f x /\ ts = minus (lead_neg [f_s f; f_us f]) ++ x ++ [83].
Definition iso_tt (f : fields) (tt : list Z) : Prop :=
  if blank (clock_fields f) && negb (blank (all_fields f)) then tt = []
  else exists th tmi ts, iso_item (f_h f) 72 th /\ iso_item (f_mi f) 77 tmi /\ tt = 84 :: th ++ tmi ++ ts /\ iso_ts f ts.
Lemma iso_ts_other u f ts : u <> 46 -> u <> 83 -> iso_ts f ts -> other u ts.
Proof.
  intros N N'. unfold iso_ts. destruct (blank [f_s f; f_us f] && negb (blank (all_fields f))).
  - intros ->. left. reflexivity.
  - intros (x & X & ->). eapply ssec_other; eauto.
Qed.
Lemma iso_tt_other u f tt : iso_tt f tt -> other u tt.
Proof.
  unfold iso_tt. destruct (blank (clock_fields f) && negb (blank (all_fields f))).
  - intros ->. left. reflexivity.
  - intros (a & b & c & _ & _ & -> & _). right. left. eauto.
Qed.
Lemma iso_ts_split f f' ts : signs_ok f -> signs_ok f' -> iso_ts f ts -> iso_ts f' ts -> f_s f = f_s f' /\ f_us f = f_us f'.
Proof.
  intros Sg Sg'. apply signs_sec in Sg, Sg'. unfold iso_ts.
  assert (forall b x g, abs_seconds 1 g x -> minus b ++ x ++ [83] = [] -> False) as NE.
  { intros b x g _ Q. apply app_eq_nil in Q as [_ Q]. apply app_eq_nil in Q as [_ Q]. discriminate. }
  destruct (blank [f_s f; f_us f] && negb (blank (all_fields f))) eqn:B,
           (blank [f_s f'; f_us f'] && negb (blank (all_fields f'))) eqn:B'.
  - intros _ _. apply andb_true_iff in B as [B _]. apply andb_true_iff in B' as [B' _]. apply blank2 in B, B'. lia.
  - intros -> (x & X & Q). symmetry in Q. destruct (NE _ _ _ X Q).
  - intros (x & X & Q) ->. symmetry in Q. destruct (NE _ _ _ X Q).
  - intros (x & X & ->) (x' & X' & E).
    destruct (ssec_split _ _ _ _ _ _ _ _ _ _ _ (minus_sign _) (minus_sign _) X X' nf_S nf_S E) as (E1 & E2 & E3 & _).
    apply minus_inj in E1. apply abs_signs; assumption.
Qed.
Lemma letter_nd u : 65 <= u <= 90 -> ~ digit u. Proof. unfold digit. lia. Qed.
Lemma iso_tt_split f f' tt : signs_ok f -> signs_ok f' -> iso_tt f tt -> iso_tt f' tt ->
  f_h f = f_h f' /\ f_mi f = f_mi f' /\ f_s f = f_s f' /\ f_us f = f_us f'.
Proof.
  intros Sg Sg'. unfold iso_tt.
  destruct (blank (clock_fields f) && negb (blank (all_fields f))) eqn:B,
           (blank (clock_fields f') && negb (blank (all_fields f'))) eqn:B'.
  - intros _ _. apply andb_true_iff in B as [B _]. apply andb_true_iff in B' as [B' _]. apply blank4 in B, B'. lia.
  - intros -> (a & b & c & _ & _ & Q & _). discriminate.
  - intros (a & b & c & _ & _ & Q & _) ->. discriminate.
  - intros (th & tmi & ts & H & M & -> & S) (th' & tmi' & ts' & H' & M' & E & S'). injection E as E.
    pose proof (iso_ts_other 77 f ts ltac:(lia) ltac:(lia) S) as O. pose proof (iso_ts_other 77 f' ts' ltac:(lia) ltac:(lia) S') as O'.
    pose proof (iso_ts_other 72 f ts ltac:(lia) ltac:(lia) S) as P. pose proof (iso_ts_other 72 f' ts' ltac:(lia) ltac:(lia) S') as P'.
    assert (~ digit 72) as L72 by (apply letter_nd; lia). assert (~ digit 77) as L77 by (apply letter_nd; lia).
    assert (77 <> 72) as N by lia.
    destruct (item_split _ _ _ _ _ _ _ L72 H H' (item_other _ _ _ _ _ N L77 M P) (item_other _ _ _ _ _ N L77 M' P') E) as [E1 E2].
    destruct (item_split _ _ _ _ _ _ _ L77 M M' O O' E2) as [E3 E4]. subst ts'.
    destruct (iso_ts_split _ _ _ Sg Sg' S S'). auto.
Qed.
Lemma iso_unique f f' t : signs_ok f -> signs_ok f' -> iso_layout f t -> iso_layout f' t -> f = f'.
Proof.
  intros Sg Sg' (ty & tmo & td & tt & Y & M & D & -> & T) (ty' & tmo' & td' & tt' & Y' & M' & D' & E & T').
  change (iso_tt f tt) in T. change (iso_tt f' tt') in T'. injection E as E.
  assert (~ digit 89) as L89 by (apply letter_nd; lia). assert (~ digit 77) as L77 by (apply letter_nd; lia).
  assert (~ digit 68) as L68 by (apply letter_nd; lia).
  assert (77 <> 89) as N1 by lia. assert (68 <> 89) as N2 by lia. assert (68 <> 77) as N3 by lia.
  pose proof (fun u => iso_tt_other u f tt T) as O. pose proof (fun u => iso_tt_other u f' tt' T') as O'.
  destruct (item_split _ _ _ _ _ _ _ L89 Y Y' (item_other _ _ _ _ _ N1 L77 M (item_other _ _ _ _ _ N2 L68 D (O _)))
    (item_other _ _ _ _ _ N1 L77 M' (item_other _ _ _ _ _ N2 L68 D' (O' _))) E) as [E1 E2].
  destruct (item_split _ _ _ _ _ _ _ L77 M M' (item_other _ _ _ _ _ N3 L68 D (O _)) (item_other _ _ _ _ _ N3 L68 D' (O' _)) E2) as [E3 E4].
  destruct (item_split _ _ _ _ _ _ _ L68 D D' (O _) (O' _) E4) as [E5 E6]. subst tt'.
  destruct (iso_tt_split _ _ _ Sg Sg' T T') as (? & ? & ? & ?). apply fields_eq; assumption.
Qed.

(** ** Postgres *)
(** Does not go on with the plural "s". *)
Definition ns (x : list Z) : Prop := match x with [] => True | c :: _ => c <> 115 /\ ~ digit c end.
(** [x] is not a number followed by the unit [u]. *)
Definition pother (z : bool) (u x : list Z) : Prop :=
  x = [] \/ exists sg ds w, sign sg /\ Forall digit ds /\ ds <> [] /\ nd w /\ (forall r, w <> 32 :: u ++ r) /\
    x = (if z then [] else [32]) ++ sg ++ ds ++ w.
Lemma pg_form v n b : int_text v n -> exists sg ds, (if b && (0 <? v) then [43] else []) ++ n = sg ++ ds /\
  Forall digit ds /\ ds <> [] /\ (v < 0 /\ sg = [45] \/ 0 <= v /\ (sg = [] \/ sg = [43])) /\ digits_value ds = Z.abs v.
Proof.
  intros I. destruct (int_form v n I) as (sg & ds & -> & D & N & S & V).
  destruct (b && (0 <? v)) eqn:B.
  - destruct S as [[S ->]|[S ->]]; [lia|]. exists [43], ds. repeat split; auto.
  - exists sg, ds. repeat split; auto. tauto.
Qed.
Lemma pg_sign v sg : v < 0 /\ sg = [45] \/ 0 <= v /\ (sg = [] \/ sg = [43]) -> sign sg.
Proof. unfold sign. tauto. Qed.
Lemma plural_split v v' x y : ns x -> ns y -> (if v =? 1 then [] else [115]) ++ x = (if v' =? 1 then [] else [115]) ++ y -> x = y.
Proof.
  destruct (v =? 1), (v' =? 1); cbn [app]; intros X Y E.
  - exact E.
  - subst x. cbn in X. lia.
  - subst y. cbn in Y. lia.
  - injection E as E. exact E.
Qed.
Lemma pg_split before v v' u t t' x y :
  pg_part before v u t -> pg_part before v' u t' ->
  (v <> 0 -> ns x) -> (v' <> 0 -> ns y) -> (v = 0 -> pother (blank before) u x) -> (v' = 0 -> pother (blank before) u y) ->
  t ++ x = t' ++ y -> v = v' /\ x = y.
Proof.
  assert (forall v n p x y, int_text v n -> pother (blank before) u y ->
    ((if blank before then [] else [32]) ++ (if tail_neg before && (0 <? v) then [43] else []) ++ n ++ 32 :: u ++ p) ++ x <> y) as C.
  { intros v0 n p x0 y0 I O E. destruct (pg_form v0 n (tail_neg before) I) as (sg & ds & Q & D & N & S & _).
    apply pg_sign in S.
    destruct O as [->|(sg' & ds' & w & S' & D' & N' & W & F & ->)].
    - apply app_eq_nil in E as [E _]. apply app_eq_nil in E as [_ E]. apply app_eq_nil in E as [_ E].
      apply app_eq_nil in E as [_ E]. discriminate.
    - rewrite <- app_assoc in E. apply app_inv_head in E.
      rewrite (app_assoc _ n), Q, <- !app_assoc in E. cbn [app] in E.
      apply snum_split in E as (_ & _ & E); auto; [|apply nd_space]. apply (F (p ++ x0)). rewrite <- E, <- app_assoc. reflexivity. }
  intros [[-> ->]|[Z (n & I & ->)]] [[-> ->]|[Z' (n' & I' & ->)]] X Y X0 Y0 E.
  - auto.
  - exfalso. symmetry in E. exact (C _ _ _ _ _ I' (X0 eq_refl) E).
  - exfalso. exact (C _ _ _ _ _ I (Y0 eq_refl) E).
  - rewrite <- !(app_assoc (if blank before then [] else [32])) in E. apply app_inv_head in E.
    destruct (pg_form v n (tail_neg before) I) as (sg & ds & Q & D & N & S & V).
    destruct (pg_form v' n' (tail_neg before) I') as (sg' & ds' & Q' & D' & N' & S' & V').
    rewrite (app_assoc _ n), (app_assoc _ n'), Q, Q', <- !app_assoc in E. cbn [app] in E.
    apply snum_split in E as (E1 & E2 & E3); auto using nd_space; try (eapply pg_sign; eassumption).
    injection E3 as E3. rewrite <- !app_assoc in E3. apply app_inv_head in E3. apply plural_split in E3; auto.
    split; [|exact E3]. subst. destruct S as [[? ->]|[? [->| ->]]], S' as [[? R]|[? [R|R]]]; try discriminate R; lia.
Qed.
Lemma pg_other before u v w t x : (forall p r, w ++ p <> u ++ r) -> pg_part before v w t ->
  (v = 0 -> pother (blank before) u x) -> pother (blank before) u (t ++ x).
Proof.
  intros F [[-> ->]|[Z (n & I & ->)]] O; [exact (O eq_refl)|]. right.
  destruct (pg_form v n (tail_neg before) I) as (sg & ds & Q & D & N & S & V). apply pg_sign in S.
  exists sg, ds, (32 :: w ++ (if v =? 1 then [] else [115]) ++ x).
  do 3 (split; [assumption|]). split; [apply nd_space|].
  split; [intros r R; injection R as R; exact (F _ _ R)|].
  rewrite <- !app_assoc. f_equal. rewrite (app_assoc _ n), Q, <- !app_assoc. cbn [app]. rewrite <- !app_assoc. reflexivity.
Qed.
Lemma pg_ns before v u t x : blank before = false -> pg_part before v u t -> ns x -> ns (t ++ x).
Proof.
  intros B [[-> ->]|[Z (n & I & ->)]] X; [exact X|]. rewrite B. cbn. unfold digit. lia.
Qed.

Definition pg_tt (f : fields) (tt : list Z) : Prop :=
  if blank (clock_fields f) && negb (blank [f_y f; f_mo f; f_d f]) then tt = []
  else exists c, clock_text 2 (Z.abs (f_h f)) (Z.abs (f_mi f)) (Z.abs (f_s f)) (Z.abs (f_us f)) c
     /\ tt = (if blank [f_y f; f_mo f; f_d f] then [] else [32])
             ++ (if lead_neg (clock_fields f) then [45] else if tail_neg [f_y f; f_mo f; f_d f] then [43] else []) ++ c.
Lemma pg_tt_ns f tt : blank [f_y f; f_mo f; f_d f] = false -> pg_tt f tt -> ns tt.
Proof.
  intros B. unfold pg_tt. rewrite B. destruct (blank (clock_fields f) && negb false).
  - intros ->. exact I.
  - intros (c & _ & ->). cbn. unfold digit. lia.
Qed.
Lemma clock_sign (b b' : bool) : sign (if b then [45] else if b' then [43] else []).
Proof. unfold sign. destruct b, b'; tauto. Qed.
Lemma pg_tt_other u f tt : pg_tt f tt -> pother (blank [f_y f; f_mo f; f_d f]) u tt.
Proof.
  unfold pg_tt. destruct (blank (clock_fields f) && negb (blank [f_y f; f_mo f; f_d f])).
  - intros ->. left. reflexivity.
  - intros (c & (th & tm & ts & [(D & N & _) _] & _ & _ & ->) & ->). right.
    exists (if lead_neg (clock_fields f) then [45] else if tail_neg [f_y f; f_mo f; f_d f] then [43] else []), th, (58 :: tm ++ 58 :: ts).
    split; [apply clock_sign|]. do 2 (split; [assumption|]). split; [apply nd_colon|]. split; [|reflexivity].
    intros r R. discriminate.
Qed.
Lemma clock_first w h mi s us c sg sg' w' h' mi' s' us' c' : clock_text w h mi s us c -> clock_text w' h' mi' s' us' c' ->
  sign sg -> sign sg' -> sg ++ c = sg' ++ c' -> sg = sg' /\ h = h' /\ mi = mi' /\ s = s' /\ us = us'.
Proof.
  intros C C' S S' E.
  assert (sg = sg') as <-.
  { destruct C as (th & tm & ts & [(D & N & _) _] & _ & _ & ->). destruct C' as (th' & tm' & ts' & [(D' & N' & _) _] & _ & _ & ->).
    apply snum_split in E as (E & _ & _); auto using nd_colon. }
  apply app_inv_head in E. rewrite <- (app_nil_r c), <- (app_nil_r c') in E.
  destruct (clock_split _ _ _ _ _ _ _ _ _ _ _ _ _ _ C C' (I : nf []) (I : nf []) E) as (-> & -> & -> & -> & _). auto 6.
Qed.
Lemma pg_tt_split f f' tt : signs_ok f -> signs_ok f' -> f_y f = f_y f' -> f_mo f = f_mo f' -> f_d f = f_d f' ->
  pg_tt f tt -> pg_tt f' tt -> f_h f = f_h f' /\ f_mi f = f_mi f' /\ f_s f = f_s f' /\ f_us f = f_us f'.
Proof.
  intros [_ Sg] [_ Sg'] E1 E2 E3. unfold pg_tt. rewrite <- E1, <- E2, <- E3. clear E1 E2 E3.
  set (l := [f_y f; f_mo f; f_d f]). clearbody l.
  assert (forall w h mi s us c (x : list Z) (b b' : bool), clock_text w h mi s us c -> x ++ (if b then [45] else if b' then [43] else []) ++ c = [] -> False) as NE.
  { intros w h mi s us c x b b' (th & tm & ts & _ & _ & _ & ->) Q.
    apply app_eq_nil in Q as [_ Q]. apply app_eq_nil in Q as [_ Q]. apply app_eq_nil in Q as [_ Q]. discriminate. }
  destruct (blank (clock_fields f) && negb (blank l)) eqn:B, (blank (clock_fields f') && negb (blank l)) eqn:B'.
  - intros _ _. apply andb_true_iff in B as [B _]. apply andb_true_iff in B' as [B' _]. apply blank4 in B, B'. lia.
  - intros -> (c & C & Q). symmetry in Q. destruct (NE _ _ _ _ _ _ _ _ _ C Q).
  - intros (c & C & Q) ->. symmetry in Q. destruct (NE _ _ _ _ _ _ _ _ _ C Q).
  - intros (c & C & ->) (c' & C' & E). apply app_inv_head in E.
    destruct (clock_first _ _ _ _ _ _ _ _ _ _ _ _ _ _ C C' (clock_sign _ _) (clock_sign _ _) E) as (E1 & ? & ? & ? & ?).
    apply abs_signs4; auto. unfold clock_fields in E1.
    destruct (lead_neg [f_h f; f_mi f; f_s f; f_us f]), (lead_neg [f_h f'; f_mi f'; f_s f'; f_us f']), (tail_neg l);
      congruence.
Qed.
Lemma pg_after f tt tmo td : pg_part [f_y f] (f_mo f) s_mon tmo -> pg_part [f_y f; f_mo f] (f_d f) s_day td -> pg_tt f tt ->
  (f_y f <> 0 -> ns (tmo ++ td ++ tt)) /\ (f_y f = 0 -> pother true s_year (tmo ++ td ++ tt)) /\
  (f_mo f <> 0 -> ns (td ++ tt)) /\ (f_mo f = 0 -> pother (blank [f_y f]) s_mon (td ++ tt)) /\
  (f_d f <> 0 -> ns tt) /\ (f_d f = 0 -> pother (blank [f_y f; f_mo f]) s_day tt).
Proof.
  intros M D T.
  assert (forall a b c, a <> 0 \/ b <> 0 \/ c <> 0 -> blank [a; b; c] = false) as B3.
  { intros a b c H. cbn [blank forallb]. destruct (Z.eqb_spec 0 a), (Z.eqb_spec 0 b), (Z.eqb_spec 0 c); cbn; auto; lia. }
  assert (forall a b, a <> 0 \/ b <> 0 -> blank [a; b] = false) as B2.
  { intros a b H. cbn [blank forallb]. destruct (Z.eqb_spec 0 a), (Z.eqb_spec 0 b); cbn; auto; lia. }
  assert (forall a, a <> 0 -> blank [a] = false) as B1.
  { intros a H. cbn [blank forallb]. destruct (Z.eqb_spec 0 a); cbn; auto; lia. }
  assert (f_y f <> 0 \/ f_mo f <> 0 -> ns (td ++ tt)) as NS.
  { intros H. apply (pg_ns [f_y f; f_mo f] (f_d f) s_day); auto. apply (pg_tt_ns f); auto. apply B3. tauto. }
  assert (forall u, f_d f = 0 -> pother (blank [f_y f; f_mo f]) u tt) as OD.
  { intros u Z. replace (blank [f_y f; f_mo f]) with (blank [f_y f; f_mo f; f_d f]); [apply pg_tt_other; auto|].
    rewrite Z. change [f_y f; f_mo f; 0] with ([f_y f; f_mo f] ++ [0]). rewrite blank_app. apply andb_true_r. }
  assert (forall u, (forall p r, s_day ++ p <> u ++ r) -> f_mo f = 0 -> pother (blank [f_y f]) u (td ++ tt)) as OM.
  { intros u U Z. replace (blank [f_y f]) with (blank [f_y f; f_mo f]).
    - apply pg_other with (v := f_d f) (w := s_day); auto.
    - rewrite Z. change [f_y f; 0] with ([f_y f] ++ [0]). rewrite blank_app. apply andb_true_r. }
  split; [intros H; apply (pg_ns [f_y f] (f_mo f) s_mon); auto|].
  split; [|split; [auto|split; [apply OM; discriminate|split; [intros H; apply (pg_tt_ns f); auto|auto]]]].
  intros Z. change true with (blank [0]). rewrite <- Z.
  apply pg_other with (v := f_mo f) (w := s_mon); [discriminate|assumption|]. apply OM. discriminate.
Qed.
Lemma postgres_unique f f' t : signs_ok f -> signs_ok f' -> postgres_layout f t -> postgres_layout f' t -> f = f'.
Proof.
  intros Sg Sg' (ty & tmo & td & tt & Y & M & D & -> & T) (ty' & tmo' & td' & tt' & Y' & M' & D' & E & T').
  change (pg_tt f tt) in T. change (pg_tt f' tt') in T'.
  destruct (pg_after f tt tmo td M D T) as (A1 & A2 & A3 & A4 & A5 & A6).
  destruct (pg_after f' tt' tmo' td' M' D' T') as (B1 & B2 & B3 & B4 & B5 & B6).
  destruct (pg_split _ _ _ _ _ _ _ _ Y Y' A1 B1 A2 B2 E) as [E1 E2]. rewrite <- E1 in M', D', B4, B6.
  destruct (pg_split _ _ _ _ _ _ _ _ M M' A3 B3 A4 B4 E2) as [E3 E4]. rewrite <- E3 in D', B6.
  destruct (pg_split _ _ _ _ _ _ _ _ D D' A5 B5 A6 B6 E4) as [E5 E6]. subst tt'.
  destruct (pg_tt_split _ _ _ Sg Sg' E1 E3 E5 T T') as (? & ? & ? & ?). apply fields_eq; assumption.
Qed.

(** ** Verbose *)
Definition vother (u x : list Z) : Prop :=
  x = [] \/ (exists r, x = 32 :: 97 :: r) \/
  exists sg ds w, sign sg /\ Forall digit ds /\ ds <> [] /\ nd w /\ (forall r, w <> 32 :: u ++ r) /\ x = 32 :: sg ++ ds ++ w.
Lemma vother_ns u x : vother u x -> ns x.
Proof. intros [->|[(r & ->)|(sg & ds & w & _ & _ & _ & _ & _ & ->)]]; cbn; try tauto; unfold digit; lia. Qed.
Definition turned (ago : bool) (v : Z) : Z := if ago then - v else v.
Lemma vb_split ago ago' v v' u t t' x y : vb_part ago v u t -> vb_part ago' v' u t' -> vother u x -> vother u y ->
  t ++ x = t' ++ y -> turned ago v = turned ago' v' /\ x = y.
Proof.
  assert (forall v n p x y, int_text v n -> vother u y -> (32 :: n ++ 32 :: u ++ p) ++ x <> y) as C.
  { intros v0 n p x0 y0 I O E. destruct (int_form v0 n I) as (sg & ds & -> & D & N & S & V).
    assert (sign sg) as Sg by (unfold sign; destruct S as [[? ->]|[? ->]]; tauto).
    destruct O as [->|[(r & ->)|(sg' & ds' & w & S' & D' & N' & W & F & ->)]].
    - discriminate.
    - destruct ds as [|c ds]; [congruence|]. inversion D as [|? ? Dc _]; subst. unfold digit in Dc.
      destruct Sg as [->|[->| ->]]; cbn in E; injection E as E _; lia.
    - cbn [app] in E. injection E as E. rewrite <- !app_assoc in E. cbn [app] in E.
      apply snum_split in E as (_ & _ & E); auto using nd_space. apply (F (p ++ x0)). rewrite <- E, <- app_assoc. reflexivity. }
  intros [[-> ->]|[Z (n & I & ->)]] [[-> ->]|[Z' (n' & I' & ->)]] X Y E.
  - unfold turned. destruct ago, ago'; auto.
  - exfalso. symmetry in E. exact (C _ _ _ _ _ I' X E).
  - exfalso. exact (C _ _ _ _ _ I Y E).
  - cbn [app] in E. injection E as E. rewrite <- !app_assoc in E. cbn [app] in E.
    apply (int_split (turned ago v) (turned ago' v')) in E as [E1 E]; auto using nd_space.
    injection E as E. rewrite <- !app_assoc in E. apply app_inv_head in E.
    apply plural_split in E; eauto using vother_ns.
Qed.
Lemma vb_other ago v w u t x : vb_part ago v w t -> (forall p r, w ++ p <> u ++ r) -> vother u x -> vother u (t ++ x).
Proof.
  intros [[-> ->]|[Z (n & I & ->)]] F O; [exact O|]. right. right.
  destruct (int_form _ n I) as (sg & ds & -> & D & N & S & V).
  exists sg, ds, (32 :: w ++ (if v =? 1 then [] else [115]) ++ x).
  split; [unfold sign; destruct S as [[? ->]|[? ->]]; tauto|]. do 2 (split; [assumption|]). split; [apply nd_space|].
  split; [intros r R; injection R as R; exact (F _ _ R)|].
  cbn [app]. rewrite <- !app_assoc. cbn [app]. rewrite <- !app_assoc. reflexivity.
Qed.
Definition vb_ts (f : fields) (ago : bool) (ts : list Z) : Prop :=
  if blank [f_s f; f_us f] then ts = []
  else exists x, abs_seconds 1 f x /\
     ts = 32 :: minus (xorb ago (lead_neg [f_s f; f_us f])) ++ x ++ 32 :: s_sec
          ++ (if (Z.abs (f_s f) =? 1) && (f_us f =? 0) then [] else [115]).
Definition vb_end (b ago : bool) : list Z := (if b then [32; 48] else []) ++ (if ago then [32; 97; 103; 111] else []).

Lemma vb_end_other u b ago : (b = true -> ago = false) -> vother u (vb_end b ago).
Proof.
  unfold vb_end. intros H. destruct b.
  - rewrite H by reflexivity. right. right. exists [], [48], []. split; [left; reflexivity|].
    split; [repeat constructor; unfold digit; lia|]. split; [discriminate|]. split; [exact I|].
    split; [intros r R; discriminate|reflexivity].
  - destruct ago; [right; left; exists [103; 111]; reflexivity|left; reflexivity].
Qed.
Lemma vb_ts_other u f ago ts x : (forall p r, s_sec ++ p <> u ++ r) -> vb_ts f ago ts -> vother u x -> vother u (ts ++ x).
Proof.
  intros U. unfold vb_ts. destruct (blank [f_s f; f_us f]); [intros -> X; exact X|].
  intros (t & T & ->) _. unfold abs_seconds in T. destruct (sec_form _ _ _ _ T) as (ds & r & D & N & -> & R).
  right. right. set (p := if (Z.abs (f_s f) =? 1) && (f_us f =? 0) then [] else [115]).
  exists (minus (xorb ago (lead_neg [f_s f; f_us f]))), ds, (r ++ 32 :: s_sec ++ p ++ x).
  split; [apply minus_sign|]. do 2 (split; [assumption|]).
  split; [destruct R as [->|(fr & ->)]; cbn; unfold digit; lia|].
  split.
  - intros q Q. destruct R as [->|(fr & ->)]; [|discriminate]. cbn [app] in Q. injection Q as Q. exact (U _ _ Q).
  - cbn [app]. rewrite <- !app_assoc. cbn [app]. reflexivity.
Qed.
Lemma vb_end_inj b b' ago ago' : (b = true -> ago = false) -> (b' = true -> ago' = false) ->
  vb_end b ago = vb_end b' ago' -> ago = ago'.
Proof.
  intros H H'. destruct b; [rewrite H by reflexivity|]; (destruct b'; [rewrite H' by reflexivity|]);
    try destruct ago; try destruct ago'; cbn; congruence.
Qed.
Lemma vb_sec_end w s us t sg r b ago : sign sg -> seconds_text w s us t -> (b = true -> ago = false) ->
  32 :: sg ++ t ++ 32 :: r <> vb_end b ago.
Proof.
  intros S T H E. destruct (sec_form _ _ _ _ T) as (ds & q & D & N & -> & R). rewrite <- app_assoc in E.
  unfold vb_end in E. destruct b.
  - rewrite H in E by reflexivity. cbn [app] in E. injection E as E.
    change [48] with ([] ++ [48] ++ (@nil Z)) in E.
    apply snum_split in E as (_ & _ & E); auto; try (left; reflexivity); try (repeat constructor; unfold digit; lia); try discriminate; try exact I.
    + apply app_eq_nil in E as [_ E]. discriminate.
    + destruct R as [->|(fr & ->)]; cbn; unfold digit; lia.
  - destruct ago; [|discriminate]. cbn [app] in E. injection E as E.
    destruct ds as [|c ds]; [congruence|]. inversion D as [|? ? Dc _]; subst. unfold digit in Dc.
    destruct S as [->|[->| ->]]; cbn in E; injection E as E _; lia.
Qed.
Lemma vb_ts_split f f' ago ago' b b' ts ts' : signs_ok f -> signs_ok f' -> (b = true -> ago = false) -> (b' = true -> ago' = false) ->
  vb_ts f ago ts -> vb_ts f' ago' ts' -> ts ++ vb_end b ago = ts' ++ vb_end b' ago' ->
  ago = ago' /\ f_s f = f_s f' /\ f_us f = f_us f'.
Proof.
  intros Sg Sg' H H'. apply signs_sec in Sg, Sg'. unfold vb_ts.
  destruct (blank [f_s f; f_us f]) eqn:B, (blank [f_s f'; f_us f']) eqn:B'.
  - intros -> -> E. apply vb_end_inj in E; auto. apply blank2 in B, B'. split; [exact E|lia].
  - intros -> (x & X & ->) E. exfalso. cbn [app] in E. symmetry in E. rewrite <- !app_assoc in E. cbn [app] in E.
    eapply vb_sec_end; [apply minus_sign|exact X|exact H|exact E].
  - intros (x & X & ->) -> E. exfalso. cbn [app] in E. rewrite <- !app_assoc in E. cbn [app] in E.
    eapply vb_sec_end; [apply minus_sign|exact X|exact H'|exact E].
  - intros (x & X & ->) (x' & X' & ->) E. cbn [app] in E. injection E as E. rewrite <- !app_assoc in E. cbn [app] in E.
    destruct (ssec_split _ _ _ _ _ _ _ _ _ _ _ (minus_sign _) (minus_sign _) X X' (nf_space _) (nf_space _) E) as (E1 & E2 & E3 & E4).
    injection E4 as E4. apply minus_inj in E1.
    assert (forall a b, vb_end a b = [] \/ exists r, vb_end a b = 32 :: r) as V.
    { intros a c. destruct a; [right; eexists; reflexivity|]. destruct c; [right; eexists; reflexivity|left; reflexivity]. }
    assert (ago = ago') as <-.
    { apply (vb_end_inj b b'); auto. change (@cons Z) with (@cons Z) in E4.
      destruct ((Z.abs (f_s f) =? 1) && (f_us f =? 0)), ((Z.abs (f_s f') =? 1) && (f_us f' =? 0)); cbn [app] in E4.
      - exact E4.
      - destruct (V b ago) as [R|[r R]]; rewrite R in E4; discriminate.
      - destruct (V b' ago') as [R|[r R]]; rewrite R in E4; discriminate.
      - injection E4 as E4. exact E4. }
    split; [reflexivity|]. apply abs_signs; auto.
    apply (f_equal (xorb ago)) in E1. rewrite <- !xorb_assoc, xorb_nilpotent, !xorb_false_l in E1. exact E1.
Qed.
Lemma verbose_unique f f' t : signs_ok f -> signs_ok f' -> verbose_layout f t -> verbose_layout f' t -> f = f'.
Proof.
  intros Sg Sg' (ty & tmo & td & th & tmi & ts & Y & M & D & H & N & -> & T)
    (ty' & tmo' & td' & th' & tmi' & ts' & Y' & M' & D' & H' & N' & E & T').
  change (vb_ts f (lead_neg (all_fields f)) ts) in T. change (vb_ts f' (lead_neg (all_fields f')) ts') in T'.
  pose proof (blank_lead (all_fields f)) as BL. pose proof (blank_lead (all_fields f')) as BL'.
  set (ago := lead_neg (all_fields f)) in *. set (ago' := lead_neg (all_fields f')) in *.
  set (b := blank (all_fields f)) in *. set (b' := blank (all_fields f')) in *.
  change ((if b then [32; 48] else []) ++ (if ago then [32; 97; 103; 111] else [])) with (vb_end b ago) in E.
  change ((if b' then [32; 48] else []) ++ (if ago' then [32; 97; 103; 111] else [])) with (vb_end b' ago') in E.
  clearbody b b' ago ago'. injection E as E.
  assert (forall u, vother u (vb_end b ago)) as O by (intros; apply vb_end_other; auto).
  assert (forall u, vother u (vb_end b' ago')) as O' by (intros; apply vb_end_other; auto).
  apply (vb_split ago ago' (f_y f) (f_y f') s_year) in E as [E1 E]; try assumption;
    [|repeat (first [eapply vb_other; [eassumption|discriminate|] | eapply vb_ts_other; [discriminate|eassumption|]]); auto ..].
  apply (vb_split ago ago' (f_mo f) (f_mo f') s_mon) in E as [E2 E]; try assumption;
    [|repeat (first [eapply vb_other; [eassumption|discriminate|] | eapply vb_ts_other; [discriminate|eassumption|]]); auto ..].
  apply (vb_split ago ago' (f_d f) (f_d f') s_day) in E as [E3 E]; try assumption;
    [|repeat (first [eapply vb_other; [eassumption|discriminate|] | eapply vb_ts_other; [discriminate|eassumption|]]); auto ..].
  apply (vb_split ago ago' (f_h f) (f_h f') s_hour) in E as [E4 E]; try assumption;
    [|repeat (first [eapply vb_other; [eassumption|discriminate|] | eapply vb_ts_other; [discriminate|eassumption|]]); auto ..].
  apply (vb_split ago ago' (f_mi f) (f_mi f') s_min) in E as [E5 E]; try assumption;
    [|repeat (first [eapply vb_other; [eassumption|discriminate|] | eapply vb_ts_other; [discriminate|eassumption|]]); auto ..].
  destruct (vb_ts_split _ _ _ _ _ _ _ _ Sg Sg' BL BL' T T' E) as (<- & E6 & E7).
  apply fields_eq; try assumption; unfold turned in *; destruct ago; lia.
Qed.

(** ** SQL standard *)
Lemma not_mixed_sign f : ~ mixed f ->
  Forall (fun v => v = if lead_neg (all_fields f) then - Z.abs v else Z.abs v) (all_fields f).
Proof.
  intros N. assert (Forall (fun v => 0 <= v) (all_fields f) \/ Forall (fun v => v <= 0) (all_fields f)) as S.
  { destruct (Exists_dec (fun v => v < 0) (all_fields f) (fun v => Z_lt_dec v 0)) as [X|X].
    - right. apply Forall_forall. intros v V. destruct (Z_le_gt_dec v 0) as [|G]; [assumption|]. exfalso. apply N. left.
      split; [assumption|]. apply Exists_exists. exists v. split; [assumption|lia].
    - left. apply Forall_forall. intros v V. destruct (Z_le_gt_dec 0 v) as [|G]; [assumption|]. exfalso. apply X.
      apply Exists_exists. exists v. split; [assumption|lia]. }
  clear N. induction (all_fields f) as [|v l IH]; [constructor|].
  assert (Forall (fun v => 0 <= v) l \/ Forall (fun v => v <= 0) l) as S'.
  { destruct S as [S|S]; inversion S; auto. }
  specialize (IH S'). cbn [lead_neg]. destruct (Z.eqb_spec v 0) as [->|Z].
  - constructor; [destruct (lead_neg l); reflexivity|exact IH].
  - destruct S as [S|S]; inversion S as [|? ? V L]; subst; (destruct (Z.ltb_spec v 0); [|]); try lia;
      (constructor; [lia|]); eapply Forall_impl; [|exact L| |exact L]; cbn; intros; lia.
Qed.
Lemma not_mixed_ym f : ~ mixed f -> blank [f_y f; f_mo f] = false -> f_d f = 0 /\ f_h f = 0 /\ f_mi f = 0 /\ f_s f = 0 /\ f_us f = 0.
Proof.
  intros N B. destruct (blank (f_d f :: clock_fields f)) eqn:Z.
  - unfold clock_fields in Z. apply blank_forall in Z. repeat (match goal with H : Forall _ (_ :: _) |- _ => inversion H; clear H; subst end). auto 6.
  - exfalso. apply N. right. assert (forall l, blank l = false -> ~ Forall (fun v => v = 0) l) as X.
    { intros l Q F. enough (blank l = true) by congruence. unfold blank. apply forallb_forall. intros v V.
      rewrite Forall_forall in F. rewrite (F v V). reflexivity. }
    split; apply X; assumption.
Qed.
Lemma pad_form w n t : padded w n t -> Forall digit t /\ t <> []. Proof. intros [(D & N & _) _]. auto. Qed.
Lemma sign_char_sign l : sign [sign_char l]. Proof. unfold sign, sign_char. destruct (lead_neg l); auto. Qed.
Lemma nd_minus r : nd (45 :: r). Proof. cbn. unfold digit. lia. Qed.

(** The four short forms: nothing, years and months, days and a clock, a clock. *)
Definition sql_body (f : fields) (t : list Z) : Prop :=
  (f_y f = 0 /\ f_mo f = 0 /\ f_d f = 0 /\ f_h f = 0 /\ f_mi f = 0 /\ f_s f = 0 /\ f_us f = 0) /\ t = [48]
  \/ (f_d f = 0 /\ f_h f = 0 /\ f_mi f = 0 /\ f_s f = 0 /\ f_us f = 0) /\
     (exists ty tmo, padded 1 (Z.abs (f_y f)) ty /\ padded 1 (Z.abs (f_mo f)) tmo /\ t = ty ++ 45 :: tmo)
  \/ (f_y f = 0 /\ f_mo f = 0) /\ (exists td tc, padded 1 (Z.abs (f_d f)) td /\ sql_clock f tc /\ t = td ++ 32 :: tc)
  \/ (f_y f = 0 /\ f_mo f = 0 /\ f_d f = 0) /\ sql_clock f t.
Definition sql_mixed_text (f : fields) (t : list Z) : Prop :=
  exists ty tmo td tc, padded 1 (Z.abs (f_y f)) ty /\ padded 1 (Z.abs (f_mo f)) tmo /\ padded 1 (Z.abs (f_d f)) td /\ sql_clock f tc /\
  t = sign_char [f_y f; f_mo f] :: ty ++ 45 :: tmo ++ 32 :: sign_char [f_d f] :: td ++ 32 :: sign_char (clock_fields f) :: tc.
Lemma sql_forms f t : sql_layout f t -> sql_mixed_text f t \/
  ~ mixed f /\ exists r, t = minus (lead_neg (all_fields f)) ++ r /\ sql_body f r.
Proof.
  intros (ty & tmo & td & tc & Y & M & D & C & [[X ->]|[X ->]]).
  - left. exists ty, tmo, td, tc. auto 6.
  - right. split; [exact X|]. eexists. split; [reflexivity|]. unfold sql_body.
    destruct (blank (all_fields f)) eqn:B.
    { left. split; [|reflexivity]. unfold all_fields in B. apply blank_forall in B.
      repeat (match goal with H : Forall _ (_ :: _) |- _ => inversion H; clear H; subst end). auto 8. }
    right. destruct (blank [f_y f; f_mo f]) eqn:B1; cbn [negb].
    + right. apply blank2 in B1. destruct (Z.eqb_spec (f_d f) 0); cbn [negb].
      * right. tauto.
      * left. split; [exact B1|]. eauto 6.
    + left. split; [exact (not_mixed_ym f X B1)|]. eauto 6.
Qed.
Lemma body_digits f r : sql_body f r -> exists ds q, Forall digit ds /\ ds <> [] /\ nd q /\ r = ds ++ q /\
  forall tmo c, q <> 45 :: tmo ++ 32 :: c \/ ~ Forall digit tmo.
Proof.
  intros [[_ ->]|[[_ (ty & tmo & Y & M & ->)]|[[_ (td & tc & D & _ & ->)]|[_ (th & tm & ts & H & _ & _ & ->)]]]].
  - exists [48], []. split; [repeat constructor; unfold digit; lia|]. split; [discriminate|]. split; [exact I|].
    split; [reflexivity|]. left. discriminate.
  - apply pad_form in Y as [Y Yn]. apply pad_form in M as [M _].
    exists ty, (45 :: tmo). do 2 (split; [assumption|]). split; [apply nd_minus|]. split; [reflexivity|].
    intros x c. left. intros E. injection E as ->. apply Forall_app in M as [_ M]. inversion M as [|? ? Q _]. unfold digit in Q. lia.
  - apply pad_form in D as [D Dn]. exists td, (32 :: tc). do 2 (split; [assumption|]). split; [apply nd_space|].
    split; [reflexivity|]. left. discriminate.
  - apply pad_form in H as [H Hn]. exists th, (58 :: tm ++ 58 :: ts). do 2 (split; [assumption|]). split; [apply nd_colon|].
    split; [reflexivity|]. left. discriminate.
Qed.
Lemma mixed_not_body f f' b r : sql_mixed_text f (minus b ++ r) -> sql_body f' r -> False.
Proof.
  intros (ty & tmo & td & tc & Y & M & _ & _ & E) B. destruct (body_digits _ _ B) as (ds & q & D & N & Q & -> & F).
  apply pad_form in Y as [Y Yn]. apply pad_form in M as [M _].
  match type of E with _ = ?s :: ?r => change (s :: r) with ([s] ++ r) in E end.
  apply snum_split in E as (_ & _ & E); auto using nd_minus, minus_sign, sign_char_sign.
  destruct (F tmo (sign_char [f_d f] :: td ++ 32 :: sign_char (clock_fields f) :: tc)) as [F1|F1]; [exact (F1 E)|exact (F1 M)].
Qed.
Lemma sign_char_lead l l' : sign_char l = sign_char l' -> lead_neg l = lead_neg l'.
Proof. unfold sign_char. destruct (lead_neg l), (lead_neg l'); congruence. Qed.
Lemma mixed_unique f f' t : signs_ok f -> signs_ok f' -> sql_mixed_text f t -> sql_mixed_text f' t -> f = f'.
Proof.
  intros [S1 S2] [S1' S2'] (ty & tmo & td & tc & Y & M & D & C & ->) (ty' & tmo' & td' & tc' & Y' & M' & D' & C' & E).
  injection E as E0 E.
  destruct (pad_split _ _ _ _ _ _ _ _ Y Y' (nd_minus _) (nd_minus _) E) as [E1 E2]. injection E2 as E2.
  destruct (pad_split _ _ _ _ _ _ _ _ M M' (nd_space _) (nd_space _) E2) as [E3 E4]. injection E4 as E4 E5.
  destruct (pad_split _ _ _ _ _ _ _ _ D D' (nd_space _) (nd_space _) E5) as [E6 E7]. injection E7 as E7 E8.
  rewrite <- (app_nil_r tc), <- (app_nil_r tc') in E8.
  destruct (clock_split _ _ _ _ _ _ _ _ _ _ _ _ _ _ C C' (I : nf []) (I : nf []) E8) as (F1 & F2 & F3 & F4 & _).
  apply sign_char_lead in E0, E4, E7.
  destruct (abs_signs _ _ _ _ S1 S1' E1 E3 E0) as [G1 G2].
  destruct (abs_signs4 _ _ _ _ _ _ _ _ S2 S2' F1 F2 F3 F4 E7) as (G3 & G4 & G5 & G6).
  apply fields_eq; auto. cbn in E4. destruct (Z.eqb_spec (f_d f) 0), (Z.eqb_spec (f_d f') 0); lia.
Qed.
Definition abs_fields (f : fields) : list Z := map Z.abs (all_fields f).
Lemma body_unique f f' r : sql_body f r -> sql_body f' r -> abs_fields f = abs_fields f'.
Proof.
  unfold abs_fields, all_fields. cbn [map].
  assert (forall (t x : list Z) n w, padded w n t -> nd x -> x <> [] -> [48] = t ++ x -> False) as K0.
  { intros t x n w P X NX E. apply pad_form in P as [P _]. change [48] with ([48] ++ (@nil Z)) in E.
    apply dsplit in E as [_ E]; auto; [repeat constructor; unfold digit; lia|exact I]. }
  assert (forall (t x t' x' : list Z) n w n' w', padded w n t -> padded w' n' t' -> nd x -> nd x' -> x <> x' -> t ++ x = t' ++ x' -> False) as K1.
  { intros t x t' x' n w n' w' P P' X X' NX E. apply (pad_split w w' n n') in E as [_ E]; auto. }
  intros [[Z ->]|[[Z (ty & tmo & Y & M & ->)]|[[Z (td & tc & D & C & ->)]|[Z C]]]]
    [[Z' E]|[[Z' (ty' & tmo' & Y' & M' & E)]|[[Z' (td' & tc' & D' & C' & E)]|[Z' C']]]].
  - repeat (apply f_equal2; [lia|]); reflexivity.
  - destruct (K0 _ _ _ _ Y' (nd_minus _) ltac:(discriminate) E).
  - destruct (K0 _ _ _ _ D' (nd_space _) ltac:(discriminate) E).
  - destruct C' as (th & tm & ts & H & _ & _ & E). destruct (K0 _ _ _ _ H (nd_colon _) ltac:(discriminate) E).
  - symmetry in E. destruct (K0 _ _ _ _ Y (nd_minus _) ltac:(discriminate) E).
  - destruct (pad_split _ _ _ _ _ _ _ _ Y Y' (nd_minus _) (nd_minus _) E) as [E1 E2]. injection E2 as E2.
    rewrite <- (app_nil_r tmo), <- (app_nil_r tmo') in E2.
    destruct (pad_split _ _ _ _ _ _ _ _ M M' (I : nd []) (I : nd []) E2) as [E3 _]. repeat (apply f_equal2; [lia|]); reflexivity.
  - destruct (K1 _ _ _ _ _ _ _ _ Y D' (nd_minus _) (nd_space _) ltac:(discriminate) E).
  - destruct C' as (th & tm & ts & H & _ & _ & E). destruct (K1 _ _ _ _ _ _ _ _ Y H (nd_minus _) (nd_colon _) ltac:(discriminate) E).
  - symmetry in E. destruct (K0 _ _ _ _ D (nd_space _) ltac:(discriminate) E).
  - destruct (K1 _ _ _ _ _ _ _ _ D Y' (nd_space _) (nd_minus _) ltac:(discriminate) E).
  - destruct (pad_split _ _ _ _ _ _ _ _ D D' (nd_space _) (nd_space _) E) as [E1 E2]. injection E2 as E2.
    rewrite <- (app_nil_r tc), <- (app_nil_r tc') in E2.
    destruct (clock_split _ _ _ _ _ _ _ _ _ _ _ _ _ _ C C' (I : nf []) (I : nf []) E2) as (F1 & F2 & F3 & F4 & _). repeat (apply f_equal2; [lia|]); reflexivity.
  - destruct C' as (th & tm & ts & H & _ & _ & E). destruct (K1 _ _ _ _ _ _ _ _ D H (nd_space _) (nd_colon _) ltac:(discriminate) E).
  - destruct C as (th & tm & ts & H & _ & _ & E'). rewrite E in E'. destruct (K0 _ _ _ _ H (nd_colon _) ltac:(discriminate) E').
  - destruct C as (th & tm & ts & H & _ & _ & E'). rewrite E in E'. destruct (K1 _ _ _ _ _ _ _ _ Y' H (nd_minus _) (nd_colon _) ltac:(discriminate) E').
  - destruct C as (th & tm & ts & H & _ & _ & E'). rewrite E in E'. destruct (K1 _ _ _ _ _ _ _ _ D' H (nd_space _) (nd_colon _) ltac:(discriminate) E').
  - destruct (clock_split _ _ _ _ _ _ _ _ _ _ _ _ _ _ C C' (I : nf []) (I : nf []) eq_refl) as (F1 & F2 & F3 & F4 & _). repeat (apply f_equal2; [lia|]); reflexivity.
Qed.
Lemma abs_list (b : bool) l l' : Forall (fun v => v = if b then - Z.abs v else Z.abs v) l ->
  Forall (fun v => v = if b then - Z.abs v else Z.abs v) l' -> map Z.abs l = map Z.abs l' -> l = l'.
Proof.
  intros H. revert l'. induction H as [|v l V L IH]; intros [|v' l'] H' E; cbn in E; try discriminate; [reflexivity|].
  injection E as E0 E. inversion H'; subst. f_equal; [destruct b; lia|]. apply IH; assumption.
Qed.
Lemma sql_unique f f' t : signs_ok f -> signs_ok f' -> sql_layout f t -> sql_layout f' t -> f = f'.
Proof.
  intros Sg Sg' L L'. destruct (sql_forms f t L) as [M|(N & r & -> & B)].
  - destruct (sql_forms f' t L') as [M'|(N' & r' & -> & B')].
    + eapply mixed_unique; eassumption.
    + destruct (mixed_not_body _ _ _ _ M B').
  - destruct (sql_forms f' _ L') as [M'|(N' & r' & E & B')].
    + destruct (mixed_not_body _ _ _ _ M' B).
    + destruct (body_digits _ _ B) as (ds & q & D & Nn & Q & -> & _).
      destruct (body_digits _ _ B') as (ds' & q' & D' & Nn' & Q' & -> & _).
      apply snum_split in E as (E1 & -> & ->); auto using minus_sign. apply minus_inj in E1.
      pose proof (body_unique _ _ _ B B') as A. pose proof (not_mixed_sign f N) as F. pose proof (not_mixed_sign f' N') as F'.
      rewrite <- E1 in F'. pose proof (abs_list _ _ _ F F' A) as X. unfold all_fields in X. injection X as ? ? ? ? ? ? ?.
      apply fields_eq; assumption.
Qed.

Lemma layout_unique style f f' t : signs_ok f -> signs_ok f' -> interval_layout style f t -> interval_layout style f' t -> f = f'.
Proof.
  destruct style; cbn [interval_layout]; eauto using postgres_unique, verbose_unique, sql_unique, iso_unique.
Qed.
Lemma fields_signs a f : fields_of_iv a f -> signs_ok f.
Proof. intros (_ & _ & S & _ & _ & _ & _ & _ & S'). split; assumption. Qed.
Lemma fields_interval a b f : fields_of_iv a f -> fields_of_iv b f -> a = b.
Proof.
  intros (A & _ & _ & B & C & _) (A' & _ & _ & B' & C' & _). destruct a, b; cbn in *. congruence.
Qed.
