(** Equal texts come from equal values. Used by C74. *)
From Verif Require Import Model.Format Spec.Calendar Spec.Ranges Spec.Clock Spec.Text Spec.IntervalS
  Proofs.Arith Proofs.Cal Proofs.DateP Proofs.TsP Proofs.AddP Proofs.DigitsP Proofs.FormatP Proofs.IvTruncP.
From Coq Require Import Lia List.
Import ListNotations.
Open Scope Z_scope.

(** The text does not go on with a digit. *)
Definition nd (x : list Z) : Prop := match x with [] => True | c :: _ => ~ digit c end.
(** ... nor with a decimal point. *)
Definition nf (x : list Z) : Prop := match x with [] => True | c :: _ => ~ digit c /\ c <> 46 end.
Lemma nf_nd x : nf x -> nd x. Proof. destruct x; cbn; tauto. Qed.

Lemma dsplit a b x y : Forall digit a -> Forall digit b -> nd x -> nd y -> a ++ x = b ++ y -> a = b /\ x = y.
Proof.
  intros A. revert b. induction A as [|c a C A IH]; intros b B X Y E.
  - destruct b as [|c b]; [auto|]. cbn in E. subst x. cbn in X. inversion B. contradiction.
  - destruct b as [|c' b]; cbn in E.
    + subst y. cbn in Y. contradiction.
    + inversion B as [|? ? C' B']; subst. injection E as -> E. destruct (IH b B' X Y E) as [-> ->]. auto.
Qed.
Lemma pad_split w w' n n' t t' x y : padded w n t -> padded w' n' t' -> nd x -> nd y ->
  t ++ x = t' ++ y -> n = n' /\ x = y.
Proof.
  intros [(D & _ & V) _] [(D' & _ & V') _] X Y E. destruct (dsplit _ _ _ _ D D' X Y E) as [-> ->].
  split; [congruence|reflexivity].
Qed.
Lemma sec_split w s us s' us' t t' x y : seconds_text w s us t -> seconds_text w s' us' t' -> nf x -> nf y ->
  t ++ x = t' ++ y -> s = s' /\ us = us' /\ x = y.
Proof.
  intros (ds & P & H) (ds' & P' & H') X Y E.
  assert (forall r, nd (46 :: r)) as N46 by (intros r; cbn; unfold digit; lia).
  destruct H as [[-> ->]|[U (fr & F & ->)]], H' as [[-> ->]|[U' (fr' & F' & ->)]].
  - destruct (pad_split _ _ _ _ _ _ _ _ P P' (nf_nd _ X) (nf_nd _ Y) E) as [-> ->]. auto.
  - rewrite <- app_assoc in E. cbn [app] in E.
    destruct (pad_split _ _ _ _ _ _ _ _ P P' (nf_nd _ X) (N46 _) E) as [-> ->]. cbn in X. tauto.
  - rewrite <- app_assoc in E. cbn [app] in E.
    destruct (pad_split _ _ _ _ _ _ _ _ P P' (N46 _) (nf_nd _ Y) E) as [-> <-]. cbn in Y. tauto.
  - rewrite <- !app_assoc in E. cbn [app] in E.
    destruct (pad_split _ _ _ _ _ _ _ _ P P' (N46 _) (N46 _) E) as [-> E2]. injection E2 as E2.
    destruct F as (D & _ & _ & V & _). destruct F' as (D' & _ & _ & V' & _).
    destruct (dsplit _ _ _ _ D D' (nf_nd _ X) (nf_nd _ Y) E2) as [-> ->]. split; [reflexivity|]. split; congruence.
Qed.
Lemma nd_colon r : nd (58 :: r). Proof. cbn. unfold digit. lia. Qed.
Lemma clock_split w w' h mi s us h' mi' s' us' t t' x y : clock_text w h mi s us t -> clock_text w' h' mi' s' us' t' ->
  nf x -> nf y -> t ++ x = t' ++ y -> h = h' /\ mi = mi' /\ s = s' /\ us = us' /\ x = y.
Proof.
  intros (th & tm & ts & H & M & S & ->) (th' & tm' & ts' & H' & M' & S' & ->) X Y E.
  repeat (rewrite <- ?app_assoc in E; cbn [app] in E).
  destruct (pad_split _ _ _ _ _ _ _ _ H H' (nd_colon _) (nd_colon _) E) as [-> E1]. injection E1 as E1.
  destruct (pad_split _ _ _ _ _ _ _ _ M M' (nd_colon _) (nd_colon _) E1) as [-> E2]. injection E2 as E2.
  destruct (sec_split _ _ _ _ _ _ _ _ _ S S' X Y E2) as (-> & -> & ->). auto 6.
Qed.
Lemma three_split a b c a' b' c' wa c1 wb c2 wc t t' x y :
  three wa a c1 wb b c2 wc c t -> three wa a' c1 wb b' c2 wc c' t' -> nd x -> nd y ->
  t ++ x = t' ++ y -> ~ digit c1 -> ~ digit c2 -> a = a' /\ b = b' /\ c = c' /\ x = y.
Proof.
  intros (ta & tb & tc & A & B & C & ->) (ta' & tb' & tc' & A' & B' & C' & ->) X Y E N1 N2.
  repeat (rewrite <- ?app_assoc in E; cbn [app] in E).
  destruct (pad_split _ _ _ _ _ _ (c1 :: _) (c1 :: _) A A' N1 N1 E) as [-> E1]. injection E1 as E1.
  destruct (pad_split _ _ _ _ _ _ (c2 :: _) (c2 :: _) B B' N2 N2 E1) as [-> E2]. injection E2 as E2.
  destruct (pad_split _ _ _ _ _ _ _ _ C C' X Y E2) as (-> & ->). auto.
Qed.
Lemma era_unique y y' : era_year y = era_year y' -> era_suffix y = era_suffix y' -> y = y'.
Proof.
  unfold era_year, era_suffix. destruct (Z.ltb_spec 0 y), (Z.ltb_spec 0 y'); intros E F; try discriminate; lia.
Qed.
Lemma era_nf y : nf (era_suffix y).
Proof. unfold era_suffix. destruct (0 <? y); cbn; [auto|unfold digit; lia]. Qed.

Lemma layout_split style order y m d y' m' d' t t' x x' :
  date_layout style order (y, m, d) t -> date_layout style order (y', m', d') t' -> nd x -> nd x' ->
  t ++ x = t' ++ x' -> era_year y = era_year y' /\ m = m' /\ d = d' /\ x = x'.
Proof.
  unfold date_layout. intros L L' X X' E.
  destruct style, order; (destruct (three_split _ _ _ _ _ _ _ _ _ _ _ _ _ _ _ L L' X X' E) as (? & ? & ? & ?);
    [unfold digit; lia..|auto]).
Qed.
Lemma layout_digit style order c t x : date_layout style order c t ->
  exists h r, t ++ x = h :: r /\ digit h.
Proof.
  destruct c as [[y m] d].
  assert (forall wa a c1 wb b c2 wc c0, three wa a c1 wb b c2 wc c0 t -> exists h r, t ++ x = h :: r /\ digit h) as H.
  { intros wa a c1 wb b c2 wc c0 (ta & tb & tc & [(D & N & _) _] & _ & _ & ->).
    destruct ta as [|h ta]; [congruence|]. inversion D. cbn. eauto. }
  unfold date_layout. destruct style, order; apply H.
Qed.

Definition date_text_ok (d : Z) : Prop := valid_date d \/ d = neg_inf_date \/ d = pos_inf_date.
Lemma date_inf_text md d style order : d = neg_inf_date \/ d = pos_inf_date ->
  date_format md d style order = Ok (if d =? neg_inf_date then EARLY else LATE).
Proof. intros [->| ->]; reflexivity. Qed.

Lemma date_unique md md' a b style order s : date_text_ok a -> date_text_ok b ->
  date_format md a style order = Ok s -> date_format md' b style order = Ok s -> a = b.
Proof.
  intros [A|A] [B|B] Ea Eb.
  - destruct (date_format_ok md a style order A) as ([[y m] d] & t & F & V & D & L & _).
    destruct (date_format_ok md' b style order B) as ([[y' m'] d'] & t' & F' & V' & D' & L' & _).
    rewrite Ea in F. rewrite Eb in F'. injection F as ->. injection F' as E. cbn [fst] in E.
    destruct (layout_split _ _ _ _ _ _ _ _ _ _ _ _ L L' (nf_nd _ (era_nf y)) (nf_nd _ (era_nf y')) E) as (E1 & -> & -> & E2).
    pose proof (era_unique _ _ E1 E2) as ->. apply day_number_J in D, D'; auto. lia.
  - destruct (date_format_ok md a style order A) as (c & t & F & V & D & L & _).
    rewrite (date_inf_text md' b style order B) in Eb. rewrite Ea in F. injection F as ->. injection Eb as E.
    destruct (layout_digit _ _ _ _ (era_suffix (fst (fst c))) L) as (h & r & E' & H). rewrite E' in E.
    destruct (b =? neg_inf_date); cbv in E; injection E as <- _; unfold digit in H; lia.
  - destruct (date_format_ok md' b style order B) as (c & t & F & V & D & L & _).
    rewrite (date_inf_text md a style order A) in Ea. rewrite Eb in F. injection F as ->. injection Ea as E.
    destruct (layout_digit _ _ _ _ (era_suffix (fst (fst c))) L) as (h & r & E' & H). rewrite E' in E.
    destruct (a =? neg_inf_date); cbv in E; injection E as <- _; unfold digit in H; lia.
  - rewrite (date_inf_text md a style order A) in Ea. rewrite (date_inf_text md' b style order B) in Eb.
    destruct A as [->| ->], B as [->| ->]; try reflexivity; rewrite <- Eb in Ea; vm_compute in Ea; discriminate.
Qed.

Lemma time_unique md md' a b s : 0 <= a <= usecs_day -> 0 <= b <= usecs_day ->
  time_format md a = Ok s -> time_format md' b = Ok s -> a = b.
Proof.
  intros A B Ea Eb.
  destruct (time_format_ok md a A) as (h & mi & se & us & x & E & T & _ & _ & _ & _ & K & _).
  destruct (time_format_ok md' b B) as (h' & mi' & se' & us' & x' & E' & T' & _ & _ & _ & _ & K' & _).
  rewrite Ea in E. rewrite Eb in E'. injection E as <-. injection E' as <-.
  destruct (clock_split _ _ _ _ _ _ _ _ _ _ s s [] [] T T' I I eq_refl) as (-> & -> & -> & -> & _). congruence.
Qed.

Lemma wday_len w : 0 <= w <= 6 -> length (wday_abbr w) = 3%nat.
Proof. intros H. assert (w = 0 \/ w = 1 \/ w = 2 \/ w = 3 \/ w = 4 \/ w = 5 \/ w = 6) as D by lia. decompose [or] D; subst; reflexivity. Qed.
Lemma month_len3 m : 1 <= m <= 12 -> length (month_abbr m) = 3%nat.
Proof.
  intros H. assert (m = 1 \/ m = 2 \/ m = 3 \/ m = 4 \/ m = 5 \/ m = 6 \/ m = 7 \/ m = 8 \/ m = 9 \/ m = 10 \/ m = 11 \/ m = 12) as D by lia.
  decompose [or] D; subst; reflexivity.
Qed.
Lemma month_abbr_inj m m' : 1 <= m <= 12 -> 1 <= m' <= 12 -> month_abbr m = month_abbr m' -> m = m'.
Proof.
  intros H H'.
  assert (m = 1 \/ m = 2 \/ m = 3 \/ m = 4 \/ m = 5 \/ m = 6 \/ m = 7 \/ m = 8 \/ m = 9 \/ m = 10 \/ m = 11 \/ m = 12) as D by lia.
  assert (m' = 1 \/ m' = 2 \/ m' = 3 \/ m' = 4 \/ m' = 5 \/ m' = 6 \/ m' = 7 \/ m' = 8 \/ m' = 9 \/ m' = 10 \/ m' = 11 \/ m' = 12) as D' by lia.
  destruct D as [D|[D|[D|[D|[D|[D|[D|[D|[D|[D|[D|D]]]]]]]]]]];
  destruct D' as [D'|[D'|[D'|[D'|[D'|[D'|[D'|[D'|[D'|[D'|[D'|D']]]]]]]]]]]; subst; intros E; try reflexivity; vm_compute in E; discriminate E.
Qed.
Lemma app_len_inj (a b x y : list Z) : length a = length b -> a ++ x = b ++ y -> a = b /\ x = y.
Proof.
  revert b. induction a as [|c a IH]; intros [|c' b] L E; cbn in *; try discriminate; auto.
  injection E as -> E. injection L as L. destruct (IH b L E) as [-> ->]. auto.
Qed.
Lemma nd_space r : nd (32 :: r). Proof. cbn. unfold digit. lia. Qed.
Lemma nf_space r : nf (32 :: r). Proof. cbn. unfold digit. lia. Qed.

Lemma ts_layout_split style order c h mi s us c' h' mi' s' us' t t' :
  valid_ymd c -> valid_ymd c' ->
  ts_layout style order c h mi s us t -> ts_layout style order c' h' mi' s' us' t' ->
  t ++ era_suffix (fst (fst c)) = t' ++ era_suffix (fst (fst c')) ->
  c = c' /\ h = h' /\ mi = mi' /\ s = s' /\ us = us'.
Proof.
  destruct c as [[y m] d], c' as [[y' m'] d']. cbn [fst].
  intros [Hm Hd] [Hm' Hd'] (tc & K & L) (tc' & K' & L') E.
  assert (forall sep, ~ digit sep -> forall st, (exists td, date_layout st order (y, m, d) td /\ t = td ++ sep :: tc) ->
    (exists td, date_layout st order (y', m', d') td /\ t' = td ++ sep :: tc') ->
    (y, m, d) = (y', m', d') /\ h = h' /\ mi = mi' /\ s = s' /\ us = us') as G.
  { intros sep N st (td & D & ->) (td' & D' & ->). rewrite <- !app_assoc in E. cbn [app] in E.
    destruct (layout_split _ _ _ _ _ _ _ _ _ _ (sep :: _) (sep :: _) D D' N N E) as (E1 & -> & -> & E2).
    injection E2 as E2.
    destruct (clock_split _ _ _ _ _ _ _ _ _ _ _ _ _ _ K K' (era_nf y) (era_nf y') E2) as (-> & -> & -> & -> & E3).
    pose proof (era_unique _ _ E1 E3) as ->. auto. }
  destruct style; [|apply (G 32 ltac:(unfold digit; lia) _ L L')..|apply (G 84 ltac:(unfold digit; lia) _ L L')].
  destruct L as (n & td & ty & N & D & Y & ->). destruct L' as (n' & td' & ty' & N' & D' & Y' & ->). clear G.
  repeat (rewrite <- ?app_assoc in E; cbn [app] in E).
  apply app_len_inj in E as [_ E]; [|rewrite !wday_len by lia; reflexivity]. injection E as E.
  assert (m = m' /\ d = d' /\ tc ++ 32 :: ty ++ era_suffix y = tc' ++ 32 :: ty' ++ era_suffix y') as (-> & -> & E1).
  { destruct order.
    1, 3: repeat (rewrite <- ?app_assoc in E; cbn [app] in E);
      apply app_len_inj in E as [E0 E]; [|rewrite !month_len3 by lia; reflexivity]; injection E as E;
      apply month_abbr_inj in E0; [|lia..]; subst m';
      destruct (pad_split _ _ _ _ _ _ _ _ D D' (nd_space _) (nd_space _) E) as [-> E1]; injection E1 as E1; auto.
    repeat (rewrite <- ?app_assoc in E; cbn [app] in E).
    destruct (pad_split _ _ _ _ _ _ _ _ D D' (nd_space _) (nd_space _) E) as [-> E1]. injection E1 as E1.
    apply app_len_inj in E1 as [E0 E1]; [|rewrite !month_len3 by lia; reflexivity]. injection E1 as E1.
    apply month_abbr_inj in E0; [|lia..]. auto. }
  destruct (clock_split _ _ _ _ _ _ _ _ _ _ _ _ _ _ K K' (nf_space _) (nf_space _) E1) as (-> & -> & -> & -> & E2).
  injection E2 as E2.
  destruct (pad_split _ _ _ _ _ _ _ _ Y Y' (nf_nd _ (era_nf y)) (nf_nd _ (era_nf y')) E2) as [E3 E4].
  pose proof (era_unique _ _ E3 E4) as ->. auto.
Qed.

(** Capital letter or digit first *)
Lemma ts_layout_first style order c h mi s us t x : valid_ymd c -> ts_layout style order c h mi s us t ->
  exists a r, t ++ x = a :: r /\ 48 <= a <= 90.
Proof.
  intros Vc (tc & K & L).
  assert (forall st sep td, date_layout st order c td -> exists a r, (td ++ sep :: tc) ++ x = a :: r /\ 48 <= a <= 90) as G.
  { intros st sep td D. rewrite <- app_assoc. destruct (layout_digit _ _ _ _ ((sep :: tc) ++ x) D) as (a & r & -> & H).
    exists a, r. unfold digit in H. split; [reflexivity|lia]. }
  destruct style; [|destruct L as (td & D & ->); eapply G; exact D..].
  destruct c as [[y m] d]. destruct L as (n & td & ty & _ & _ & _ & ->).
  assert (0 <= (n + 6) mod 7 <= 6) as B by lia. set (w := (n + 6) mod 7) in *. clearbody w.
  assert (w = 0 \/ w = 1 \/ w = 2 \/ w = 3 \/ w = 4 \/ w = 5 \/ w = 6) as H by lia.
  destruct H as [->|[->|[->|[->|[->|[->| ->]]]]]]; cbn [wday_abbr Z.to_nat nth app]; eexists _, _; (split; [reflexivity|lia]).
Qed.

Definition ts_text_ok (t : Z) : Prop := valid_ts t \/ t = neg_inf_ts \/ t = pos_inf_ts.
Lemma ts_inf_text md t style order : t = neg_inf_ts \/ t = pos_inf_ts ->
  timestamp_format md t style order = Ok (if t =? neg_inf_ts then EARLY else LATE).
Proof. intros [->| ->]; reflexivity. Qed.

Lemma timestamp_unique md md' a b style order s : ts_text_ok a -> ts_text_ok b ->
  timestamp_format md a style order = Ok s -> timestamp_format md' b style order = Ok s -> a = b.
Proof.
  intros [A|A] [B|B] Ea Eb.
  - destruct (timestamp_format_ok md a style order A) as (c & h & mi & se & us & t & F & R & L & _).
    destruct (timestamp_format_ok md' b style order B) as (c' & h' & mi' & se' & us' & t' & F' & R' & L' & _).
    rewrite Ea in F. rewrite Eb in F'. injection F as ->. injection F' as E.
    destruct (ts_layout_split _ _ _ _ _ _ _ _ _ _ _ _ _ _ (proj1 R) (proj1 R') L L' E) as (-> & -> & -> & -> & ->).
    rewrite (reading_instant _ _ _ _ _ _ R), (reading_instant _ _ _ _ _ _ R'). reflexivity.
  - destruct (timestamp_format_ok md a style order A) as (c & h & mi & se & us & t & F & R & L & _).
    rewrite (ts_inf_text md' b style order B) in Eb. rewrite Ea in F. injection F as ->. injection Eb as E.
    destruct (ts_layout_first _ _ _ _ _ _ _ _ (era_suffix (fst (fst c))) (proj1 R) L) as (f & r & E' & H). rewrite E' in E.
    destruct (b =? neg_inf_ts); cbv in E; injection E as <- _; lia.
  - destruct (timestamp_format_ok md' b style order B) as (c & h & mi & se & us & t & F & R & L & _).
    rewrite (ts_inf_text md a style order A) in Ea. rewrite Eb in F. injection F as ->. injection Ea as E.
    destruct (ts_layout_first _ _ _ _ _ _ _ _ (era_suffix (fst (fst c))) (proj1 R) L) as (f & r & E' & H). rewrite E' in E.
    destruct (a =? neg_inf_ts); cbv in E; injection E as <- _; lia.
  - rewrite (ts_inf_text md a style order A) in Ea. rewrite (ts_inf_text md' b style order B) in Eb.
    destruct A as [->| ->], B as [->| ->]; try reflexivity; rewrite <- Eb in Ea; vm_compute in Ea; discriminate.
Qed.
