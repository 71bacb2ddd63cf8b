(** Dictionary order of the texts of dates and times. *)
From Verif Require Import Model.Format Spec.Calendar Spec.Ranges Spec.Clock Spec.Text Spec.Sorting
  Proofs.Arith Proofs.Cal Proofs.DateP Proofs.DigitsP Proofs.FormatP.
From Coq Require Import ZArith List Lia.
Import List ListNotations.
Open Scope Z_scope.

Lemma sb_irrefl a : ~ sorts_before a a.
Proof. induction a; cbn; [auto|]. intros [H|[_ H]]; [lia|auto]. Qed.
Lemma sb_asym a : forall b, sorts_before a b -> ~ sorts_before b a.
Proof.
  induction a as [|x a IH]; intros [|y b]; cbn; auto. intros [H|[-> H]] [K|[E K]]; try lia. now apply (IH b).
Qed.
Lemma sb_app p a b : sorts_before a b -> sorts_before (p ++ a) (p ++ b).
Proof. induction p; cbn; auto. Qed.

(** The first difference is within the texts. *)
Definition differs (a b : list Z) : Prop := exists p x y r s, a = p ++ x :: r /\ b = p ++ y :: s /\ x < y.
Lemma differs_sb a b u v : differs a b -> sorts_before (a ++ u) (b ++ v).
Proof.
  intros (p & x & y & r & s & -> & -> & L). rewrite <- !app_assoc. apply sb_app. cbn. now left.
Qed.
Lemma differs_cons c a b : differs a b -> differs (c :: a) (c :: b).
Proof. intros (p & x & y & r & s & -> & -> & L). now exists (c :: p), x, y, r, s. Qed.
Lemma differs_app p a b : differs a b -> differs (p ++ a) (p ++ b).
Proof. induction p; cbn; auto using differs_cons. Qed.
Lemma differs_more a b u v : differs a b -> differs (a ++ u) (b ++ v).
Proof.
  intros (p & x & y & r & s & -> & -> & L). exists p, x, y, (r ++ u), (s ++ v). now rewrite <- !app_assoc.
Qed.

Lemma digits_differ a : forall b, Forall digit a -> Forall digit b -> length a = length b ->
  digits_value a < digits_value b -> differs a b.
Proof.
  induction a as [|x a IH]; intros [|y b] A B L H; try discriminate.
  inversion A as [|? ? Dx Da]; subst. inversion B as [|? ? Dy Db]; subst. cbn in L. injection L as L.
  cbn [digits_value] in H. rewrite L in H. unfold digit in *.
  pose proof (digits_value_bound a Da) as Ba. pose proof (digits_value_bound b Db) as Bb. rewrite L in Ba.
  set (P := 10 ^ Z.of_nat (length b)) in *.
  destruct (Z.lt_trichotomy x y) as [C|[C|C]].
  - exists [], x, y, a, b. auto.
  - subst y. apply differs_cons, IH; auto. lia.
  - exfalso. assert (x - y >= 1) by lia. nia.
Qed.

Lemma padded_len w n t : padded w n t -> n < 10 ^ Z.of_nat w -> (0 < w)%nat -> length t = w.
Proof.
  intros [(D & N & V) [L|[L H]]] B W; [exact L|exfalso].
  destruct t as [|c t]; [now elim N|]. cbn [hd length digits_value] in *. inversion D as [|? ? Dc Dt]; subst. unfold digit in Dc.
  pose proof (digits_value_bound t Dt).
  assert (10 ^ Z.of_nat w <= 10 ^ Z.of_nat (length t)) by (apply Z.pow_le_mono_r; lia).
  assert (1 <= c - 48) by lia. nia.
Qed.
Lemma padded_differ w n m a b : padded w n a -> padded w m b -> n < m -> m < 10 ^ Z.of_nat w -> (0 < w)%nat -> differs a b.
Proof.
  intros A B L M W. pose proof (padded_len _ _ _ A ltac:(lia) W). pose proof (padded_len _ _ _ B M W).
  destruct A as [(DA & _ & VA) _], B as [(DB & _ & VB) _]. apply digits_differ; auto; [congruence|lia].
Qed.

Lemma fraction_sb a : forall b k, Forall digit a -> Forall digit b -> (length a <= k)%nat -> (length b <= k)%nat ->
  digits_value a * 10 ^ Z.of_nat (k - length a) < digits_value b * 10 ^ Z.of_nat (k - length b) -> sorts_before a b.
Proof.
  induction a as [|x a IH]; intros [|y b] k A B LA LB H; cbn [sorts_before digits_value length] in *; auto; try lia.
  - pose proof (digits_value_bound _ A) as Q. cbn [digits_value length] in Q.
    pose proof (Z.pow_pos_nonneg 10 (Z.of_nat (k - S (length a))) ltac:(lia) ltac:(lia)). nia.
  - inversion A as [|? ? Dx Da]; subst. inversion B as [|? ? Dy Db]; subst. unfold digit in *.
    destruct k as [|k]; [lia|]. rewrite !Nat.sub_succ in H.
    pose proof (digits_value_bound a Da) as Ba. pose proof (digits_value_bound b Db) as Bb.
    rewrite !Z.mul_add_distr_r, <- !Z.mul_assoc, <- !Z.pow_add_r in H by lia.
    replace (Z.of_nat (length a) + Z.of_nat (k - length a)) with (Z.of_nat k) in H by lia.
    replace (Z.of_nat (length b) + Z.of_nat (k - length b)) with (Z.of_nat k) in H by lia.
    destruct (Z.lt_trichotomy x y) as [C|[C|C]]; [auto| |exfalso].
    + right. split; [auto|]. subst y. apply (IH b k); auto; lia.
    + assert (digits_value b * 10 ^ Z.of_nat (k - length b) < 10 ^ Z.of_nat k).
      { replace (Z.of_nat k) with (Z.of_nat (length b) + Z.of_nat (k - length b)) by lia. rewrite Z.pow_add_r by lia.
        pose proof (Z.pow_pos_nonneg 10 (Z.of_nat (k - length b)) ltac:(lia) ltac:(lia)). nia. }
      pose proof (Z.pow_pos_nonneg 10 (Z.of_nat (k - length a)) ltac:(lia) ltac:(lia)).
      pose proof (Z.pow_pos_nonneg 10 (Z.of_nat k) ltac:(lia) ltac:(lia)).
      assert (1 <= x - y) by lia. nia.
Qed.

Lemma seconds_sb s us s' us' a b : seconds_text 2 s us a -> seconds_text 2 s' us' b -> 0 <= us -> 0 <= us' -> s' < 60 ->
  s < s' \/ s = s' /\ us < us' -> sorts_before a b.
Proof.
  intros (da & PA & FA) (db & PB & FB) U U' B [L|[<- L]].
  - assert (D : differs da db) by (apply (padded_differ 2 s s'); auto; cbn; lia).
    assert (exists u v, a = da ++ u /\ b = db ++ v) as (u & v & -> & ->); [|now apply differs_sb].
    destruct FA as [(_ & ->)|(_ & fa & _ & ->)], FB as [(_ & ->)|(_ & fb & _ & ->)];
      do 2 eexists; split; try reflexivity; symmetry; apply app_nil_r.
  - assert (db = da) as -> by (eapply padded_fun; eauto).
    destruct FB as [(-> & ->)|(_ & fb & (DB & NB & LB & VB & _) & ->)]; [lia|].
    destruct FA as [(-> & ->)|(_ & fa & (DA & NA & LA & VA & _) & ->)].
    + rewrite <- (app_nil_r da) at 1. apply sb_app. exact I.
    + apply sb_app. cbn. right. split; [auto|]. apply (fraction_sb fa fb 6); auto. lia.
Qed.

Lemma clock_sb h mi s us h' mi' s' us' a b : clock_text 2 h mi s us a -> clock_text 2 h' mi' s' us' b ->
  h' < 100 -> 0 <= mi < 60 -> 0 <= s < 60 -> 0 <= us < 1000000 -> 0 <= mi' < 60 -> 0 <= s' < 60 -> 0 <= us' < 1000000 ->
  clock h mi s us < clock h' mi' s' us' -> sorts_before a b.
Proof.
  intros (th & tm & ts & H1 & H2 & H3 & ->) (th' & tm' & ts' & K1 & K2 & K3 & ->) Bh A1 A2 A3 B1 B2 B3 L. unfold clock in L.
  assert (h < h' \/ h = h' /\ (mi < mi' \/ mi = mi' /\ (s < s' \/ s = s' /\ us < us'))) as [C|[<- C]] by lia.
  - apply differs_sb, (padded_differ 2 h h'); auto; cbn; lia.
  - assert (th' = th) as -> by (eapply padded_fun; eauto). apply sb_app. cbn. right. split; [auto|].
    destruct C as [C|[<- C]].
    + apply differs_sb, (padded_differ 2 mi mi'); auto; cbn; lia.
    + assert (tm' = tm) as -> by (eapply padded_fun; eauto). apply sb_app. cbn. right. split; [auto|].
      eapply seconds_sb; eauto; lia.
Qed.

Lemma month_len_31 y m : month_len y m <= 31.
Proof. unfold month_len. repeat (destruct m as [|m|m]; try lia; try (destruct (leap y); lia)). Qed.

Lemma iso_differs y m d y' m' d' a b : three 4 y 45 2 m 45 2 d a -> three 4 y' 45 2 m' 45 2 d' b ->
  valid_ymd (y, m, d) -> valid_ymd (y', m', d') -> y' <= 9999 -> ymd_lt (y, m, d) (y', m', d') -> differs a b.
Proof.
  intros (ty & tm & td & H1 & H2 & H3 & ->) (ty' & tm' & td' & K1 & K2 & K3 & ->) [Vm Vd] [Vm' Vd'] Y L.
  pose proof (month_len_31 y' m').
  destruct L as [C|[<- C]].
  - apply differs_more, (padded_differ 4 y y'); auto; cbn; lia.
  - assert (ty' = ty) as -> by (eapply padded_fun; eauto). apply differs_app, differs_cons.
    destruct C as [C|[<- C]].
    + apply differs_more, (padded_differ 2 m m'); auto; cbn; lia.
    + assert (tm' = tm) as -> by (eapply padded_fun; eauto). apply differs_app, differs_cons.
      apply (padded_differ 2 d d'); auto; cbn; lia.
Qed.

Lemma days_lt c c' n n' : valid_ymd c -> valid_ymd c' -> day_number c n -> day_number c' n' -> n < n' -> ymd_lt c c'.
Proof.
  intros V V' D D' L. apply J_lt_iff; auto. apply day_number_J in D; auto. apply day_number_J in D'; auto. lia.
Qed.

Lemma four_year n c : four_digit_year n -> valid_ymd c -> day_number c n -> 1 <= fst (fst c) <= 9999.
Proof.
  intros (y & m & d & V & D & B) V' D'. rewrite (day_number_inj c (y, m, d) n); auto.
Qed.

Lemma four_bounds n : four_digit_year n -> -730119 <= n <= 2921939.
Proof.
  intros (y & m & d & V & D & B). apply day_number_J in D; auto.
  assert (J (y, m, d) <= J (9999, 12, 31)).
  { destruct (ymd_trichotomy (y, m, d) (9999, 12, 31)) as [T|[->|T]]; [|lia|].
    - pose proof (J_lt (y, m, d) (9999, 12, 31) V ltac:(vm_compute; intuition congruence) T). lia.
    - exfalso. destruct V as [Vm Vd]. pose proof (month_len_31 y m). unfold ymd_lt in T. lia. }
  assert (J (1, 1, 1) <= J (y, m, d)).
  { destruct (ymd_trichotomy (1, 1, 1) (y, m, d)) as [T|[<-|T]]; [|lia|].
    - pose proof (J_lt (1,1,1) (y, m, d) ltac:(vm_compute; intuition congruence) V T). lia.
    - exfalso. destruct V as [Vm Vd]. unfold ymd_lt in T. lia. }
  change (J (9999, 12, 31)) with 5373484 in *. change (J (1, 1, 1)) with 1721426 in *. lia.
Qed.
Lemma four_valid n : four_digit_year n -> valid_date n.
Proof. intros H. apply four_bounds in H. unfold valid_date. lia. Qed.
Lemma four_valid_ts t : four_digit_year (t / usecs_day) -> valid_ts t.
Proof.
  intros H. apply four_bounds in H. unfold valid_ts. unfold usecs_day in H.
  pose proof (Z.div_mod t 86400000000 ltac:(lia)). pose proof (Z.mod_pos_bound t 86400000000 ltac:(lia)). lia.
Qed.
Lemma day_split n h mi s us : clock_ok h mi s us -> (n * usecs_day + clock h mi s us) / usecs_day = n.
Proof.
  intros (H1 & H2 & H3 & H4). unfold clock, usecs_day. symmetry.
  apply (Z.div_unique_pos _ _ _ (((h * 60 + mi) * 60 + s) * 1000000 + us)); lia.
Qed.
Lemma three_fun wa a c1 wb b c2 wc c t u : three wa a c1 wb b c2 wc c t -> three wa a c1 wb b c2 wc c u -> t = u.
Proof.
  intros (x & y & z & A & B & C & ->) (x' & y' & z' & A' & B' & C' & ->).
  assert (x' = x) as -> by (eapply padded_fun; eauto). assert (y' = y) as -> by (eapply padded_fun; eauto).
  assert (z' = z) as -> by (eapply padded_fun; eauto). reflexivity.
Qed.
