(** Texts in the ISO styles sort in order of time: C68. *)
From Verif Require Import Model.Format Spec.Calendar Spec.Ranges Spec.Clock Spec.Text Spec.Sorting
  Proofs.Cal Proofs.DateP Proofs.FormatP Proofs.SortP.
From Coq Require Import ZArith List Lia.
Import List ListNotations.
Open Scope Z_scope.

Lemma iff_of_lt (key : Z -> list Z -> Prop) :
  (forall a b s t, key a s -> key b t -> a < b -> sorts_before s t) ->
  (forall a s t, key a s -> key a t -> s = t) ->
  forall a b s t, key a s -> key b t -> (a < b <-> sorts_before s t).
Proof.
  intros L F a b s t A B. split; [now apply L|]. intros S.
  destruct (Z.lt_trichotomy a b) as [C|[->|C]]; [exact C| |]; exfalso.
  - rewrite (F _ _ _ A B) in S. now apply (sb_irrefl t).
  - apply (sb_asym _ _ S). now apply (L b a).
Qed.

Theorem C68_date : forall md style o o' a b s t, style = SISO \/ style = SXSD ->
  four_digit_year a -> four_digit_year b ->
  date_format md a style o = Ok s -> date_format md b style o' = Ok t ->
  (a < b <-> sorts_before s t).
Proof.
  intros md style o o' a b s t St A B Fa Fb.
  apply (iff_of_lt (fun n x => four_digit_year n /\ exists o, date_format md n style o = Ok x)); eauto; clear - St.
  - intros a b s t (A & o & Fa) (B & o' & Fb) L.
    destruct (date_format_ok md a style o (four_valid a A)) as (c & x & E & V & D & Y & _).
    destruct (date_format_ok md b style o' (four_valid b B)) as (c' & x' & E' & V' & D' & Y' & _).
    pose proof (four_year a c A V D) as R. pose proof (four_year b c' B V' D') as R'.
    rewrite Fa in E. rewrite Fb in E'. injection E as ->. injection E' as ->. apply differs_sb.
    destruct c as [[y m] d], c' as [[y' m'] d']. cbn [fst] in R, R'.
    assert (three 4 y 45 2 m 45 2 d x /\ three 4 y' 45 2 m' 45 2 d' x') as [T T'].
    { unfold date_layout, era_year in Y, Y'. destruct (Z.ltb_spec 0 y), (Z.ltb_spec 0 y'); try lia.
      destruct St as [->| ->]; auto. }
    eapply iso_differs; eauto; [lia|]. eapply days_lt; eauto.
  - intros a s t (A & o & Fa) (_ & o' & Fb).
    assert (date_format md a style o = date_format md a style o') as Q; [|congruence].
    unfold date_format, format_date. destruct St as [->| ->]; reflexivity.
Qed.
Print Assumptions C68_date.

Theorem C68_time : forall md a b s t, 0 <= a <= usecs_day -> 0 <= b <= usecs_day ->
  time_format md a = Ok s -> time_format md b = Ok t -> (a < b <-> sorts_before s t).
Proof.
  intros md a b s t A B Fa Fb.
  apply (iff_of_lt (fun n x => 0 <= n <= usecs_day /\ time_format md n = Ok x)); auto; clear.
  - intros a b s t (A & Fa) (B & Fb) L.
    destruct (time_format_ok md a A) as (h & mi & se & us & x & E & T & B0 & B1 & B2 & B3 & <- & _).
    destruct (time_format_ok md b B) as (h' & mi' & se' & us' & x' & E' & T' & B0' & B1' & B2' & B3' & <- & _).
    rewrite Fa in E. rewrite Fb in E'. injection E as ->. injection E' as ->.
    eapply clock_sb; eauto. lia.
  - intros a s t (_ & Fa) (_ & Fb). congruence.
Qed.
Print Assumptions C68_time.

Theorem C68_timestamp : forall md style o o' a b s t, style = SISO \/ style = SXSD ->
  four_digit_year (a / usecs_day) -> four_digit_year (b / usecs_day) ->
  timestamp_format md a style o = Ok s -> timestamp_format md b style o' = Ok t ->
  (a < b <-> sorts_before s t).
Proof.
  intros md style o o' a b s t St A B Fa Fb.
  apply (iff_of_lt (fun n x => four_digit_year (n / usecs_day) /\ exists o, timestamp_format md n style o = Ok x)); eauto; clear - St.
  - intros a b s t (A & o & Fa) (B & o' & Fb) L.
    destruct (timestamp_format_ok md a style o (four_valid_ts a A)) as (c & h & mi & se & us & x & E & (V & K & n & D & N) & Y & _).
    destruct (timestamp_format_ok md b style o' (four_valid_ts b B)) as (c' & h' & mi' & se' & us' & x' & E' & (V' & K' & n' & D' & N') & Y' & _).
    assert (n = a / usecs_day) as -> by (subst a; symmetry; apply (day_split n _ _ _ _ K)).
    assert (n' = b / usecs_day) as -> by (subst b; symmetry; apply (day_split n' _ _ _ _ K')).
    pose proof (four_year _ c A V D) as R. pose proof (four_year _ c' B V' D') as R'.
    rewrite Fa in E. rewrite Fb in E'. injection E as ->. injection E' as ->.
    destruct c as [[y m] d], c' as [[y' m'] d']. cbn [fst] in *.
    assert (exists tc td sep, (sep = match style with SISO => 32 | _ => 84 end) /\ clock_text 2 h mi se us tc /\ three 4 y 45 2 m 45 2 d td /\ x = td ++ sep :: tc) as (tc & td & sep & Es & T1 & T2 & ->).
    { unfold ts_layout, date_layout, era_year in Y. destruct (Z.ltb_spec 0 y); try lia.
      destruct Y as (tc & H1 & H2). destruct St as [->| ->]; destruct H2 as (td & H2 & ->); eauto 8. }
    assert (exists tc' td', clock_text 2 h' mi' se' us' tc' /\ three 4 y' 45 2 m' 45 2 d' td' /\ x' = td' ++ sep :: tc') as (tc' & td' & T1' & T2' & ->).
    { unfold ts_layout, date_layout, era_year in Y'. destruct (Z.ltb_spec 0 y'); try lia.
      destruct Y' as (tc' & H1 & H2). subst sep. destruct St as [->| ->]; destruct H2 as (td' & H2 & ->); eauto 8. }
    unfold era_suffix. destruct (Z.ltb_spec 0 y), (Z.ltb_spec 0 y'); try lia. rewrite !app_nil_r.
    assert (a / usecs_day <= b / usecs_day) by (apply Z.div_le_mono; unfold usecs_day; lia).
    destruct (Z.eq_dec (a / usecs_day) (b / usecs_day)) as [Q|Q].
    + rewrite Q in D, N. assert ((y, m, d) = (y', m', d')) as C by (eapply day_number_inj; eauto). injection C as <- <- <-.
      assert (td' = td) as -> by (eapply three_fun; eauto). apply sb_app. cbn. right. split; [auto|].
      destruct K as (K1 & K2 & K3 & K4), K' as (K1' & K2' & K3' & K4').
      eapply clock_sb; eauto; lia.
    + apply differs_sb. eapply iso_differs; eauto; [lia|]. eapply days_lt; eauto. lia.
  - intros a s t (A & o & Fa) (_ & o' & Fb).
    assert (timestamp_format md a style o = timestamp_format md a style o') as Q; [|congruence].
    unfold timestamp_format, format_date_time. destruct St as [->| ->]; reflexivity.
Qed.
Print Assumptions C68_timestamp.

(** The order of texts says nothing outside these years: the year 10000 sorts before 9999, and
    before Christ the order is reversed. *)
Theorem C68_years_refuted : exists a b c e s t u v, a < b /\ c < e /\ four_digit_year a
  /\ date_format Release a SISO YMD = Ok s /\ date_format Release b SISO YMD = Ok t
  /\ date_format Release c SISO YMD = Ok u /\ date_format Release e SISO YMD = Ok v
  /\ sorts_before t s /\ sorts_before v u.
Proof.
  exists 2921939, 2921940, (-730900), (-730500), (bs "9999-12-31"), (bs "10000-01-01"), (bs "0003-11-12 BC"), (bs "0002-12-17 BC").
  assert (four_digit_year 2921939).
  { exists 9999, 12, 31. split; [vm_compute; intuition congruence|]. split; [|lia].
    apply day_number_J; [vm_compute; intuition congruence|reflexivity]. }
  split; [lia|]. split; [lia|]. split; [auto|]. do 4 (split; [vm_compute; reflexivity|]).
  split; vm_compute; intuition congruence.
Qed.
Print Assumptions C68_years_refuted.

Example C68_case : four_digit_year 0
  /\ timestamp_format Debug 45000000 SISO YMD = Ok (bs "2000-01-01 00:00:45")
  /\ timestamp_format Debug 45450000 SISO YMD = Ok (bs "2000-01-01 00:00:45.45")
  /\ timestamp_format Debug 45500000 SISO YMD = Ok (bs "2000-01-01 00:00:45.5").
Proof.
  split; [|vm_compute; auto]. exists 2000, 1, 1. split; [vm_compute; intuition congruence|]. split; [|lia].
  left. split; [lia|reflexivity].
Qed.
