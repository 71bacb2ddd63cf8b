(** Fields of a text without long numbers have no long numbers; words of a text. *)
From Verif Require Import Model.Parse Proofs.DigitsP Proofs.LexP Proofs.FieldsP Proofs.FloatP Proofs.FboundP Spec.Text Spec.Lexing Spec.ShortNumbers.
From Flocq Require Import Core.Core.
From Coq Require Import Reals Lra Lia.
Open Scope Z_scope.

Lemma short_infix a s b : short_numbers (a ++ s ++ b) -> short_numbers s.
Proof. intros H x d y E D. apply (H (a ++ x) d (y ++ b)); [|exact D]. rewrite E. now rewrite <- !app_assoc. Qed.
Lemma short_suffix a s : short_numbers (a ++ s) -> short_numbers s.
Proof. intros H. apply (short_infix a s []). now rewrite app_nil_r. Qed.
Lemma short_prefix s b : short_numbers (s ++ b) -> short_numbers s.
Proof. intros H. now apply (short_infix [] s b). Qed.
Lemma short_cons_other c s : ~ digit c -> short_numbers s -> short_numbers (c :: s).
Proof.
  intros N H x d y E D. destruct x as [|c' x].
  - destruct d as [|c' d]; [cbn; lia|]. injection E as -> _. now apply Forall_inv in D.
  - injection E as _ E. exact (H x d y E D).
Qed.
Lemma digit_lower c : digit (lower c) <-> digit c.
Proof. unfold digit, lower, is_upper. destruct (_ && _) eqn:E; lia. Qed.
Lemma digits_lowers d : Forall digit (lowers d) <-> Forall digit d.
Proof. unfold lowers. rewrite Forall_map. split; intros H; (eapply Forall_impl; [|exact H]); intros c; apply digit_lower. Qed.
Lemma short_lowers s t : lowers s = lowers t -> short_numbers s -> short_numbers t.
Proof.
  intros E H a d b -> D. unfold lowers in E. rewrite !map_app in E.
  apply map_eq_app in E as (a' & q & -> & Ea & E). apply map_eq_app in E as (d' & b' & -> & Ed & Eb).
  rewrite <- (map_length lower d), <- Ed, map_length. apply (H a' d' b' eq_refl).
  apply digits_lowers. unfold lowers. rewrite Ed. now apply digits_lowers.
Qed.

(** Where a field comes from *)
Lemma lexed_field s ts t : lexed s ts -> In t ts -> exists a p w u b, s = a ++ p ++ w ++ u ++ b /\ lead p w
  /\ lowers (snd t) = lowers (p ++ u) /\ (forallb noalpha u = true \/ stops is_alpha b)
  /\ (forall c, hd_error (p ++ w ++ u) = Some c -> is_alpha c = true -> a = [] \/ is_alpha (last a 0) = false).
Proof.
  induction 1 as [|b s t0 rest ts B T L IH]; intros I; [easy|].
  destruct T as (p & w & u & -> & Ld & Np & Lw & _ & _ & Al & _). destruct I as [->|I].
  - exists b, p, w, u, rest. repeat (split; [easy|]). intros c _ _.
    destruct b as [|x b]; [now left|right]. assert (noalpha (last (x :: b) 0) = true) as Q.
    { apply last_forallb; [|easy]. exact (forallb_imp _ _ _ blank_noalpha B). }
    apply negb_true_iff in Q. exact Q.
  - destruct (IH I) as (a & p' & w' & u' & b' & E & Ld' & Lw' & Al' & Hd). subst rest.
    exists (b ++ p ++ w ++ u ++ a), p', w', u', b'. split; [now rewrite <- !app_assoc|]. repeat (split; [easy|]).
    intros c C A. right. destruct a as [|x a].
    2:{ destruct (Hd c C A) as [|Q]; [easy|]. rewrite !app_assoc, last_app_cons. exact Q. }
    rewrite app_nil_r. cbn [app] in Al.
    destruct Al as [Al|Al].
    2:{ exfalso. rewrite !app_assoc in Al. destruct ((p' ++ w') ++ u') as [|z q] eqn:Q; rewrite <- app_assoc in Q; rewrite Q in C; [discriminate|].
        injection C as ->. cbn [app stops] in Al. congruence. }
    assert (forallb noalpha (p ++ w ++ u) = true) as Q.
    { rewrite !forallb_app, Al.
      destruct Ld as [[-> ->]|[P W']]; [easy|]. rewrite (forallb_imp is_space noalpha w) with (2 := W').
      - now destruct P as [->| ->].
      - intros z. unfold is_space, noalpha, is_alpha, is_upper, is_lower. lia. }
    assert (p ++ w ++ u <> []) as Nq.
    { intros Q2. apply app_eq_nil in Q2 as [-> Q2]. apply app_eq_nil in Q2 as [_ ->]. easy. }
    destruct (p ++ w ++ u) as [|y q] eqn:Eq; [easy|]. rewrite last_app_cons.
    apply (last_forallb _ _ 0) in Q; [|easy]. apply negb_true_iff in Q. exact Q.
Qed.

Lemma field_short s ts t : short_numbers s -> lexed s ts -> In t ts -> short_numbers (snd t).
Proof.
  intros H L I. destruct (lexed_field s ts t L I) as (a & p & w & u & b & -> & Ld & Lw & _).
  apply (short_lowers (p ++ u)); [now rewrite Lw|].
  assert (short_numbers u) as Hu by (rewrite !app_assoc in H; rewrite <- !app_assoc in H; apply short_suffix, short_suffix, short_suffix, short_prefix in H; exact H).
  destruct Ld as [[-> ->]|[[->| ->] _]]; cbn [app]; [exact Hu| |]; apply short_cons_other; auto; unfold digit; lia.
Qed.

(** A field that is a word of letters stands in the text by itself. *)
Lemma field_word s ts t w : lexed s ts -> In t ts -> snd t = w -> w <> [] -> forallb is_lower w = true -> has_word w s.
Proof.
  intros L I E N W. destruct (lexed_field s ts t L I) as (a & p & v & u & b & -> & Ld & Lw & Al & Hd).
  rewrite E in Lw. assert (lowers w = w) as Lq.
  { clear - W. induction w as [|c w IH]; [easy|]. cbn [forallb] in W. apply andb_prop in W as [C W]. cbn.
    fold (lowers w). rewrite IH by exact W. f_equal. unfold lower, is_upper, is_lower in *. destruct ((65 <=? c) && (c <=? 90)) eqn:Q; lia. }
  rewrite Lq in Lw. assert (forall c, is_lower (lower c) = true -> is_alpha c = true) as LA.
  { intros c. unfold lower, is_alpha, is_upper, is_lower. destruct ((65 <=? c) && (c <=? 90)) eqn:Q; lia. }
  assert (p = [] /\ v = []) as [-> ->].
  { destruct Ld as [Q|[[->| ->] _]]; [exact Q| |]; rewrite Lw in W; cbn in W; discriminate. }
  cbn [app] in *. exists a, u, b. split; [reflexivity|].
  assert (forallb is_alpha u = true) as Au.
  { rewrite Lw in W. clear - W LA. unfold lowers in W. induction u as [|c u IH]; [easy|]. cbn in *. apply andb_prop in W as [C W].
    rewrite (LA c C). exact (IH W). }
  split; [|split].
  - rewrite Lw. unfold lowers. apply map_ext. intros c. unfold to_lower, lower, is_upper. reflexivity.
  - destruct u as [|c u]; [subst w; easy|]. cbn [forallb] in Au. apply andb_prop in Au as [C _].
    destruct (Hd c eq_refl C) as [Q|Q]; [now left|right]. rewrite letter_iff. congruence.
  - destruct b as [|c b]; [exact Logic.I|]. rewrite letter_iff. destruct Al as [Al|Al]; [|cbn in Al; congruence].
    destruct u as [|x u]; [subst w; easy|]. cbn [forallb] in Au, Al. unfold noalpha in Al.
    apply andb_prop in Au as [C _]. rewrite C in Al. discriminate.
Qed.

(** ** Numbers *)
Definition suffix (r s : bytes) : Prop := exists p, s = p ++ r.
Lemma suffix_refl s : suffix s s. Proof. now exists []. Qed.
Lemma suffix_trans a b c : suffix a b -> suffix b c -> suffix a c.
Proof. intros [p ->] [q ->]. exists (q ++ p). now rewrite app_assoc. Qed.
Lemma suffix_cons c r s : suffix (c :: r) s -> suffix r s.
Proof. intros [p ->]. exists (p ++ [c]). now rewrite <- app_assoc. Qed.
Lemma short_suf r s : suffix r s -> short_numbers s -> short_numbers r.
Proof. intros [p ->]. apply short_suffix. Qed.

Lemma eat_suffix f s : suffix (snd (eat f s)) s.
Proof. pose proof (eat_split f s) as H. destruct (eat f s) as [a b]. destruct H as [-> _]. now exists a. Qed.
Lemma sign_suffix s : suffix (snd (extract_sign s)) s.
Proof.
  unfold extract_sign. destruct s as [|c s]; [apply suffix_refl|].
  destruct (c =? 43); [now exists [c]|]. destruct (c =? 45); [now exists [c]|apply suffix_refl].
Qed.
Lemma sign_one s : Z.abs (fst (extract_sign s)) = 1.
Proof. unfold extract_sign. destruct s as [|c s]; [easy|]. destruct (c =? 43); [easy|]. now destruct (c =? 45). Qed.

Lemma digits_short s : short_numbers s -> 0 <= dval 0 (fst (eat_digits s)) <= 999999 /\ (length (fst (eat_digits s)) <= 6)%nat
  /\ 0 <= dval 0 (fst (eat_digits s)) < 10 ^ Z.of_nat (length (fst (eat_digits s))).
Proof.
  intros H. unfold eat_digits. pose proof (eat_split is_digit s) as E. destruct (eat is_digit s) as [a b]. destruct E as (-> & F & _).
  cbn [fst]. apply digits_forallb in F. assert (length a <= 6)%nat as L by exact (H [] a b eq_refl F).
  rewrite dval_value. pose proof (digits_value_bound a F) as B.
  assert (10 ^ Z.of_nat (length a) <= 10 ^ 6) by (apply Z.pow_le_mono_r; lia). change (10 ^ 6) with 1000000 in *. lia.
Qed.

Lemma str2i32_short s v r : short_numbers s -> str2i32 s = Ok (v, r) -> Z.abs v <= 999999 /\ suffix r s.
Proof.
  intros H. unfold str2i32. pose proof (eat_suffix is_space s) as S1. unfold eat_whitespaces.
  set (w := snd (eat is_space s)) in *. destruct w as [|c w].
  { intros Q. injection Q as <- <-. split; [lia|exact S1]. }
  pose proof (sign_suffix (c :: w)) as S2. pose proof (sign_one (c :: w)) as Sg.
  destruct (extract_sign (c :: w)) as [sg s2]. cbn [fst snd] in *.
  pose proof (suffix_trans _ _ _ S2 S1) as S3. pose proof (digits_short s2 (short_suf _ _ S3 H)) as (B & _ & _).
  pose proof (eat_suffix is_digit s2) as S4. fold (eat_digits s2) in S4.
  destruct (eat_digits s2) as [ig s5]. cbn [fst snd] in *. destruct (10 <? blen ig); [discriminate|].
  destruct (in32b _); [|discriminate]. intros Q. injection Q as <- <-. split; [|exact (suffix_trans _ _ _ S4 S3)].
  rewrite Z.abs_mul, Sg. lia.
Qed.

(** A decimal fraction that begins with the point *)
Lemma str2d_dot r v rest : str2d (46 :: r) = Ok (v, rest) ->
  (exists a, rep v a /\ (0 <= a <= 1)%R) /\ suffix rest r.
Proof.
  unfold str2d. change (eat_whitespaces (46 :: r)) with (46 :: r). cbv iota beta zeta. change (extract_sign (46 :: r)) with (1, 46 :: r).
  cbv iota beta zeta. change (eat_digits (46 :: r)) with (([] : bytes), 46 :: r). cbv iota beta zeta. change (10 <? blen []) with false. cbv iota.
  change (46 =? 46) with true. cbv iota. unfold eat_digits. pose proof (eat_split is_digit r) as E. pose proof (eat_suffix is_digit r) as S.
  destruct (eat is_digit r) as [f s]. destruct E as (_ & F & _). cbn [snd] in S.
  destruct (7 <? blen f) eqn:L; [discriminate|]. cbv zeta. intros Q. injection Q as <- <-. split; [|exact S].
  apply digits_forallb in F. change (dval 0 []) with 0. pose proof (digits_value_bound f F) as B.
  destruct f as [|c f].
  - exists 0%R. split; [exact (rep_int 0 ltac:(lia))|lra].
  - set (ds := c :: f) in *. rewrite dval_value, Z.mul_1_r. unfold blen in *.
    set (n := Z.of_nat (length ds)) in *. assert (0 < 10 ^ n <= 10 ^ 7) as P.
    { split; [apply Z.pow_pos_nonneg; lia|apply Z.pow_le_mono_r; lia]. }
    change (10 ^ 7) with 10000000 in P.
    destruct (rep_quot (digits_value ds) (10 ^ n) 1) as [R A]; try lia.
    eexists. split; [exact R|].
    assert (0 <= IZR (digits_value ds) / IZR (10 ^ n))%R as P0.
    { apply Rmult_le_pos; [apply (IZR_le 0); lia|]. left. apply Rinv_0_lt_compat, (IZR_lt 0). lia. }
    rewrite Rabs_right in A by (apply Rle_ge; exact P0). split.
    + apply (ScaleP.rnd_ge_int _ 0); [lia|exact P0].
    + apply (ScaleP.rnd_le_int _ 1); [lia|exact A].
Qed.
Lemma fb_dot r v rest : str2d (46 :: r) = Ok (v, rest) -> fb v 1 /\ suffix rest r.
Proof.
  intros E. destruct (str2d_dot r v rest E) as [(a & R & A) S]. split; [|exact S]. exists a. split; [exact R|].
  apply Rabs_le. lra.
Qed.
Lemma fraction_short md r f : parse_fractional_second md (46 :: r) = Ok f -> Z.abs f <= 1000000.
Proof.
  unfold parse_fractional_second. change (46 =? 46) with true. intros H.
  destruct md; cbn [debug_assert bind] in H.
  all: destruct (str2d (46 :: r)) as [[v s]| |] eqn:E; cbn [bind] in H; try discriminate.
  all: destruct s; [|discriminate]; injection H as <-; apply fb_usecs, (fb_dot r v [] E).
Qed.
