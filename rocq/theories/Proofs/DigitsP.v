(** Decimal output and input. *)
From Verif Require Import Model.Parse Spec.Text Proofs.Arith.
Open Scope Z_scope.

Lemma is_digit_iff c : is_digit c = true <-> digit c.
Proof. unfold is_digit, digit. lia. Qed.
Lemma digits_forallb ds : Forall digit ds <-> forallb is_digit ds = true.
Proof. rewrite forallb_forall, Forall_forall. setoid_rewrite is_digit_iff. easy. Qed.

Lemma digit1 c : digit c -> Forall digit [c].
Proof. intros H. constructor; [exact H|constructor]. Qed.

Lemma pow10_pos k : 0 < 10 ^ Z.of_nat k.
Proof. apply Z.pow_pos_nonneg; lia. Qed.
Lemma pow10_S k : 10 ^ Z.of_nat (S k) = 10 * 10 ^ Z.of_nat k.
Proof. rewrite Nat2Z.inj_succ, Z.pow_succ_r; lia. Qed.

Lemma digits_value_app a b :
  digits_value (a ++ b) = digits_value a * 10 ^ Z.of_nat (length b) + digits_value b.
Proof.
  induction a as [|c a IH]; cbn [digits_value app]; [lia|].
  rewrite IH, app_length, Nat2Z.inj_add, Z.pow_add_r by lia. ring.
Qed.
Lemma digits_value_snoc a c : digits_value (a ++ [c]) = digits_value a * 10 + (c - 48).
Proof. rewrite digits_value_app. cbn. ring. Qed.
Lemma digits_value_bound ds : Forall digit ds -> 0 <= digits_value ds < 10 ^ Z.of_nat (length ds).
Proof.
  induction 1 as [|c r H _ IH]; [cbn; lia|].
  cbn [digits_value length]. rewrite pow10_S. unfold digit in H. nia.
Qed.
Lemma dval_acc ds acc : dval acc ds = acc * 10 ^ Z.of_nat (length ds) + digits_value ds.
Proof.
  revert acc. induction ds as [|c r IH]; intros acc; [cbn; ring|].
  unfold dval in *. cbn [fold_left digits_value length]. rewrite IH, pow10_S. ring.
Qed.
Lemma dval_value ds : dval 0 ds = digits_value ds.
Proof. rewrite dval_acc. ring. Qed.

(** ** Output *)
Lemma ltostr_rev_opp f v : ltostr_rev f (- v) = ltostr_rev f v.
Proof.
  revert v. induction f as [|f IH]; intros v; [easy|]. cbn [ltostr_rev].
  rewrite Z.quot_opp_l, IH by lia.
  replace (- v - - (v ÷ 10) * 10) with (- (v - v ÷ 10 * 10)) by ring. rewrite Z.abs_opp.
  destruct (Z.eqb_spec (v ÷ 10) 0) as [E|E].
  - now rewrite E.
  - destruct (Z.eqb_spec (- (v ÷ 10)) 0); [lia|easy].
Qed.

Lemma ltostr_rev_ok f v : (0 < f)%nat -> 0 <= v < 10 ^ Z.of_nat f ->
  exists ds, ltostr_rev f v = Ok ds /\ decimal v (rev ds) /\ (length ds <= f)%nat
    /\ (0 < v -> 10 ^ Z.of_nat (length ds - 1) <= v).
Proof.
  revert v. induction f as [|f IH]; intros v Hf Hv; [lia|].
  cbn [ltostr_rev]. rewrite pow10_S in Hv.
  rewrite Z.quot_div_nonneg by lia.
  assert (v - v / 10 * 10 = v mod 10) as -> by lia.
  assert (0 <= v mod 10 < 10) as R by (apply Z.mod_pos_bound; lia).
  rewrite (Z.abs_eq (v mod 10)) by lia.
  assert (digit (48 + v mod 10)) as D by (unfold digit; lia).
  destruct (Z.eqb_spec (v / 10) 0) as [E|E].
  - exists [48 + v mod 10]. split; [easy|]. split; [|split; [cbn; lia|cbn; lia]].
    split; [|now left]. split; [now apply digit1|]. split; [easy|].
    cbn. lia.
  - destruct f as [|f]; [cbn in Hv; exfalso; clear IH R; lia|].
    destruct (IH (v / 10)) as (ds & E' & ((F & N & V) & Sh) & L & P); [lia| |].
    { clear IH R D. set (q := 10 ^ Z.of_nat (S f)) in *. clearbody q. lia. }
    rewrite E'. cbn [bind]. exists (48 + v mod 10 :: ds). split; [easy|].
    assert (0 < v / 10) by (clear IH; lia).
    split; [|split; [cbn [length]; lia|]].
    + split.
      * split; [|split].
        -- cbn [rev]. apply Forall_app. split; [easy|]. now apply digit1.
        -- cbn [rev]. now destruct (rev ds).
        -- cbn [rev]. rewrite digits_value_snoc, V. clear IH; lia.
      * right. cbn [rev]. destruct (rev ds) as [|c r] eqn:Er; [easy|]. cbn [app hd].
        cbn [hd] in Sh. destruct Sh as [Sh|Sh]; [|easy].
        destruct r; [|cbn in Sh; lia]. cbn in V. clear IH. lia.
    + intros _. specialize (P ltac:(easy)). cbn [length]. replace (S (length ds) - 1)%nat with (length ds) by lia.
      assert (0 < length ds)%nat as L0.
      { destruct ds; [cbn in N; easy|cbn; lia]. }
      replace (length ds) with (S (length ds - 1)) by lia. rewrite pow10_S.
      set (q := 10 ^ Z.of_nat (length ds - 1)) in *. clearbody q. clear IH. lia.
Qed.

Lemma pg_ltostr_nonneg v : 0 <= v <= 2147483648 ->
  exists ds, pg_ltostr v = Ok ds /\ decimal v ds /\ (length ds <= 10)%nat.
Proof.
  intros H. destruct (ltostr_rev_ok 11 v ltac:(lia)) as (ds & E & D & L & P).
  { change (10 ^ Z.of_nat 11) with 100000000000. lia. }
  exists (rev ds). unfold pg_ltostr. rewrite E. cbn [bind].
  destruct (Z.ltb_spec v 0); [lia|]. split; [easy|]. split; [easy|]. rewrite rev_length.
  destruct (Z.eq_dec v 0) as [->|N].
  - cbn in E. injection E as <-. cbn. lia.
  - specialize (P ltac:(lia)). destruct (le_lt_dec (length ds) 10); [easy|].
    assert (length ds - 1 = 10)%nat as Q by lia. rewrite Q in P.
    change (10 ^ Z.of_nat 10) with 10000000000 in P. lia.
Qed.
Lemma pg_ltostr_neg v : -2147483648 <= v < 0 ->
  exists ds, pg_ltostr v = Ok (45 :: ds) /\ decimal (- v) ds /\ (length ds <= 10)%nat.
Proof.
  intros H. destruct (pg_ltostr_nonneg (- v) ltac:(lia)) as (ds & E & D & L).
  exists ds. split; [|easy]. unfold pg_ltostr in *. rewrite ltostr_rev_opp in E.
  destruct (ltostr_rev 11 v) as [r| |]; try discriminate. cbn [bind] in *.
  destruct (Z.ltb_spec v 0); [|lia]. destruct (Z.ltb_spec (- v) 0); [lia|]. now injection E as ->.
Qed.
Lemma pg_ltostr_ok v : in_i32 v ->
  exists t, pg_ltostr v = Ok t /\ int_text v t /\ (length t <= 11)%nat.
Proof.
  intros H. rng. unfold int_text. destruct (Z.ltb_spec v 0).
  - destruct (pg_ltostr_neg v ltac:(lia)) as (ds & E & D & L). exists (45 :: ds).
    split; [easy|]. split; [eauto|cbn; lia].
  - destruct (pg_ltostr_nonneg v ltac:(lia)) as (ds & E & D & L). exists ds. split; [easy|]. split; [easy|lia].
Qed.

Lemma zeropad_fill_ok md w v acc : 0 <= v ->
  exists ds, zeropad_fill md w v acc = Ok (ds ++ acc, v / 10 ^ Z.of_nat w)
    /\ Forall digit ds /\ length ds = w /\ digits_value ds = v mod 10 ^ Z.of_nat w.
Proof.
  revert v acc. induction w as [|w IH]; intros v acc H.
  - exists []. cbn. rewrite Z.div_1_r. repeat split; [constructor|]. now rewrite Z.mod_1_r.
  - cbn [zeropad_fill]. destruct (Z.ltb_spec v 0); [lia|]. cbn [bind].
    rewrite Z.quot_div_nonneg by lia.
    assert (v - v / 10 * 10 = v mod 10) as -> by lia.
    assert (0 <= v mod 10 < 10) as R by (apply Z.mod_pos_bound; lia).
    destruct (IH (v / 10) (48 + v mod 10 :: acc) ltac:(apply Z.div_pos; lia)) as (ds & E & F & L & V).
    exists (ds ++ [48 + v mod 10]). rewrite E, pow10_S. pose proof (pow10_pos w).
    rewrite <- app_assoc. cbn [app]. rewrite Z.div_div by lia. split; [easy|].
    split; [apply Forall_app; split; [easy|apply digit1; unfold digit; lia]|].
    split; [rewrite app_length; cbn; lia|]. rewrite digits_value_snoc, V.
    rewrite Z.rem_mul_r by lia. lia.
Qed.

Lemma zeropad_ok md w v : (0 < w)%nat -> 0 <= v <= i32_max ->
  exists t, pg_ltostr_zeropad md v w = Ok t /\ padded w v t /\ (length t <= max w 10)%nat.
Proof.
  intros Hw H. unfold pg_ltostr_zeropad. destruct (Z.ltb_spec v 0); [lia|].
  destruct (zeropad_fill_ok md w v [] ltac:(lia)) as (ds & E & F & L & V).
  rewrite E, app_nil_r. cbn [bind]. pose proof (pow10_pos w) as P.
  destruct (Z.eqb_spec (v / 10 ^ Z.of_nat w) 0) as [Q|Q]; cbn [negb].
  - exists ds. split; [easy|]. split; [|lia]. split; [|now left]. split; [easy|].
    split; [destruct ds; [cbn in L; lia|discriminate]|]. rewrite V. apply Z.mod_small.
    apply Z.div_small_iff in Q; lia.
  - destruct (pg_ltostr_nonneg v ltac:(rng; lia)) as (t & Et & ((Ft & Nt & Vt) & Dt) & Lt).
    exists t. split; [easy|]. split; [|lia]. split; [easy|]. right.
    assert (w < length t)%nat.
    { pose proof (digits_value_bound t Ft) as B. rewrite Vt in B.
      destruct (le_lt_dec (length t) w) as [G|G]; [|easy]. exfalso.
      assert (10 ^ Z.of_nat (length t) <= 10 ^ Z.of_nat w) by (apply Z.pow_le_mono_r; lia).
      apply Q. apply Z.div_small. lia. }
    split; [easy|]. destruct Dt; [lia|easy].
Qed.

Lemma frac_digits_ok p v g acc : 0 <= v ->
  exists ds, frac_digits p v g acc = (ds ++ acc, v / 10 ^ Z.of_nat p)
    /\ Forall digit ds /\ (length ds <= p)%nat
    /\ digits_value ds * 10 ^ Z.of_nat (p - length ds) = v mod 10 ^ Z.of_nat p
    /\ (if g then length ds = p else v mod 10 ^ Z.of_nat p <> 0 -> ds <> [] /\ last ds 48 <> 48).
Proof.
  revert v g acc. induction p as [|p IH]; intros v g acc H.
  - exists []. cbn. rewrite Z.div_1_r, Z.mod_1_r. repeat split; try constructor; try easy. destruct g; [easy|lia].
  - cbn [frac_digits]. rewrite Z.quot_div_nonneg by lia.
    assert (v - v / 10 * 10 = v mod 10) as -> by lia.
    assert (0 <= v mod 10 < 10) as R by (apply Z.mod_pos_bound; lia).
    pose proof (pow10_pos p) as P.
    assert (v mod 10 ^ Z.of_nat (S p) = (v / 10) mod 10 ^ Z.of_nat p * 10 + v mod 10) as M
      by (rewrite pow10_S, Z.rem_mul_r by lia; ring).
    assert (v / 10 / 10 ^ Z.of_nat p = v / 10 ^ Z.of_nat (S p)) as DD by (rewrite pow10_S, Z.div_div by lia; easy).
    destruct (g || negb (v mod 10 =? 0)) eqn:G.
    + destruct (IH (v / 10) true (48 + v mod 10 :: acc) ltac:(apply Z.div_pos; lia)) as (ds & E & F & L & V & T).
      exists (ds ++ [48 + v mod 10]). rewrite E, <- app_assoc. cbn [app]. rewrite DD. split; [easy|].
      split; [apply Forall_app; split; [easy|apply digit1; unfold digit; lia]|].
      rewrite app_length. cbn [length]. split; [lia|]. split.
      * replace (S p - (length ds + 1))%nat with 0%nat by lia.
        replace (p - length ds)%nat with 0%nat in V by lia. cbn [Z.of_nat] in *. rewrite M, digits_value_snoc.
        change (10 ^ 0) with 1 in *. lia.
      * destruct g; [lia|]. cbn [orb] in G. intros _. split; [now destruct ds|]. rewrite last_last. lia.
    + destruct g; [discriminate|]. cbn [orb] in G.
      destruct (IH (v / 10) false acc ltac:(apply Z.div_pos; lia)) as (ds & E & F & L & V & T).
      exists ds. rewrite E, DD. split; [easy|]. split; [easy|]. split; [lia|].
      assert (v mod 10 = 0) as Z0 by lia. rewrite M, Z0. split.
      * replace (S p - length ds)%nat with (S (p - length ds)) by lia. rewrite pow10_S. lia.
      * intros N. apply T. lia.
Qed.

Lemma frac_digits_fraction p v : 0 < v < 10 ^ Z.of_nat p ->
  exists ds, frac_digits p v false [] = (ds, 0) /\ fraction p v ds.
Proof.
  intros H. destruct (frac_digits_ok p v false [] ltac:(lia)) as (ds & E & F & L & V & T).
  exists ds. rewrite E, app_nil_r, Z.div_small by lia. split; [easy|].
  rewrite Z.mod_small in * by lia. specialize (T ltac:(lia)). repeat split; easy.
Qed.

(** ** Input *)
Definition stops (f : Z -> bool) (s : bytes) : Prop :=
  match s with [] => True | c :: _ => f c = false end.

Lemma eat_app f a s : forallb f a = true -> stops f s -> eat f (a ++ s) = (a, s).
Proof.
  intros F S. induction a as [|c a IH]; cbn [app].
  - destruct s as [|c s]; [easy|]. cbn in *. now rewrite S.
  - cbn [forallb] in F. apply andb_prop in F as [F1 F2]. cbn [eat]. rewrite F1, (IH F2). easy.
Qed.
Lemma eat_all f a : forallb f a = true -> eat f a = (a, []).
Proof. intros F. rewrite <- (app_nil_r a) at 1. now apply eat_app. Qed.
Lemma eat_none f s : stops f s -> eat f s = ([], s).
Proof. apply (eat_app f []). easy. Qed.
Lemma eat_split f s : let '(a, b) := eat f s in s = a ++ b /\ forallb f a = true /\ stops f b.
Proof.
  induction s as [|c s IH]; cbn [eat]; [easy|]. destruct (f c) eqn:E.
  - destruct (eat f s) as [a b]. destruct IH as (-> & F & S). cbn [app forallb]. now rewrite E, F.
  - cbn. now rewrite E.
Qed.

Lemma digit_not_space c : digit c -> is_space c = false.
Proof. unfold digit, is_space. lia. Qed.
Lemma digit_not_sign c : digit c -> (c =? 43) = false /\ (c =? 45) = false.
Proof. unfold digit. lia. Qed.

Lemma eat_ws_cons c s : is_space c = false -> eat_whitespaces (c :: s) = c :: s.
Proof. intros H. unfold eat_whitespaces. cbn. now rewrite H. Qed.

(** Reading a numeral of at most ten digits. *)
Lemma str2i32_numeral n ds s : numeral n ds -> (length ds <= 10)%nat -> n <= i32_max ->
  stops is_digit s -> str2i32 (ds ++ s) = Ok (n, s).
Proof.
  intros (F & N & V) L M S. destruct ds as [|c r]; [easy|].
  assert (digit c) as Dc by now inversion F.
  unfold str2i32. cbn [app]. rewrite eat_ws_cons by now apply digit_not_space.
  unfold extract_sign. destruct (digit_not_sign c Dc) as [-> ->].
  unfold eat_digits. change (c :: r ++ s) with ((c :: r) ++ s).
  rewrite eat_app; [|now apply digits_forallb|easy].
  unfold blen. destruct (Z.ltb_spec 10 (Z.of_nat (length (c :: r)))); [lia|].
  rewrite dval_value, V, Z.mul_1_r. pose proof (digits_value_bound _ F).
  rewrite in32b_true; [easy|]. rng. lia.
Qed.

(** With a sign in front. *)
Lemma str2i32_neg n ds s : numeral n ds -> (length ds <= 10)%nat -> n <= 2147483648 ->
  stops is_digit s -> str2i32 (45 :: ds ++ s) = Ok (- n, s).
Proof.
  intros (F & N & V) L M S. 
  unfold str2i32. rewrite eat_ws_cons by easy. unfold extract_sign. change (45 =? 43) with false. change (45 =? 45) with true. cbn [andb]. cbv iota.
  unfold eat_digits. rewrite eat_app; [|now apply digits_forallb|easy].
  unfold blen. destruct (Z.ltb_spec 10 (Z.of_nat (length ds))); [lia|].
  rewrite dval_value, V. pose proof (digits_value_bound _ F).
  replace (n * -1) with (- n) by lia. rewrite in32b_true; [easy|]. rng. lia.
Qed.
Lemma str2i32_pos n ds s : numeral n ds -> (length ds <= 10)%nat -> n <= i32_max ->
  stops is_digit s -> str2i32 (43 :: ds ++ s) = Ok (n, s).
Proof.
  intros (F & N & V) L M S.
  unfold str2i32. rewrite eat_ws_cons by easy. unfold extract_sign. change (43 =? 43) with true. cbv iota.
  unfold eat_digits. rewrite eat_app; [|now apply digits_forallb|easy].
  unfold blen. destruct (Z.ltb_spec 10 (Z.of_nat (length ds))); [lia|].
  rewrite dval_value, V, Z.mul_1_r. pose proof (digits_value_bound _ F).
  rewrite in32b_true; [easy|]. rng. lia.
Qed.
