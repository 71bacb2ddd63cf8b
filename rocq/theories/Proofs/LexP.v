(** Splitting a text into fields: what the fields look like and when it can fail. *)
From Verif Require Import Model.Parse Spec.Text Proofs.DigitsP Proofs.TokenP.
From Coq Require Import Lia.
Open Scope Z_scope.

(** Bytes other than white space *)
Definition solid (c : Z) : bool := negb (is_space c).
Definition sig (s : bytes) : nat := length (filter solid s).

Lemma sig_app a b : sig (a ++ b) = (sig a + sig b)%nat.
Proof. unfold sig. now rewrite filter_app, app_length. Qed.
Lemma sig_cons c s : sig (c :: s) = ((if is_space c then 0 else 1) + sig s)%nat.
Proof. unfold sig. cbn [filter]. unfold solid at 1. now destruct (is_space c). Qed.
Lemma sig_le s : (sig s <= length s)%nat.
Proof. unfold sig. induction s as [|c s IH]; cbn [filter length]; [lia|]. destruct (solid c); cbn [length]; lia. Qed.
Lemma sig_full f a : (forall c, f c = true -> is_space c = false) -> forallb f a = true -> sig a = length a.
Proof.
  intros F. induction a as [|c a IH]; [easy|]. cbn [forallb]. rewrite andb_true_iff. intros [C A].
  rewrite sig_cons, (F c C), (IH A). reflexivity.
Qed.

(** ** Character classes *)
Lemma digit_solid c : is_digit c = true -> is_space c = false.
Proof. unfold is_digit, is_space. lia. Qed.
Lemma alpha_solid c : is_alpha c = true -> is_space c = false.
Proof. unfold is_alpha, is_upper, is_lower, is_space. lia. Qed.
Lemma alnum_solid c : is_alnum c = true -> is_space c = false.
Proof. unfold is_alnum. rewrite orb_true_iff. intros [H|H]; [now apply alpha_solid|now apply digit_solid]. Qed.
Lemma lower_len s : length (lowers s) = length s.
Proof. apply map_length. Qed.
Lemma lower_alpha c : is_alpha c = true -> is_lower (lower c) = true.
Proof. unfold lower, is_alpha, is_upper, is_lower. destruct (_ && _) eqn:E; lia. Qed.
Lemma lowers_alpha s : forallb is_alpha s = true -> forallb is_lower (lowers s) = true.
Proof.
  induction s as [|c s IH]; [easy|]. cbn [forallb lowers List.map]. rewrite !andb_true_iff. intros [A B].
  split; [now apply lower_alpha|now apply IH].
Qed.

(** ** Fields *)
Definition word (f : bytes) : Prop := f <> [] /\ forallb is_lower f = true.
(** Digits with at most one point *)
Definition numlike (f : bytes) : Prop := f <> [] /\ exists a b, forallb is_digit a = true /\
  (b = [] /\ f = a \/ exists d, b = 46 :: d /\ forallb is_digit d = true /\ f = a ++ b).
Definition shape (t : token) : Prop :=
  match fst t with
  | None => snd t = [43] \/ snd t = [45]
  | Some KNumber => numlike (snd t)
  | Some KTime => exists c r, snd t = c :: r /\ is_digit c = true
  | Some KDate => exists c r, snd t = c :: r /\ is_alnum c = true
  | Some KTz => exists c r, snd t = c :: r /\ (c = 43 \/ c = 45) /\ r <> []
      /\ forallb (fun i => is_digit i || (i =? 58) || (i =? 46) || (i =? 45)) r = true
      /\ match r with d :: _ => is_digit d = true | [] => False end
  | Some KSpecial => exists c r, snd t = c :: r /\ (c = 43 \/ c = 45) /\ word r
  | Some KString => word (snd t)
  | _ => False
  end.

(** The field [t] was read off the front of [s], leaving [rest]: a possible sign, white space
    after it, then solid bytes. *)
Definition lead (p w : bytes) : Prop :=
  p = [] /\ w = [] \/ (p = [43] \/ p = [45]) /\ forallb is_space w = true.
Definition noalpha (c : Z) : bool := negb (is_alpha c).
Definition took (s : bytes) (t : token) (rest : bytes) : Prop :=
  exists p w u, s = p ++ w ++ u ++ rest /\ lead p w /\ p ++ u <> [] /\ lowers (snd t) = lowers (p ++ u)
    /\ forallb solid (p ++ u) = true /\ shape t
    /\ (forallb noalpha u = true \/ stops is_alpha rest)
    /\ (fst t = None -> u = [] /\ rest = []).

Lemma lower_idem c : lower (lower c) = lower c.
Proof.
  unfold lower, is_upper. destruct ((65 <=? c) && (c <=? 90)) eqn:E; [|now rewrite E].
  destruct ((65 <=? c + 32) && (c + 32 <=? 90)) eqn:E2; lia.
Qed.
Lemma lowers_idem s : lowers (lowers s) = lowers s.
Proof. unfold lowers. rewrite map_map. apply map_ext. apply lower_idem. Qed.
Lemma lowers_app a b : lowers (a ++ b) = lowers a ++ lowers b.
Proof. apply map_app. Qed.
Lemma forallb_imp (f g : Z -> bool) a : (forall c, f c = true -> g c = true) -> forallb f a = true -> forallb g a = true.
Proof. intros I. rewrite !forallb_forall. auto. Qed.
Lemma solid_digit c : is_digit c = true -> solid c = true.
Proof. intros H. unfold solid. now rewrite (digit_solid c H). Qed.
Lemma solid_alpha c : is_alpha c = true -> solid c = true.
Proof. intros H. unfold solid. now rewrite (alpha_solid c H). Qed.
Lemma digit_noalpha c : is_digit c = true -> noalpha c = true.
Proof. unfold noalpha, is_digit, is_alpha, is_upper, is_lower. lia. Qed.
Lemma stops_sub f g s : (forall c, f c = true -> g c = true) -> stops g s -> stops f s.
Proof.
  intros I. destruct s as [|c s]; [easy|]. cbn. intros G. destruct (f c) eqn:F; [|easy]. rewrite (I c F) in G. easy.
Qed.

(** A field without leading sign *)
Lemma took_plain s t u rest : s = u ++ rest -> u <> [] -> lowers (snd t) = lowers u ->
  forallb solid u = true -> shape t -> (forallb noalpha u = true \/ stops is_alpha rest) ->
  fst t <> None -> took s t rest.
Proof.
  intros -> N L S Sh A T. exists [], [], u. cbn [app]. repeat split; auto; try easy. now left.
Qed.

Lemma took_sig s t rest : took s t rest -> exists used, s = used ++ rest /\ used <> [] /\ length (snd t) = sig used.
Proof.
  intros (p & w & u & -> & Ld & N & Lw & S & _ & _ & _). exists (p ++ w ++ u).
  repeat split; [now rewrite <- !app_assoc| |].
  - intros Q. apply app_eq_nil in Q as [-> Q]. apply app_eq_nil in Q as [-> ->]. easy.
  - rewrite <- (lower_len (snd t)), Lw, lower_len, !sig_app.
    assert (sig w = 0%nat) as ->.
    { destruct Ld as [[_ ->]|[_ W]]; [easy|]. unfold sig. clear -W. induction w as [|c w IH]; [easy|].
      cbn [forallb filter] in *. apply andb_prop in W as [C W]. unfold solid at 1. rewrite C. now apply IH. }
    rewrite app_length. rewrite forallb_app in S. apply andb_prop in S as [S1 S2].
    cbn [Nat.add]. f_equal; symmetry; apply (sig_full solid); auto; unfold solid; intros c; now destruct (is_space c).
Qed.

Lemma shape_nonempty t : shape t -> snd t <> [].
Proof.
  destruct t as [[k|] f]; cbn; [|intros [->| ->]; discriminate].
  destruct k; cbn; try easy; try (intros (c & r & -> & _); discriminate); intros [H _]; exact H.
Qed.

Lemma delim_took ty f1 s2 c r : (c =? 45) || (c =? 47) || (c =? 46) = true ->
  digit_delim_begin c r = (ty, f1, s2) ->
  exists u, r = u ++ s2 /\ lowers f1 = lowers (c :: u) /\ forallb solid (c :: u) = true
  /\ (forallb noalpha (c :: u) = true \/ stops is_alpha s2)
  /\ (ty = KDate \/ ty = KNumber /\ exists d, f1 = 46 :: d /\ forallb is_digit d = true).
Proof.
  intros C. assert (solid c = true) as Cs by (unfold solid, is_space; lia).
  assert (noalpha c = true) as Ca by (unfold noalpha, is_alpha, is_upper, is_lower; lia).
  assert ((if c =? 46 then KNumber else KDate) = KDate \/
    (if c =? 46 then KNumber else KDate) = KNumber /\ c = 46) as Ty
    by (destruct (Z.eqb_spec c 46); [right|left]; auto).
  unfold digit_delim_begin. destruct r as [|d r].
  - intros E. injection E as <- <- <-. exists []. cbn [forallb]. rewrite Cs, Ca.
    repeat split; auto. destruct Ty as [->|[-> ->]]; [now left|right]. split; [easy|]. now exists [].
  - destruct (is_digit d) eqn:D.
    + unfold eat_digits. pose proof (eat_split is_digit (d :: r)) as S.
      destruct (eat is_digit (d :: r)) as [g1 s1]. destruct S as (E1 & F1 & _). rewrite E1.
      pose proof (forallb_imp _ _ g1 solid_digit F1) as L1. pose proof (forallb_imp _ _ g1 digit_noalpha F1) as L2.
      assert (exists u, g1 ++ s1 = u ++ s1 /\ lowers (c :: g1) = lowers (c :: u) /\ forallb solid (c :: u) = true
        /\ (forallb noalpha (c :: u) = true \/ stops is_alpha s1)
        /\ ((if c =? 46 then KNumber else KDate) = KDate \/ (if c =? 46 then KNumber else KDate) = KNumber
           /\ exists d0, c :: g1 = 46 :: d0 /\ forallb is_digit d0 = true)) as K.
      { exists g1. cbn [forallb]. rewrite Cs, Ca, L1, L2. repeat split; auto.
        destruct Ty as [->|[-> ->]]; [now left|right]. split; [easy|]. now exists g1. }
      destruct s1 as [|c1 s1]; [intros E; injection E as <- <- <-; exact K|].
      destruct (c1 =? c) eqn:Q; [|intros E; injection E as <- <- <-; exact K].
      apply Z.eqb_eq in Q. subst c1.
      pose proof (eat_split (fun i => (i =? c) || is_digit i) (c :: s1)) as S2.
      destruct (eat _ (c :: s1)) as [f2 s3]. destruct S2 as (E2 & F2 & _). rewrite E2.
      intros E. injection E as <- <- <-. exists (g1 ++ f2). cbn [forallb]. rewrite !forallb_app, Cs, Ca, L1, L2.
      assert (forallb solid f2 = true) as ->.
      { apply (forallb_imp _ _ f2) with (2 := F2). intros z. rewrite orb_true_iff.
        intros [Hz|Hz]; [apply Z.eqb_eq in Hz; now subst|now apply solid_digit]. }
      assert (forallb noalpha f2 = true) as ->.
      { apply (forallb_imp _ _ f2) with (2 := F2). intros z. rewrite orb_true_iff.
        intros [Hz|Hz]; [apply Z.eqb_eq in Hz; now subst|now apply digit_noalpha]. }
      repeat split; auto. now rewrite <- app_assoc.
    + pose proof (eat_split (fun i => (i =? c) || is_alnum i) (d :: r)) as S.
      destruct (eat _ (d :: r)) as [g1 s1]. destruct S as (E1 & F1 & St). rewrite E1.
      intros E. injection E as <- <- <-. exists g1. cbn [forallb]. rewrite Cs.
      assert (forallb solid g1 = true) as ->.
      { apply (forallb_imp _ _ g1) with (2 := F1). intros z. rewrite orb_true_iff.
        intros [Hz|Hz]; [apply Z.eqb_eq in Hz; now subst|]. unfold solid. now rewrite (alnum_solid z Hz). }
      repeat split; auto.
      * cbn [lowers List.map]. f_equal. apply lowers_idem.
      * right. apply (stops_sub _ _ s1) with (2 := St). intros z Hz. unfold is_alnum. rewrite Hz. now rewrite orb_true_r.
Qed.

Lemma digit_took c r t rest : is_digit c = true -> digit_begin (c :: r) = (t, rest) -> took (c :: r) t rest.
Proof.
  intros D. unfold digit_begin, eat_digits. pose proof (eat_split is_digit (c :: r)) as S.
  cbn [eat] in *. rewrite D in *. destruct (eat is_digit r) as [g s1]. destruct S as (E & F & _).
  rewrite E. cbn [app] in *. pose proof F as F'. cbn [forallb] in F'. apply andb_prop in F' as [_ Fg].
  pose proof (forallb_imp _ _ (c :: g) solid_digit F) as L. pose proof (forallb_imp _ _ (c :: g) digit_noalpha F) as L2.
  assert (shape (Some KNumber, c :: g)) as Sn.
  { split; [easy|]. exists (c :: g), []. split; [easy|]. now left. }
  destruct s1 as [|d s].
  - intros Q. injection Q as <- <-. apply took_plain with (u := c :: g); auto; try easy.
  - destruct (d =? 58) eqn:D58; [|destruct ((d =? 45) || (d =? 47) || (d =? 46)) eqn:Dl].
    + pose proof (eat_split (fun i => is_digit i || (i =? 58) || (i =? 46)) (d :: s)) as S2.
      destruct (eat _ (d :: s)) as [f1 s2]. destruct S2 as (E2 & F2 & _). rewrite E2.
      intros Q. injection Q as <- <-. apply took_plain with (u := (c :: g) ++ f1); try easy.
      * cbn [app]. now rewrite <- app_assoc.
      * rewrite forallb_app, L. apply (forallb_imp _ _ f1) with (2 := F2). intros z. unfold solid, is_digit, is_space. lia.
      * cbn. eauto.
      * left. rewrite forallb_app, L2. apply (forallb_imp _ _ f1) with (2 := F2).
        intros z. unfold noalpha, is_alpha, is_upper, is_lower, is_digit. lia.
    + destruct (digit_delim_begin d s) as [[ty f1] s2] eqn:B.
      destruct (delim_took ty f1 s2 d s Dl B) as (u & -> & Lf & So & Na & T).
      intros Q. injection Q as <- <-. apply took_plain with (u := (c :: g) ++ d :: u); try easy.
      * cbn [app]. rewrite <- app_assoc. reflexivity.
      * cbn [snd]. change (c :: g ++ f1) with ((c :: g) ++ f1). rewrite !lowers_app, Lf. reflexivity.
      * rewrite forallb_app, L. exact So.
      * destruct T as [->|(-> & dd & -> & Fd)].
        { exists c, (g ++ f1). split; [easy|]. unfold is_alnum. now rewrite D, orb_true_r. }
        split; [easy|]. exists (c :: g), (46 :: dd). split; [easy|]. right. exists dd. auto.
      * destruct Na as [Na|Na]; [left|now right]. rewrite forallb_app, L2. exact Na.
    + intros Q. injection Q as <- <-. apply took_plain with (u := c :: g); auto; try easy.
Qed.

Lemma dot_took r t rest : dot_begin r = (t, rest) -> took (46 :: r) t rest.
Proof.
  unfold dot_begin, eat_digits. pose proof (eat_split is_digit r) as S. destruct (eat is_digit r) as [g s1].
  destruct S as (-> & F & _). intros Q. injection Q as <- <-. apply took_plain with (u := 46 :: g); try easy.
  - cbn [forallb]. now rewrite (forallb_imp _ _ g solid_digit F).
  - split; [easy|]. exists [], (46 :: g). split; [easy|]. right. now exists g.
  - left. cbn [forallb]. now rewrite (forallb_imp _ _ g digit_noalpha F).
Qed.

Lemma date_word_solid c : date_word_char c = true -> solid c = true.
Proof. unfold solid, date_word_char, is_alnum, is_alpha, is_upper, is_lower, is_digit, is_space. lia. Qed.

Lemma search_date_total w : exists o, search_date_token w = Ok o.
Proof. destruct (token_search_ok _ w date_table_sorted) as (o & E & _). now exists o. Qed.

Lemma alpha_took c r : is_alpha c = true -> exists t rest, alpha_begin (c :: r) = Ok (t, rest) /\ took (c :: r) t rest.
Proof.
  intros A. unfold alpha_begin, eat_alphabetics. pose proof (eat_split is_alpha (c :: r)) as S.
  cbn [eat] in *. rewrite A in *. destruct (eat is_alpha r) as [g s1]. destruct S as (E & F & St). rewrite E.
  pose proof (forallb_imp _ _ (c :: g) solid_alpha F) as L.
  assert (exists b : bool, match s1 with
    | d :: _ =>
        if (d =? 45) || (d =? 47) || (d =? 46) then Ok true
        else if (d =? 43) || is_digit d then
          let* t := search_date_token (lowers (c :: g)) in
          Ok (match t with None => true | Some _ => false end)
        else Ok false
    | [] => Ok false
    end = Ok b) as (b & ->).
  { destruct s1 as [|d s]; [eauto|]. destruct (_ || _); [eauto|]. destruct (_ || _); [|eauto].
    destruct (search_date_total (lowers (c :: g))) as (o & ->). cbn [bind]. eauto. }
  cbn [bind]. destruct b.
  - pose proof (eat_split date_word_char s1) as S2. destruct (eat date_word_char s1) as [f1 s2].
    destruct S2 as (-> & F2 & St2). eexists _, _. split; [reflexivity|].
    apply took_plain with (u := (c :: g) ++ f1); try easy.
    + now rewrite <- app_assoc.
    + cbn [snd]. rewrite !lowers_app, lowers_idem. reflexivity.
    + rewrite forallb_app, L. exact (forallb_imp _ _ f1 date_word_solid F2).
    + eexists _, _. split; [reflexivity|]. unfold is_alnum, is_alpha. rewrite (lower_alpha c A). now rewrite !orb_true_r.
    + right. apply (stops_sub _ _ s2) with (2 := St2). intros z Hz. unfold date_word_char, is_alnum.
      rewrite Hz. now rewrite !orb_true_r.
  - eexists _, _. split; [reflexivity|]. apply took_plain with (u := c :: g); auto; try easy.
    + cbn [snd]. apply lowers_idem.
    + split; [easy|]. apply (lowers_alpha (c :: g) F).
Qed.

Lemma ws_split s : exists w, s = w ++ eat_whitespaces s /\ forallb is_space w = true.
Proof.
  unfold eat_whitespaces. pose proof (eat_split is_space s) as S. destruct (eat is_space s) as [w b].
  destruct S as (-> & F & _). now exists w.
Qed.
Lemma sig_ws w : forallb is_space w = true -> sig w = 0%nat.
Proof.
  induction w as [|c w IH]; [easy|]. cbn [forallb]. rewrite andb_true_iff. intros [C W].
  now rewrite sig_cons, C, (IH W).
Qed.

Lemma sign_took c r : (c =? 43) || (c =? 45) = true ->
  (exists t rest, sign_begin c r = Ok (t, rest) /\ took (c :: r) t rest) \/ sign_begin c r = Err EInvalid.
Proof.
  intros C. assert (c = 43 \/ c = 45) as C' by lia. assert (solid c = true) as Cs by (unfold solid, is_space; lia).
  unfold sign_begin. destruct (ws_split r) as (w & E & W).
  assert (lead [c] w) as Ld by (right; split; [destruct C' as [->| ->]; auto|easy]).
  destruct (eat_whitespaces r) as [|d s].
  - left. eexists _, _. split; [reflexivity|]. exists [c], w, []. rewrite E. cbn [app forallb]. rewrite Cs.
    rewrite !app_nil_r. repeat split; auto; try easy. cbn. destruct C' as [->| ->]; auto.
  - destruct (is_digit d) eqn:D; [|destruct (is_alpha d) eqn:A; [|now right]].
    + left. pose proof (eat_split (fun i => is_digit i || (i =? 58) || (i =? 46) || (i =? 45)) (d :: s)) as S.
      cbn [eat] in *. rewrite D in *. cbn [orb] in *.
      destruct (eat _ s) as [g s1]. destruct S as (E2 & F & _). rewrite E, E2.
      eexists _, _. split; [reflexivity|]. exists [c], w, (d :: g).
      cbn [app]. repeat split; try easy.
      * change (c :: d :: g) with ([c] ++ d :: g). rewrite forallb_app. cbn [forallb]. rewrite Cs.
        apply (forallb_imp _ _ (d :: g)) with (2 := F). intros z. unfold solid, is_digit, is_space. lia.
      * exists c, (d :: g). repeat split; try easy.
      * left. apply (forallb_imp _ _ (d :: g)) with (2 := F).
        intros z. unfold noalpha, is_alpha, is_upper, is_lower, is_digit. lia.
    + left. unfold eat_alphabetics. pose proof (eat_split is_alpha (d :: s)) as S.
      cbn [eat] in *. rewrite A in *. destruct (eat is_alpha s) as [g s1]. destruct S as (E2 & F & St). rewrite E, E2.
      eexists _, _. split; [reflexivity|]. exists [c], w, (d :: g).
      cbn [app]. repeat split; try easy.
      * cbn [snd]. change (c :: lowers (d :: g)) with ([c] ++ lowers (d :: g)).
        change (c :: d :: g) with ([c] ++ d :: g). rewrite !lowers_app, lowers_idem. reflexivity.
      * change (c :: d :: g) with ([c] ++ d :: g). rewrite forallb_app. cbn [forallb]. rewrite Cs.
        exact (forallb_imp _ _ (d :: g) solid_alpha F).
      * exists c, (lowers (d :: g)). repeat split; try easy. apply (lowers_alpha (d :: g) F).
      * now right.
Qed.

(** ** The tokenizer *)

(** Only the last field can lack a type. *)
Definition typed (t : token) : Prop := fst t <> None.
Fixpoint lex_ok (ts : list token) : Prop :=
  match ts with
  | [] => True
  | t :: rest => shape t /\ (fst t = None -> rest = []) /\ lex_ok rest
  end.
Definition total_len (ts : list token) : nat := list_sum (List.map (fun t => length (snd t)) ts).

Lemma tokenize_ok fuel : forall n room s, (length s < fuel)%nat -> Z.of_nat (sig s) <= room ->
  (exists ts, tokenize fuel n room s = Ok ts /\ lex_ok ts /\ (total_len ts <= sig s)%nat)
  \/ tokenize fuel n room s = Err EInvalid.
Proof.
  induction fuel as [|fuel IH]; intros n room s Ls Lr; [lia|]. cbn [tokenize].
  destruct (ws_split s) as (w & E & W). assert (sig s = sig (eat_whitespaces s)) as Sg
    by (rewrite E at 1; now rewrite sig_app, (sig_ws w W)).
  assert (length (eat_whitespaces s) <= length s)%nat as Lw by (rewrite E at 2; rewrite app_length; lia).
  destruct (eat_whitespaces s) as [|c r].
  { left. exists []. repeat split. cbn. lia. }
  destruct (MAX_DATE_FIELDS <=? n); [now right|].
  assert (forall t rest, took (c :: r) t rest ->
    (exists ts, (let* room' := use_buf room (snd t) in
      let* ts := tokenize fuel (n + 1) room' rest in Ok (t :: ts)) = Ok ts /\ lex_ok ts /\ (total_len ts <= sig s)%nat)
    \/ (let* room' := use_buf room (snd t) in
      let* ts := tokenize fuel (n + 1) room' rest in Ok (t :: ts)) = Err EInvalid) as Add.
  { intros t rest T. destruct (took_sig _ _ _ T) as (used & Eu & Nu & Lu).
    destruct T as (p0 & w0 & u0 & _ & _ & _ & _ & _ & Sh & _ & No). unfold use_buf, blen.
    assert (sig s = (sig used + sig rest)%nat) as Q by (rewrite Sg, Eu; apply sig_app).
    assert (length (c :: r) = (length used + length rest)%nat) as Q2 by (rewrite Eu; apply app_length).
    destruct used; [easy|]. cbn [length] in Q2, Lw.
    destruct (Z.leb_spec (Z.of_nat (length (snd t))) room) as [B|B]; [|lia]. cbn [bind].
    destruct (IH (n + 1) (room - Z.of_nat (length (snd t))) rest) as [(ts & -> & K & T)| ->]; [lia|lia| |now right].
    cbn [bind]. left. exists (t :: ts). split; [easy|]. cbn [lex_ok]. split.
    - split; [easy|]. split; [|easy]. intros N. destruct (No N) as [_ No']. subst rest. unfold total_len in T.
      destruct ts as [|u ts]; [easy|]. exfalso. cbn [lex_ok] in K. destruct K as (Su & _).
      apply shape_nonempty in Su. destruct u as [uk [|u1 u2]]; [easy|]. cbn in T. lia.
    - change (total_len (t :: ts)) with (length (snd t) + total_len ts)%nat. lia. }
  destruct (is_digit c) eqn:D.
  { destruct (digit_begin (c :: r)) as [t rest] eqn:B. apply Add. now apply digit_took. }
  destruct (c =? 46) eqn:Dot.
  { apply Z.eqb_eq in Dot. subst c. destruct (dot_begin r) as [t rest] eqn:B. apply Add. now apply dot_took. }
  destruct (is_alpha c) eqn:A.
  { destruct (alpha_took c r A) as (t & rest & -> & T). exact (Add t rest T). }
  destruct ((c =? 43) || (c =? 45)) eqn:Sn.
  { assert (1 <= room).
    { assert (is_space c = false) as Cs by (unfold is_space; lia). rewrite sig_cons, Cs in Sg. lia. }
    assert (use_buf room [c] = Ok (room - 1)) as ->
      by (unfold use_buf; change (blen [c]) with 1; destruct (Z.leb_spec 1 room); [easy|lia]).
    cbn [bind].
    destruct (sign_took c r Sn) as [(t & rest & -> & T)| ->]; [exact (Add t rest T)|now right]. }
  destruct (is_punct c) eqn:P; [|now right].
  pose proof (eat_split is_punct (c :: r)) as Sp. cbn [eat] in *. rewrite P in *.
  destruct (eat is_punct r) as [g s1]. destruct Sp as (E1 & F & _). cbn [snd].
  assert (length (c :: r) = (length (c :: g) + length s1)%nat) as Q2 by (rewrite E1; apply app_length).
  cbn [length] in Q2, Lw.
  assert (sig (c :: r) = (sig (c :: g) + sig s1)%nat) as Q by (rewrite E1; apply sig_app).
  destruct (IH n room s1) as [(ts & -> & K & T)|E2]; [lia|lia| |now right].
  left. exists ts. repeat split; auto. lia.
Qed.

Lemma parse_ok s : s <> [] -> (sig s <= 128)%nat ->
  (exists ts, parse_date_time s = Ok ts /\ lex_ok ts /\ (total_len ts <= sig s)%nat)
  \/ parse_date_time s = Err EInvalid.
Proof.
  intros N L. unfold parse_date_time. destruct s as [|c s]; [easy|]. apply tokenize_ok; [lia|]. unfold MAX_DATE_LEN. lia.
Qed.

(** ** How a text is read as a sequence of fields *)
Definition blank (c : Z) : bool := is_space c || is_punct c.
Inductive lexed : bytes -> list token -> Prop :=
  | lx_nil s : forallb blank s = true -> lexed s []
  | lx_cons b s t rest ts : forallb blank b = true -> took s t rest -> lexed rest ts -> lexed (b ++ s) (t :: ts).

Lemma lexed_blank b s ts : forallb blank b = true -> lexed s ts -> lexed (b ++ s) ts.
Proof.
  intros B. induction 1 as [s S|b' s t rest ts B' T L IH].
  - apply lx_nil. now rewrite forallb_app, B.
  - rewrite app_assoc. apply lx_cons with (rest := rest); auto. now rewrite forallb_app, B.
Qed.

Lemma tokenize_lexed fuel : forall n room s ts, tokenize fuel n room s = Ok ts -> lexed s ts.
Proof.
  induction fuel as [|fuel IH]; intros n room s ts; cbn [tokenize]; [discriminate|].
  destruct (ws_split s) as (w & E & W). assert (forallb blank w = true) as Wb.
  { apply (forallb_imp _ _ w) with (2 := W). intros z Hz. unfold blank. now rewrite Hz. }
  destruct (eat_whitespaces s) as [|c r].
  { intros Q. injection Q as <-. rewrite E, app_nil_r. now apply lx_nil. }
  destruct (MAX_DATE_FIELDS <=? n); [discriminate|].
  assert (forall t rest, took (c :: r) t rest ->
    (let* room' := use_buf room (snd t) in
      let* ts := tokenize fuel (n + 1) room' rest in Ok (t :: ts)) = Ok ts -> lexed s ts) as Add.
  { intros t rest T. unfold use_buf. destruct (_ <=? room); [|discriminate]. cbn [bind].
    destruct (tokenize fuel (n + 1) _ rest) as [ts'| |] eqn:Q; try discriminate. cbn [bind].
    intros Q2. injection Q2 as <-. apply IH in Q. rewrite E. now apply lx_cons with (rest := rest). }
  destruct (is_digit c) eqn:D.
  { destruct (digit_begin (c :: r)) as [t rest] eqn:B. apply Add. now apply digit_took. }
  destruct (c =? 46) eqn:Dot.
  { apply Z.eqb_eq in Dot. subst c. destruct (dot_begin r) as [t rest] eqn:B. apply Add. now apply dot_took. }
  destruct (is_alpha c) eqn:A.
  { destruct (alpha_took c r A) as (t & rest & -> & T). exact (Add t rest T). }
  destruct ((c =? 43) || (c =? 45)) eqn:Sn.
  { destruct (use_buf room [c]); try discriminate. cbn [bind].
    destruct (sign_took c r Sn) as [(t & rest & -> & T)| ->]; [exact (Add t rest T)|discriminate]. }
  destruct (is_punct c) eqn:P; [|discriminate].
  pose proof (eat_split is_punct (c :: r)) as Sp.
  destruct (eat is_punct (c :: r)) as [g s1]. destruct Sp as (E1 & F & _). cbn [snd].
  intros Q. apply IH in Q. rewrite E, E1, app_assoc. apply lexed_blank; [|easy].
  rewrite forallb_app, Wb. apply (forallb_imp _ _ g) with (2 := F). intros z Hz. unfold blank. rewrite Hz. apply orb_true_r.
Qed.

Lemma parse_lexed s ts : parse_date_time s = Ok ts -> lexed s ts.
Proof. unfold parse_date_time. destruct s; [discriminate|]. apply tokenize_lexed. Qed.

Lemma lexed_shape s ts : lexed s ts -> Forall shape ts.
Proof. induction 1 as [|b s t rest ts B (p & w & u & T) L IH]; constructor; [apply T|exact IH]. Qed.

Lemma took_nonempty t rest : ~ took [] t rest.
Proof.
  intros (p & w & u & E & _ & N & _). destruct p, w, u; try discriminate. easy.
Qed.

(** A text whose last field lacks a type ends with a sign. *)
Lemma lexed_untyped s ts : lexed s ts -> (exists t, In t ts /\ fst t = None) ->
  exists a c w, s = a ++ c :: w /\ (c = 43 \/ c = 45) /\ forallb is_space w = true.
Proof.
  induction 1 as [|b s t rest ts B T L IH]; intros (t' & I & N); [easy|].
  destruct T as (p & w & u & -> & Ld & Np & _ & _ & _ & _ & No).
  destruct I as [->|I].
  - destruct (No N) as [-> ->]. destruct Ld as [[-> _]|[P W]]; [easy|].
    destruct P as [->| ->]; [exists b, 43, w|exists b, 45, w]; cbn [app]; rewrite app_nil_r; auto.
  - destruct IH as (a & c & w' & -> & C & W); [eauto|]. exists (b ++ p ++ w ++ u ++ a), c, w'.
    split; [|easy]. now rewrite <- !app_assoc.
Qed.

Lemma last_app_cons (a : bytes) c b d : last (a ++ c :: b) d = last (c :: b) d.
Proof.
  induction a as [|x a IH]; [easy|]. cbn [app]. rewrite <- IH. destruct a; reflexivity.
Qed.
Lemma last_forallb f (a : bytes) d : forallb f a = true -> a <> [] -> f (last a d) = true.
Proof.
  induction a as [|c a IH]; [easy|]. cbn [forallb]. rewrite andb_true_iff. intros [C A] _.
  destruct a as [|c' a]; [exact C|]. change (last (c :: c' :: a) d) with (last (c' :: a) d). now apply IH.
Qed.
Lemma blank_noalpha c : blank c = true -> noalpha c = true.
Proof. unfold blank, noalpha, is_space, is_punct, is_alpha, is_upper, is_lower. lia. Qed.

(** A text whose last field is the word "t" ends with a "t" standing by itself. *)
Lemma lexed_last_t s ts : lexed s (ts ++ [(Some KString, [116])]) ->
  exists a c w, s = a ++ c :: w /\ (c = 84 \/ c = 116) /\ forallb blank w = true
    /\ (a = [] \/ is_alpha (last a 0) = false).
Proof.
  revert s. induction ts as [|t0 ts IH]; intros s L; inversion L as [|b s' t rest ts' B T L' E1 E2]; subst.
  - inversion L' as [rest' R|]; subst. destruct T as (p & w & u & -> & Ld & _ & Lw & _ & _ & _).
    cbn [snd] in Lw. rewrite lowers_app in Lw.
    destruct Ld as [[-> ->]|[[->| ->] _]]; try discriminate. cbn [app] in *.
    destruct u as [|c [|c' u]]; try discriminate. cbn in Lw. exists b, c, rest. split; [easy|].
    split; [|split; [easy|]].
    + injection Lw as Lw. unfold lower, is_upper in Lw. destruct (_ && _) eqn:Q; lia.
    + destruct b as [|x b]; [now left|right]. assert (noalpha (last (x :: b) 0) = true) as Q.
      { apply last_forallb; [|easy]. exact (forallb_imp _ _ _ blank_noalpha B). }
      apply negb_true_iff in Q. exact Q.
  - destruct (IH rest L') as (a & c & w & -> & C & W & A). destruct T as (p & w' & u & -> & Ld & Np & _ & _ & _ & Al & _).
    exists (b ++ p ++ w' ++ u ++ a), c, w. split; [now rewrite <- !app_assoc|]. split; [easy|]. split; [easy|]. right.
    destruct a as [|x a].
    2:{ destruct A as [|A]; [easy|]. rewrite !app_assoc, last_app_cons. exact A. }
    rewrite app_nil_r. cbn [app stops] in Al.
    destruct Al as [Al|Al]; [|exfalso; destruct C as [->| ->]; discriminate].
    assert (forallb noalpha (p ++ w' ++ u) = true) as Q.
    { rewrite !forallb_app, Al.
      destruct Ld as [[-> ->]|[P W']]; [easy|]. rewrite (forallb_imp is_space noalpha w') with (2 := W').
      - now destruct P as [->| ->].
      - intros z. unfold is_space, noalpha, is_alpha, is_upper, is_lower. lia. }
    assert (p ++ w' ++ u <> []) as Nq.
    { intros Q2. apply app_eq_nil in Q2 as [-> Q2]. apply app_eq_nil in Q2 as [_ ->]. easy. }
    destruct (p ++ w' ++ u) as [|y q] eqn:Eq; [easy|]. rewrite last_app_cons.
    apply (last_forallb _ _ 0) in Q; [|easy]. apply negb_true_iff in Q. exact Q.
Qed.
