(** Splitting a text into fields commutes with changing it to lower case. *)
From Coq Require Import String.
From Verif Require Import Model.Parse Spec.Text Spec.Lexing Proofs.Arith Proofs.DigitsP Proofs.LexP.
From Coq Require Import List ZArith Bool Lia.
Import ListNotations.
Open Scope Z_scope.

Definition low (t : token) : token := (fst t, lowers (snd t)).
Definition lowr (x : token * bytes) : token * bytes := (low (fst x), lowers (snd x)).

Ltac lowc := unfold lower, is_alnum, is_alpha, is_lower, is_digit, is_space, is_punct, is_upper;
  match goal with |- context [if ?b then _ else _] => destruct b eqn:? end; try reflexivity; lia.

Lemma lower_digit c : is_digit (lower c) = is_digit c. Proof. lowc. Qed.
Lemma lower_alpha c : is_alpha (lower c) = is_alpha c. Proof. lowc. Qed.
Lemma lower_alnum c : is_alnum (lower c) = is_alnum c. Proof. lowc. Qed.
Lemma lower_space c : is_space (lower c) = is_space c. Proof. lowc. Qed.
Lemma lower_punct c : is_punct (lower c) = is_punct c. Proof. lowc. Qed.
Lemma lower_not c k : is_alpha k = false -> (lower c =? k) = (c =? k).
Proof. unfold is_alpha, is_lower, is_upper. intros K. unfold lower, is_upper. destruct ((65 <=? c) && (c <=? 90)) eqn:?; [lia|reflexivity]. Qed.
Lemma lower_keep c : is_alpha c = false -> lower c = c.
Proof. unfold is_alpha, lower. destruct (is_upper c); [discriminate|reflexivity]. Qed.
Lemma lower_lower c : lower (lower c) = lower c.
Proof. unfold lower at 2 3. destruct (is_upper c) eqn:E; unfold lower, is_upper in *; [|now rewrite E]. now replace ((65 <=? c + 32) && (c + 32 <=? 90)) with false by lia. Qed.
Lemma lowers_lowers s : lowers (lowers s) = lowers s.
Proof. unfold lowers. rewrite map_map. apply map_ext. exact lower_lower. Qed.
Lemma lowers_app a b : lowers (a ++ b) = lowers a ++ lowers b. Proof. apply map_app. Qed.
Lemma lowers_cons c s : lowers (c :: s) = lower c :: lowers s. Proof. reflexivity. Qed.
Lemma lowers_nil : lowers [] = []. Proof. reflexivity. Qed.
Lemma lowers_len s : blen (lowers s) = blen s. Proof. unfold blen, lowers. now rewrite map_length. Qed.

Lemma eat_lowers f s : (forall c, f (lower c) = f c) ->
  eat f (lowers s) = (lowers (fst (eat f s)), lowers (snd (eat f s))).
Proof.
  intros F. induction s as [|c s IH]; [reflexivity|]. rewrite lowers_cons. cbn [eat]. rewrite F. destruct (f c); [|reflexivity].
  rewrite IH. destruct (eat f s) as [a b]. reflexivity.
Qed.

Lemma eat_ws_lowers s : eat_whitespaces (lowers s) = lowers (eat_whitespaces s).
Proof. unfold eat_whitespaces. rewrite eat_lowers by exact lower_space. reflexivity. Qed.

Lemma digits_lower s : forallb is_digit s = true -> lowers s = s.
Proof.
  induction s as [|c s IH]; [reflexivity|]. cbn [forallb]; rewrite lowers_cons. intros H. apply andb_true_iff in H as [D H].
  rewrite IH by exact H. f_equal. apply lower_keep. unfold is_digit, is_alpha, is_upper, is_lower in *. lia.
Qed.

Ltac cls := intros; rewrite ?lower_digit, ?lower_alpha, ?lower_alnum, ?lower_space, ?lower_punct, ?lower_not by reflexivity; reflexivity.

Lemma digit_delim_lowers d s : is_alpha d = false ->
  digit_delim_begin d (lowers s) =
  let '(ty, f, r) := digit_delim_begin d s in (ty, lowers f, lowers r).
Proof.
  intros Hd. pose proof (lower_keep d Hd) as Ld. unfold digit_delim_begin. destruct s as [|c s]; rewrite ?lowers_cons, ?lowers_nil; [now rewrite Ld|].
  rewrite lower_digit. destruct (is_digit c).
  - unfold eat_digits. change (lower c :: lowers s) with (lowers (c :: s)). rewrite eat_lowers by exact lower_digit.
    destruct (eat is_digit (c :: s)) as [f1 s1]. cbn [fst snd]. destruct s1 as [|c1 s1]; rewrite ?lowers_cons, ?lowers_nil; [now rewrite Ld|].
    rewrite lower_not by exact Hd. destruct (c1 =? d).
    + change (lower c1 :: lowers s1) with (lowers (c1 :: s1)).
      rewrite eat_lowers by (intros z; rewrite lower_digit, (lower_not _ _ Hd); reflexivity).
      destruct (eat _ (c1 :: s1)) as [f2 s2]. cbn [fst snd]; rewrite ?lowers_cons, ?lowers_nil.
      now rewrite lowers_app, Ld.
    + now rewrite !lowers_cons, Ld.
  - change (lower c :: lowers s) with (lowers (c :: s)).
    rewrite eat_lowers by (intros z; rewrite lower_alnum, (lower_not _ _ Hd); reflexivity).
    destruct (eat _ (c :: s)) as [f1 s1]. cbn [fst snd]; rewrite ?lowers_cons, ?lowers_nil. now rewrite Ld.
Qed.

Lemma digit_begin_lowers s : digit_begin (lowers s) = lowr (digit_begin s).
Proof.
  unfold digit_begin, eat_digits. rewrite eat_lowers by exact lower_digit. destruct (eat is_digit s) as [f0 s1]. cbn [fst snd].
  destruct s1 as [|c r]; rewrite ?lowers_cons, ?lowers_nil; [reflexivity|].
  rewrite !lower_not by reflexivity. destruct (c =? 58) eqn:E58.
  - change (lower c :: lowers r) with (lowers (c :: r)). rewrite eat_lowers by cls.
    destruct (eat _ (c :: r)) as [f1 s2]. cbn [fst snd]. unfold lowr, low. cbn [fst snd]. now rewrite lowers_app.
  - destruct ((c =? 45) || (c =? 47) || (c =? 46)) eqn:D.
    + assert (is_alpha c = false) as Hc by (unfold is_alpha, is_upper, is_lower; lia).
      rewrite (lower_keep c Hc), digit_delim_lowers by exact Hc.
      destruct (digit_delim_begin c r) as [[ty f1] s2]. unfold lowr, low. cbn [fst snd]. now rewrite lowers_app.
    + reflexivity.
Qed.

Lemma dot_begin_lowers s : dot_begin (lowers s) = lowr (dot_begin s).
Proof.
  unfold dot_begin, eat_digits. rewrite eat_lowers by exact lower_digit. destruct (eat is_digit s) as [f r]. reflexivity.
Qed.

Lemma date_word_lower c : date_word_char (lower c) = date_word_char c.
Proof. unfold date_word_char. cls. Qed.

Lemma alpha_begin_lowers s : alpha_begin (lowers s) = let* x := alpha_begin s in Ok (lowr x).
Proof.
  unfold alpha_begin, eat_alphabetics. rewrite eat_lowers by exact lower_alpha. destruct (eat is_alpha s) as [f s1]. cbn [fst snd].
  rewrite lowers_lowers.
  assert (match lowers s1 with
    | c :: _ => if (c =? 45) || (c =? 47) || (c =? 46) then Ok true
                else if (c =? 43) || is_digit c then
                  let* t := search_date_token (lowers f) in Ok (match t with None => true | Some _ => false end)
                else Ok false
    | [] => Ok false end =
    match s1 with
    | c :: _ => if (c =? 45) || (c =? 47) || (c =? 46) then Ok true
                else if (c =? 43) || is_digit c then
                  let* t := search_date_token (lowers f) in Ok (match t with None => true | Some _ => false end)
                else Ok false
    | [] => Ok false end) as ->.
  { destruct s1 as [|c r]; [reflexivity|]. rewrite ?lowers_cons, ?lowers_nil. now rewrite lower_digit, !lower_not by reflexivity. }
  destruct (match s1 with [] => _ | _ => _ end) as [b|e|x]; cbn [bind]; try reflexivity. destruct b.
  - rewrite eat_lowers by exact date_word_lower. destruct (eat date_word_char s1) as [f1 s2]. cbn [fst snd bind].
    unfold lowr, low. cbn [fst snd]. now rewrite lowers_app, lowers_lowers.
  - cbn [bind]. unfold lowr, low. cbn [fst snd]. now rewrite lowers_lowers.
Qed.

Lemma sign_begin_lowers sg s : is_alpha sg = false -> sign_begin sg (lowers s) = let* x := sign_begin sg s in Ok (lowr x).
Proof.
  intros Hs. pose proof (lower_keep sg Hs) as Ls. unfold sign_begin. rewrite eat_ws_lowers. destruct (eat_whitespaces s) as [|c r]; rewrite ?lowers_cons, ?lowers_nil.
  { cbn [bind]. unfold lowr, low. cbn [fst snd]; rewrite ?lowers_cons, ?lowers_nil. now rewrite Ls. }
  rewrite lower_digit, lower_alpha. change (lower c :: lowers r) with (lowers (c :: r)). destruct (is_digit c).
  - rewrite eat_lowers by cls. destruct (eat _ (c :: r)) as [f s1]. cbn [fst snd bind]. unfold lowr, low. cbn [fst snd]; rewrite ?lowers_cons, ?lowers_nil.
    now rewrite Ls.
  - destruct (is_alpha c); [|reflexivity]. unfold eat_alphabetics. rewrite eat_lowers by exact lower_alpha.
    destruct (eat is_alpha (c :: r)) as [f s1]. cbn [fst snd bind]. unfold lowr, low. cbn [fst snd]; rewrite ?lowers_cons, ?lowers_nil.
    now rewrite Ls.
Qed.

Lemma use_buf_lowers room t : use_buf room (lowers t) = use_buf room t.
Proof. unfold use_buf. now rewrite lowers_len. Qed.

Lemma tokenize_lowers fuel : forall n room s,
  tokenize fuel n room (lowers s) = let* ts := tokenize fuel n room s in Ok (List.map low ts).
Proof.
  induction fuel as [|fuel IH]; intros n room s; [reflexivity|]. cbn [tokenize]. rewrite eat_ws_lowers.
  destruct (eat_whitespaces s) as [|c r]; [reflexivity|]. rewrite ?lowers_cons, ?lowers_nil.
  destruct (MAX_DATE_FIELDS <=? n); [reflexivity|]. cbv zeta.
  assert (forall x, (let '(t, rest) := lowr x in
      let* room' := use_buf room (snd t) in let* ts := tokenize fuel (n + 1) room' rest in Ok (t :: ts)) =
    let* ts := (let '(t, rest) := x in
      let* room' := use_buf room (snd t) in let* ts := tokenize fuel (n + 1) room' rest in Ok (t :: ts)) in Ok (List.map low ts)) as Add.
  { intros [t rest]. unfold lowr. cbn [fst snd low]. rewrite use_buf_lowers. destruct (use_buf room (snd t)); cbn [bind]; try reflexivity.
    rewrite IH. destruct (tokenize fuel (n + 1) a rest); reflexivity. }
  rewrite lower_digit, lower_alpha, lower_punct, !lower_not by reflexivity.
  change (lower c :: lowers r) with (lowers (c :: r)). destruct (is_digit c); [rewrite digit_begin_lowers; apply Add|].
  destruct (c =? 46); [rewrite dot_begin_lowers; apply Add|]. destruct (is_alpha c) eqn:Ha.
  { rewrite alpha_begin_lowers. destruct (alpha_begin (c :: r)) as [x|e|x]; cbn [bind]; try reflexivity. apply Add. }
  rewrite (lower_keep c Ha). destruct ((c =? 43) || (c =? 45)).
  { destruct (use_buf room [c]) as [x|e|x]; cbn [bind]; try reflexivity. rewrite sign_begin_lowers by exact Ha.
    destruct (sign_begin c r) as [y|e|y]; cbn [bind]; try reflexivity. apply Add. }
  destruct (is_punct c); [|reflexivity].
  rewrite eat_lowers by exact lower_punct. cbn [snd]. apply IH.
Qed.

Lemma parse_lowers s : parse_date_time (lowers s) = let* ts := parse_date_time s in Ok (List.map low ts).
Proof.
  unfold parse_date_time. destruct s as [|c s]; [reflexivity|]. rewrite ?lowers_cons, ?lowers_nil.
  change (lower c :: lowers s) with (lowers (c :: s)). rewrite tokenize_lowers. unfold lowers at 1. now rewrite map_length.
Qed.

(** ** Which fields are in lower case already *)
Definition folded (t : token) : Prop := lowers (snd t) = snd t.

Lemma keep_eat f s : (forall c, f c = true -> lower c = c) -> lowers (fst (eat f s)) = fst (eat f s).
Proof.
  intros F. induction s as [|c s IH]; [reflexivity|]. cbn [eat]. destruct (f c) eqn:E; [|reflexivity].
  destruct (eat f s) as [a b]. cbn [fst] in *. now rewrite lowers_cons, IH, (F c E).
Qed.

Ltac keeps := intros z Hz; apply lower_keep; unfold is_alpha, is_upper, is_lower, is_digit in *; lia.

Lemma digit_delim_folded d s : is_alpha d = false -> lowers (snd (fst (digit_delim_begin d s))) = snd (fst (digit_delim_begin d s)).
Proof.
  intros Hd. pose proof (lower_keep d Hd) as Ld. unfold digit_delim_begin.
  destruct s as [|c s]; [cbn [fst snd]; now rewrite lowers_cons, Ld|]. destruct (is_digit c).
  - unfold eat_digits. pose proof (keep_eat is_digit (c :: s) ltac:(keeps)) as K1. destruct (eat is_digit (c :: s)) as [f1 s1].
    cbn [fst snd] in K1. destruct s1 as [|c1 s1]; [cbn [fst snd]; now rewrite lowers_cons, Ld, K1|]. destruct (c1 =? d).
    + pose proof (keep_eat (fun i => (i =? d) || is_digit i) (c1 :: s1)) as K2. destruct (eat _ (c1 :: s1)) as [f2 s2]. cbn [fst snd] in *.
      rewrite lowers_cons, lowers_app, Ld, K1, K2; [reflexivity|]. keeps.
    + cbn [fst snd]. now rewrite lowers_cons, Ld, K1.
  - destruct (eat _ (c :: s)) as [f1 s1]. cbn [fst snd]. now rewrite lowers_cons, lowers_lowers, Ld.
Qed.

Lemma digit_begin_folded s : folded (fst (digit_begin s)).
Proof.
  unfold digit_begin, eat_digits, folded. pose proof (keep_eat is_digit s ltac:(keeps)) as K0. destruct (eat is_digit s) as [f0 s1]. cbn [fst] in K0.
  destruct s1 as [|c r]; [exact K0|]. destruct (c =? 58).
  - pose proof (keep_eat (fun i => is_digit i || (i =? 58) || (i =? 46)) (c :: r) ltac:(keeps)) as K1.
    destruct (eat _ (c :: r)) as [f1 s2]. cbn [fst snd] in *. now rewrite lowers_app, K0, K1.
  - destruct ((c =? 45) || (c =? 47) || (c =? 46)) eqn:D; [|exact K0].
    pose proof (digit_delim_folded c r) as K1. destruct (digit_delim_begin c r) as [[ty f1] s2]. cbn [fst snd] in *.
    rewrite lowers_app, K0, K1; [reflexivity|]. unfold is_alpha, is_upper, is_lower. lia.
Qed.

Lemma dot_begin_folded s : folded (fst (dot_begin s)).
Proof.
  unfold dot_begin, eat_digits, folded. pose proof (keep_eat is_digit s ltac:(keeps)) as K. destruct (eat is_digit s) as [f r].
  cbn [fst snd] in *. now rewrite lowers_cons, K.
Qed.

Lemma sign_begin_folded sg s x : is_alpha sg = false -> sign_begin sg s = Ok x -> folded (fst x).
Proof.
  intros Hs. pose proof (lower_keep sg Hs) as Ls. unfold sign_begin, folded. destruct (eat_whitespaces s) as [|c r].
  { intros E. injection E as <-. cbn [fst snd]. now rewrite lowers_cons, Ls. }
  destruct (is_digit c).
  - pose proof (keep_eat (fun i => is_digit i || (i =? 58) || (i =? 46) || (i =? 45)) (c :: r) ltac:(keeps)) as K.
    destruct (eat _ (c :: r)) as [f s1]. intros E. injection E as <-. cbn [fst snd] in *. now rewrite lowers_cons, Ls, K.
  - destruct (is_alpha c); [|discriminate]. destruct (eat_alphabetics (c :: r)) as [f s1]. intros E. injection E as <-.
    cbn [fst snd]. now rewrite lowers_cons, Ls, lowers_lowers.
Qed.

Lemma capital_in f : lowers f <> f -> exists p u b, f = p ++ u :: b /\ is_upper u = true.
Proof.
  induction f as [|c f IH]; [easy|]. rewrite lowers_cons. intros N. destruct (is_upper c) eqn:U.
  - now exists [], c, f.
  - destruct IH as (p & u & b & -> & Hu).
    + intros Q. apply N. rewrite Q. unfold lower. now rewrite U.
    + now exists (c :: p), u, b.
Qed.

Lemma word_byte_iff c : date_word_char c = true <-> word_byte c.
Proof. unfold date_word_char, word_byte, is_alnum, is_alpha, is_upper, is_lower, is_digit, letter, digit. lia. Qed.

Lemma alpha_begin_folded c r x : is_alpha c = true -> alpha_begin (c :: r) = Ok x -> folded (fst x) \/ late_capital (c :: r).
Proof.
  intros Hc. unfold alpha_begin, eat_alphabetics. pose proof (eat_split is_alpha (c :: r)) as S.
  cbn [eat] in *. rewrite Hc in *. destruct (eat is_alpha r) as [g s1]. destruct S as (E & F & St). rewrite E.
  intros H. apply bind_inv in H as (b & Hb & H). destruct b.
  - pose proof (eat_split date_word_char s1) as S. destruct (eat date_word_char s1) as [f1 s2]. destruct S as (-> & F1 & _).
    injection H as <-. unfold folded. cbn [fst snd]. rewrite lowers_cons, lower_lower, lowers_app, lowers_lowers.
    destruct (list_eq_dec Z.eq_dec (lowers f1) f1) as [Q|N]; [left; now rewrite Q|right].
    apply capital_in in N as (p & u & q & -> & U).
    destruct p as [|y p].
    { exfalso. cbn [app] in St. cbn in St. unfold is_alpha in St. rewrite U in St. discriminate. }
    cbn [app] in Hb.
    destruct (@exists_last _ (c :: g)) as (a & l & El); [discriminate|]. rewrite El.
    exists a, l, y, p, u, (q ++ s2). split; [rewrite <- app_assoc; cbn [app]; now rewrite <- app_assoc|].
    rewrite El, forallb_app in F. cbn [forallb] in F. rewrite !andb_true_iff in F. destruct F as (_ & Fl & _).
    split; [unfold letter, is_alpha, is_upper, is_lower in *; lia|]. split; [|split].
    + destruct ((y =? 45) || (y =? 47) || (y =? 46)) eqn:Y; [lia|]. destruct ((y =? 43) || is_digit y) eqn:Y2; [|discriminate].
      unfold is_digit, digit in *. lia.
    + rewrite forallb_app in F1. apply andb_true_iff in F1 as [F1 _]. cbn [forallb] in F1. apply andb_true_iff in F1 as [_ F1].
      apply Forall_forall. intros z Hz. apply word_byte_iff. revert z Hz. now apply forallb_forall.
    + unfold is_upper in U. lia.
  - injection H as <-. left. unfold folded. cbn [fst snd]. exact (lowers_lowers (c :: g)).
Qed.

Lemma late_suffix a s : late_capital s -> late_capital (a ++ s).
Proof.
  intros (x1 & l & x & p & u & b & -> & R). exists (a ++ x1), l, x, p, u, b. split; [now rewrite <- app_assoc|exact R].
Qed.

Lemma tokenize_folded fuel : forall n room s ts, tokenize fuel n room s = Ok ts -> Forall folded ts \/ late_capital s.
Proof.
  induction fuel as [|fuel IH]; intros n room s ts; cbn [tokenize]; [discriminate|].
  destruct (LexP.ws_split s) as (w & E & _). destruct (eat_whitespaces s) as [|c r].
  { intros Q. injection Q as <-. left. constructor. }
  destruct (MAX_DATE_FIELDS <=? n); [discriminate|]. cbv zeta.
  assert (late_capital (c :: r) -> late_capital s) as Up by (rewrite E; apply late_suffix).
  assert (forall t rest, LexP.took (c :: r) t rest -> folded t \/ late_capital (c :: r) ->
    (let* room' := use_buf room (snd t) in let* us := tokenize fuel (n + 1) room' rest in Ok (t :: us)) = Ok ts ->
    Forall folded ts \/ late_capital s) as Add.
  { intros t rest T Ft H. apply bind_inv in H as (room' & _ & H). apply bind_inv in H as (us & H & Q). injection Q as <-.
    apply LexP.took_sig in T as (used & Eu & _). apply IH in H as [H|H].
    - destruct Ft as [Ft|Ft]; [left; now constructor|right; auto].
    - right. apply Up. rewrite Eu. now apply late_suffix. }
  destruct (is_digit c) eqn:D.
  { destruct (digit_begin (c :: r)) as [t rest] eqn:Q. apply Add; [now apply LexP.digit_took|]. left.
    pose proof (digit_begin_folded (c :: r)) as K. now rewrite Q in K. }
  destruct (Z.eqb_spec c 46) as [->|].
  { destruct (dot_begin r) as [t rest] eqn:Q. apply Add; [now apply LexP.dot_took|]. left.
    pose proof (dot_begin_folded r) as K. now rewrite Q in K. }
  destruct (is_alpha c) eqn:Ha.
  { destruct (LexP.alpha_took c r Ha) as (t & rest & Q & T). rewrite Q. cbn [bind]. apply Add; [exact T|].
    exact (alpha_begin_folded c r (t, rest) Ha Q). }
  destruct ((c =? 43) || (c =? 45)) eqn:Sg.
  { intros H. apply bind_inv in H as (room' & _ & H). apply bind_inv in H as ([t rest] & Q & H).
    destruct (LexP.sign_took c r Sg) as [(t' & rest' & Q' & T)|Q']; rewrite Q in Q'; [|discriminate].
    injection Q' as <- <-. apply (Add t rest T); [|exact H]. left. exact (sign_begin_folded c r (t, rest) Ha Q). }
  destruct (is_punct c); [|discriminate]. intros H. apply IH in H as [H|H]; [now left|right]. apply Up.
  pose proof (eat_split is_punct (c :: r)) as S. destruct (eat is_punct (c :: r)) as [a b]. destruct S as (-> & _). now apply late_suffix.
Qed.

Lemma parse_folded s ts : parse_date_time s = Ok ts -> Forall folded ts \/ late_capital s.
Proof. unfold parse_date_time. destruct s; [discriminate|]. apply tokenize_folded. Qed.

Lemma parse_case s : (forall ts, parse_date_time s = Ok ts -> Forall folded ts) -> parse_date_time (lowers s) = parse_date_time s.
Proof.
  intros H. rewrite parse_lowers. destruct (parse_date_time s) as [ts|e|x]; cbn [bind]; try reflexivity. f_equal.
  specialize (H ts eq_refl). induction H as [|[k f] ts Ht _ IH]; [reflexivity|]. cbn [List.map]. rewrite IH.
  unfold low, folded in *. cbn [fst snd] in *. now rewrite Ht.
Qed.

Lemma parse_same_case s1 s2 : ~ late_capital s1 -> ~ late_capital s2 -> lowers s1 = lowers s2 ->
  parse_date_time s1 = parse_date_time s2.
Proof.
  intros H1 H2 E. rewrite <- (parse_case s1), <- (parse_case s2), E; [reflexivity|..];
    intros ts H; apply parse_folded in H as [H|H]; easy.
Qed.
