(** Splitting a text into fields at white space: what comes before does not depend on what comes after. *)
From Coq Require Import String.
From Verif Require Import Model.Parse Spec.Text Spec.Lexing Proofs.Arith Proofs.DigitsP Proofs.LexP Proofs.FieldsP Proofs.SpaceP.
From Coq Require Import List ZArith Bool Lia.
Import ListNotations.
Open Scope Z_scope.

Definition typed (ts : list token) : Prop := Forall (fun t => fst t <> None) ts.
Definition used (ts : list token) : Z := fold_right (fun (t : token) n => blen (snd t) + n) 0 ts.
Definition count (ts : list token) : Z := Z.of_nat (length ts).

Section Cut.
Variables (w : Z) (b : bytes).
Hypothesis W : is_space w = true.
Definition ext (s s' : bytes) : Prop := exists q, s = q ++ [w] /\ s' = q ++ w :: b.

Lemma ext_head s s' : ext s s' -> exists c r r', s = c :: r /\ s' = c :: r' /\ (ext r r' \/ (c = w /\ r = [] /\ r' = b)).
Proof.
  intros (q & -> & ->). destruct q as [|c q]; [exists w, [], b; repeat split; right; repeat split|]. exists c, (q ++ [w]), (q ++ w :: b). split; [reflexivity|]. split; [reflexivity|]. left. exists q. auto.
Qed.
Lemma ext_solid c r r' : ext (c :: r) (c :: r') -> is_space c = false -> ext r r'.
Proof.
  intros (q & E & E') C. destruct q as [|x q]; cbn in E, E'.
  - injection E as -> _. congruence.
  - injection E as <- ->. injection E' as ->. exists q. auto.
Qed.

Lemma ext_eat f s s' : f w = false -> ext s s' -> fst (eat f s) = fst (eat f s') /\ ext (snd (eat f s)) (snd (eat f s')).
Proof.
  intros F (q & -> & ->). induction q as [|c q IH]; cbn [app eat].
  - rewrite F. cbn [fst snd]. split; [reflexivity|]. exists []. auto.
  - destruct (f c).
    + destruct IH as [I1 I2]. destruct (eat f (q ++ [w])) as [x y], (eat f (q ++ w :: b)) as [x' y']. cbn [fst snd] in *. subst x'. auto.
    + cbn [fst snd]. split; [reflexivity|]. exists (c :: q). auto.
Qed.

Ltac nosp := unfold date_word_char, is_space, is_alnum, is_alpha, is_upper, is_lower, is_digit, is_punct in *; lia.
Ltac ate R f s s' H :=
  let E := fresh "Ea" in
  assert (fst (eat f s) = fst (eat f s') /\ ext (snd (eat f s)) (snd (eat f s'))) as [E H]
    by (apply ext_eat; [nosp|exact R]);
  destruct (eat f s) as [? ?], (eat f s') as [? ?]; cbn [fst snd] in *; subst.

Definition extr (x y : token * bytes) : Prop := fst x = fst y /\ ext (snd x) (snd y).

Lemma ext_delim d s s' : is_space d = false -> ext s s' ->
  fst (digit_delim_begin d s) = fst (digit_delim_begin d s') /\ ext (snd (digit_delim_begin d s)) (snd (digit_delim_begin d s')).
Proof.
  intros Sd R. assert (w <> d) as Nd by congruence.
  destruct (ext_head s s' R) as (c & r & r' & -> & -> & _). unfold digit_delim_begin. destruct (is_digit c).
  - unfold eat_digits. ate R is_digit (c :: r) (c :: r') R1. destruct (ext_head _ _ R1) as (c1 & q & q' & -> & -> & _).
    destruct (c1 =? d); [|cbn [fst snd]; auto].
    ate R1 (fun i => (i =? d) || is_digit i) (c1 :: q) (c1 :: q') R2. auto.
  - ate R (fun i => (i =? d) || is_alnum i) (c :: r) (c :: r') R2. auto.
Qed.

Lemma ext_digit s s' : ext s s' -> extr (digit_begin s) (digit_begin s').
Proof.
  intros R. unfold digit_begin, eat_digits. ate R is_digit s s' R1.
  destruct (ext_head _ _ R1) as (c & r & r' & -> & -> & _). destruct (c =? 58).
  - ate R1 (fun i => is_digit i || (i =? 58) || (i =? 46)) (c :: r) (c :: r') R2. now split.
  - destruct ((c =? 45) || (c =? 47) || (c =? 46)) eqn:Dl; [|now split].
    destruct (ext_delim c r r') as [E R2]; [nosp|apply (ext_solid c); [exact R1|nosp]|].
    destruct (digit_delim_begin c r) as [[ty f1] s2], (digit_delim_begin c r') as [[ty' f1'] s2']. cbn [fst snd] in *.
    injection E as <- <-. now split.
Qed.

Lemma ext_dot s s' : ext s s' -> extr (dot_begin s) (dot_begin s').
Proof. intros R. unfold dot_begin, eat_digits. ate R is_digit s s' R1. now split. Qed.

Definition same_ext (x y : res (token * bytes)) : Prop :=
  match x, y with
  | Ok a, Ok b => extr a b
  | Err e, Err e' => e = e'
  | Fault f, Fault f' => f = f'
  | _, _ => False
  end.

Lemma ext_alpha s s' : ext s s' -> same_ext (alpha_begin s) (alpha_begin s').
Proof.
  intros R. unfold alpha_begin, eat_alphabetics. ate R is_alpha s s' R1.
  destruct (ext_head _ _ R1) as (c & r & r' & -> & -> & _).
  match goal with |- same_ext (bind ?k _) _ => destruct k as [is|e|x] end; cbn [bind]; [|reflexivity..]. destruct is; [|now split].
  ate R1 date_word_char (c :: r) (c :: r') R2. now split.
Qed.

Lemma ext_strip s s' : ext s s' -> (eat_whitespaces s = [] /\ eat_whitespaces s' = eat_whitespaces b) \/ ext (eat_whitespaces s) (eat_whitespaces s').
Proof.
  intros (q & -> & ->). induction q as [|c q IH]; cbn [app].
  - left. change [w] with ([w] ++ []). change (w :: b) with ([w] ++ b). rewrite !eat_ws_app by (cbn; now rewrite W). auto.
  - destruct (is_space c) eqn:C.
    + change (c :: q ++ [w]) with ([c] ++ (q ++ [w])). change (c :: q ++ w :: b) with ([c] ++ (q ++ w :: b)).
      rewrite (eat_ws_app [c] (q ++ [w])), (eat_ws_app [c] (q ++ w :: b)) by (cbn; now rewrite C). exact IH.
    + rewrite !eat_ws_cons by exact C. right. exists (c :: q). auto.
Qed.

(** A sign with nothing after it gives a field without a type; otherwise the fields agree. *)
Lemma ext_sign sg s s' : ext s s' -> sign_begin sg s = Ok ((None, [sg]), []) \/ same_ext (sign_begin sg s) (sign_begin sg s').
Proof.
  intros R. apply ext_strip in R as [[R _]|R]; unfold sign_begin; [rewrite R; now left|]. right.
  destruct (ext_head _ _ R) as (c & r & r' & E & E' & _). rewrite E, E' in *. destruct (is_digit c).
  - ate R (fun i => is_digit i || (i =? 58) || (i =? 46) || (i =? 45)) (c :: r) (c :: r') R2. now split.
  - destruct (is_alpha c); [|reflexivity]. unfold eat_alphabetics. ate R is_alpha (c :: r) (c :: r') R2. now split.
Qed.

Lemma tokenize_fuel fuel fuel' n room s : (length s < fuel)%nat -> (length s < fuel')%nat -> tokenize fuel n room s = tokenize fuel' n room s.
Proof. intros L L'. apply sim_tokenize; [exact L|exact L'|apply sim_refl]. Qed.

Definition cut_spec (s s' : bytes) (n room : Z) (x y : res (list token)) : Prop :=
  match x with
  | Ok ts => (typed ts -> y = let* r := tokenize (S (length b)) (n + count ts) (room - used ts) b in Ok (ts ++ r))
      /\ (~ typed ts -> match eat_whitespaces b with c :: _ => is_digit c || is_alpha c = false | [] => False end -> y = Err EInvalid)
  | Err e => y = Err e
  | Fault f => y = Fault f
  end.

Lemma cut_tokenize fuel : forall fuel' n room s s', (length s < fuel)%nat -> (length s' < fuel')%nat -> ext s s' ->
  cut_spec s s' n room (tokenize fuel n room s) (tokenize fuel' n room s').
Proof.
  induction fuel as [|fuel IH]; intros [|fuel'] n room s s' L L' R; try lia. cbn [tokenize].
  assert (length (eat_whitespaces s) <= length s)%nat as Lw by apply sim_len_tail.
  assert (length (eat_whitespaces s') <= length s')%nat as Lw' by apply sim_len_tail.
  destruct (ext_strip s s' R) as [[E E']|R1].
  { rewrite E. cbn [cut_spec]. split; [|intros N; destruct N; constructor]. intros _. unfold count, used. cbn [length fold_right Z.of_nat]. rewrite Z.add_0_r, Z.sub_0_r.
    assert (length b < length s')%nat as Lb by (destruct R as (q & _ & ->); rewrite app_length; cbn; lia).
    rewrite (tokenize_fuel (S (length b)) (S fuel')) by lia. cbn [tokenize]. rewrite E'.
    match goal with |- ?x = bind ?y _ => change x with y; destruct y; reflexivity end. }
  destruct (ext_head _ _ R1) as (c & r & r' & E & E' & Rr). rewrite E, E' in *. cbn [length] in *.
  assert (is_space c = false) as Sc.
  { pose proof (eat_split is_space s) as K. unfold eat_whitespaces in E. destruct (eat is_space s) as [p0 q0]. cbn in E. subst q0. apply K. }
  assert (ext r r') as Rt by now apply (ext_solid c).
  destruct (MAX_DATE_FIELDS <=? n); [reflexivity|]. cbv zeta.
  assert (forall t rest rest', took (c :: r) t rest -> took (c :: r') t rest' -> ext rest rest' ->
    cut_spec s s' n room (let* room' := use_buf room (snd t) in let* ts := tokenize fuel (n + 1) room' rest in Ok (t :: ts))
      (let* room' := use_buf room (snd t) in let* ts := tokenize fuel' (n + 1) room' rest' in Ok (t :: ts))) as Add.
  { intros t rest rest' K K' Re. unfold use_buf. destruct (blen (snd t) <=? room); cbn [bind]; [|reflexivity].
    pose proof K as K0. apply took_sig in K as (u & Eu & Nu & _). apply took_sig in K' as (u' & Eu' & Nu' & _).
    assert (length (c :: r) = length u + length rest)%nat as Q by (rewrite Eu; apply app_length).
    assert (length (c :: r') = length u' + length rest')%nat as Q' by (rewrite Eu'; apply app_length). cbn [length] in Q, Q'.
    assert (0 < length u)%nat by (destruct u; [easy|cbn; lia]). assert (0 < length u')%nat by (destruct u'; [easy|cbn; lia]).
    assert (length rest < fuel)%nat as L1 by lia. assert (length rest' < fuel')%nat as L2 by lia.
    specialize (IH fuel' (n + 1) (room - blen (snd t)) rest rest' L1 L2 Re).
    destruct (tokenize fuel (n + 1) (room - blen (snd t)) rest) as [ts|e|x]; cbn [bind cut_spec] in *.
    - destruct IH as [I1 I2]. split.
      + intros Ty. inversion Ty; subst. rewrite I1 by assumption. unfold count, used. cbn [length fold_right].
        replace (n + Z.of_nat (S (length ts))) with (n + 1 + Z.of_nat (length ts)) by lia.
        rewrite Z.sub_add_distr. destruct (tokenize _ _ _ b); reflexivity.
      + intros Nt Hb. rewrite I2; [reflexivity| |exact Hb]. intros Ty. apply Nt. constructor; [|exact Ty].
        intros Ft. destruct K0 as (p1 & p2 & p3 & _ & _ & _ & _ & _ & _ & _ & K0). destruct (K0 Ft) as [_ ->]. destruct Re as (q & Q0 & _). now destruct q.
    - now rewrite IH.
    - now rewrite IH. }
  destruct (is_digit c) eqn:Dc.
  { pose proof (ext_digit _ _ R1) as [E1 R2]. destruct (digit_begin (c :: r)) as [t rest] eqn:Q, (digit_begin (c :: r')) as [t' rest'] eqn:Q'.
    cbn [fst snd] in *. subst t'. apply Add; [now apply digit_took|now apply digit_took|exact R2]. }
  destruct (Z.eqb_spec c 46) as [->|].
  { pose proof (ext_dot _ _ Rt) as [E1 R2]. destruct (dot_begin r) as [t rest] eqn:Q, (dot_begin r') as [t' rest'] eqn:Q'.
    cbn [fst snd] in *. subst t'. apply Add; [now apply dot_took|now apply dot_took|exact R2]. }
  destruct (is_alpha c) eqn:Ha.
  { pose proof (ext_alpha _ _ R1) as S. destruct (alpha_took c r Ha) as (t & rest & Q & K). destruct (alpha_took c r' Ha) as (t' & rest' & Q' & K').
    rewrite Q, Q' in *. destruct S as [E1 R2]. cbn [bind fst snd] in *. subst t'. now apply Add. }
  destruct ((c =? 43) || (c =? 45)) eqn:Sg.
  { unfold use_buf at 1 3. destruct (blen [c] <=? room) eqn:Bc; cbn [bind]; [|reflexivity]. destruct (ext_sign c _ _ Rt) as [S|S].
    - rewrite S. cbn [bind snd]. unfold use_buf at 1. rewrite Bc. cbn [bind].
      destruct fuel; [lia|]. cbn [tokenize]. change (eat_whitespaces []) with (@nil Z). cbn [bind cut_spec]. split; [intros Ty; inversion Ty; subst; easy|].
      intros _ Hb. unfold sign_begin in S |- *.
      destruct (ext_strip r r' Rt) as [[Q Q']|Q].
      + rewrite Q'. destruct (eat_whitespaces b) as [|x y]; [easy|]. apply orb_false_iff in Hb as [-> ->]. reflexivity.
      + destruct (ext_head _ _ Q) as (x & y & y' & Q1 & Q2 & _). rewrite Q1 in S. destruct (is_digit x); [|destruct (is_alpha x)].
        * now destruct (eat _ (x :: y)).
        * now destruct (eat_alphabetics (x :: y)).
        * discriminate.
    - destruct (sign_took c r Sg) as [(t & rest & Q & K)|Q], (sign_took c r' Sg) as [(t' & rest' & Q' & K')|Q']; rewrite Q, Q' in *; cbn [bind]; try easy.
      destruct S as [E1 R2]. cbn [fst snd] in *. subst t'. now apply Add. }
  destruct (is_punct c) eqn:P; [|reflexivity].
  pose proof (sim_len_tail is_punct r). pose proof (sim_len_tail is_punct r').
  assert (fst (eat is_punct (c :: r)) = fst (eat is_punct (c :: r')) /\ ext (snd (eat is_punct (c :: r))) (snd (eat is_punct (c :: r')))) as [_ R2]
    by (apply ext_eat; [nosp|exact R1]).
  apply IH; [..|exact R2]; cbn [eat]; rewrite P; destruct (eat is_punct r), (eat is_punct r'); cbn [snd] in *; lia.
Qed.
End Cut.

(** The fields of [a], white space [w] and [b] *)
Lemma parse_cut a w b ts : is_space w = true -> parse_date_time (a ++ [w]) = Ok ts -> typed ts ->
  parse_date_time (a ++ w :: b) = let* r := tokenize (S (length b)) (count ts) (128 - used ts) b in Ok (ts ++ r).
Proof.
  intros W P Ty. unfold parse_date_time in *. destruct (a ++ [w]) as [|c r] eqn:E; [now destruct a|]. rewrite <- E in *.
  destruct (a ++ w :: b) as [|c' r'] eqn:E'; [now destruct a|]. rewrite <- E' in *. unfold MAX_DATE_LEN in *.
  pose proof (cut_tokenize w b W (S (length (a ++ [w]))) (S (length (a ++ w :: b))) 0 128 (a ++ [w]) (a ++ w :: b) ltac:(lia) ltac:(lia)) as K.
  rewrite P in K. cbn [cut_spec] in K. apply K; [exists a; auto|exact Ty].
Qed.
Lemma parse_cut_bad a w b : is_space w = true -> (forall ts, parse_date_time (a ++ [w]) <> Ok ts) ->
  parse_date_time (a ++ w :: b) = parse_date_time (a ++ [w]).
Proof.
  intros W N. unfold parse_date_time in *. destruct (a ++ [w]) as [|c r] eqn:E; [now destruct a|]. rewrite <- E in *.
  destruct (a ++ w :: b) as [|c' r'] eqn:E'; [now destruct a|]. rewrite <- E' in *.
  pose proof (cut_tokenize w b W (S (length (a ++ [w]))) (S (length (a ++ w :: b))) 0 MAX_DATE_LEN (a ++ [w]) (a ++ w :: b) ltac:(lia) ltac:(lia)) as K.
  destruct (tokenize (S (length (a ++ [w]))) 0 MAX_DATE_LEN (a ++ [w])) as [ts|e|f]; [now destruct (N ts)|..]; cbn [cut_spec] in K; rewrite K; try reflexivity; exists a; auto.
Qed.

Lemma parse_cut_sign a w b ts : is_space w = true -> parse_date_time (a ++ [w]) = Ok ts -> ~ typed ts ->
  match eat_whitespaces b with c :: _ => is_digit c || is_alpha c = false | [] => False end -> parse_date_time (a ++ w :: b) = Err EInvalid.
Proof.
  intros W P Ty Hb. unfold parse_date_time in *. destruct (a ++ [w]) as [|c r] eqn:E; [now destruct a|]. rewrite <- E in *.
  destruct (a ++ w :: b) as [|c' r'] eqn:E'; [now destruct a|]. rewrite <- E' in *. unfold MAX_DATE_LEN in *.
  pose proof (cut_tokenize w b W (S (length (a ++ [w]))) (S (length (a ++ w :: b))) 0 128 (a ++ [w]) (a ++ w :: b) ltac:(lia) ltac:(lia)) as K.
  rewrite P in K. cbn [cut_spec] in K. apply K; [exists a; auto|exact Ty|exact Hb].
Qed.
