(** Splitting a text into fields does not depend on the amount of white space. *)
From Coq Require Import String.
From Verif Require Import Model.Parse Spec.Text Spec.Lexing Proofs.Arith Proofs.DigitsP Proofs.LexP Proofs.FieldsP.
From Coq Require Import List ZArith Bool Lia.
Import ListNotations.
Open Scope Z_scope.

(** The relation without run lengths *)
Inductive sim : bytes -> bytes -> Prop :=
  | sim_end w w' : forallb is_space w = true -> forallb is_space w' = true -> sim w w'
  | sim_run w w' s s' : forallb is_space w = true -> forallb is_space w' = true -> w <> [] -> w' <> [] ->
      sim s s' -> sim (w ++ s) (w' ++ s')
  | sim_chr c s s' : is_space c = false -> sim s s' -> (c = 46 -> (s = [] <-> s' = [])) -> sim (c :: s) (c :: s').

Lemma whites_forallb w : Forall white w -> forallb is_space w = true.
Proof. intros F. apply forallb_forall. intros z Hz. apply white_iff. revert z Hz. now apply Forall_forall. Qed.

Lemma respaced_sim s s' : respaced s s' -> sim s s'.
Proof.
  induction 1 as [w w' W W'|w w' s s' W W' N N' R IH|c s s' R IH D].
  - apply sim_end; now apply whites_forallb.
  - apply sim_run; auto; now apply whites_forallb.
  - destruct (is_space c) eqn:E.
    + change (c :: s) with ([c] ++ s). change (c :: s') with ([c] ++ s'). apply sim_run; auto; cbn; now rewrite ?E.
    + now apply sim_chr.
Qed.

(** Two related texts that do not begin with white space: both empty or the same first byte *)
Definition tight (s : bytes) : Prop := stops is_space s.

Lemma sim_strip s s' : sim s s' -> sim (eat_whitespaces s) (eat_whitespaces s') /\ tight (eat_whitespaces s) /\ tight (eat_whitespaces s').
Proof.
  assert (forall w, forallb is_space w = true -> eat_whitespaces w = []) as Wn.
  { intros w W. rewrite <- (app_nil_r w). now rewrite (eat_ws_app w [] W). }
  induction 1 as [w w' W W'|w w' s s' W W' N N' R IH|c s s' C R IH D].
  - rewrite !Wn by assumption. split; [now apply sim_end|]. split; exact I.
  - rewrite !eat_ws_app by assumption. exact IH.
  - rewrite !eat_ws_cons by exact C. split; [now apply sim_chr|]. cbn. now rewrite C.
Qed.

(** Taking bytes that are not white space *)
Lemma sim_eat f s s' : (forall c, is_space c = true -> f c = false) -> sim s s' ->
  fst (eat f s) = fst (eat f s') /\ sim (snd (eat f s)) (snd (eat f s')).
Proof.
  intros F. assert (forall w t, forallb is_space w = true -> w <> [] -> eat f (w ++ t) = ([], w ++ t)) as Ws.
  { intros [|c w] t W N; [easy|]. cbn [forallb app eat] in *. apply andb_true_iff in W as [C _]. now rewrite (F c C). }
  assert (forall w, forallb is_space w = true -> eat f w = ([], w)) as We.
  { intros [|c w] W; [reflexivity|]. rewrite <- (app_nil_r (c :: w)) at 1. rewrite Ws by easy. now rewrite app_nil_r. }
  induction 1 as [w w' W W'|w w' s s' W W' N N' R IH|c s s' C R IH D].
  - rewrite !We by assumption. cbn [fst snd]. split; [reflexivity|]. now apply sim_end.
  - rewrite !Ws by assumption. cbn [fst snd]. split; [reflexivity|]. now apply sim_run.
  - cbn [eat]. destruct (f c); [|split; [reflexivity|now apply sim_chr]].
    destruct (eat f s) as [a b], (eat f s') as [a' b']. cbn [fst snd] in *. destruct IH as [-> IH]. split; [reflexivity|exact IH].
Qed.

(** What both texts begin with *)
Lemma sim_head s s' : sim s s' ->
  (exists c r r', s = c :: r /\ s' = c :: r' /\ is_space c = false /\ sim r r' /\ (c = 46 -> (r = [] <-> r' = [])))
  \/ ((s = [] \/ exists c r, s = c :: r /\ is_space c = true) /\ (s' = [] \/ exists c r, s' = c :: r /\ is_space c = true)).
Proof.
  intros [w w' W W'|w w' t t' W W' N N' R|c t t' C R D].
  - right. split; [destruct w as [|c w]|destruct w' as [|c w']]; auto; right; do 2 eexists; (split; [reflexivity|]); cbn in *;
      [now apply andb_true_iff in W|now apply andb_true_iff in W'].
  - right. destruct w as [|c w]; [easy|]. destruct w' as [|c' w']; [easy|]. cbn [forallb app] in *.
    apply andb_true_iff in W as [C _]. apply andb_true_iff in W' as [C' _]. split; right; eauto.
  - left. exists c, t, t'. auto.
Qed.

Definition simr (x y : token * bytes) : Prop := fst x = fst y /\ sim (snd x) (snd y).

Ltac nosp := intros z Hz; unfold date_word_char, is_space, is_alnum, is_alpha, is_upper, is_lower, is_digit, is_punct in *; lia.
Ltac ate R f s s' H :=
  let E := fresh "Ea" in
  assert (fst (eat f s) = fst (eat f s') /\ sim (snd (eat f s)) (snd (eat f s'))) as [E H]
    by (apply sim_eat; [nosp|exact R]).

Lemma sim_delim d s s' : is_space d = false -> sim s s' -> (d = 46 -> (s = [] <-> s' = [])) ->
  (fst (digit_delim_begin d s) = fst (digit_delim_begin d s') /\ sim (snd (digit_delim_begin d s)) (snd (digit_delim_begin d s'))).
Proof.
  intros Sd R D.
  assert (forall t, (t = [] \/ exists c r, t = c :: r /\ is_space c = true) -> (d = 46 -> t <> []) ->
    digit_delim_begin d t = (KDate, [d], t)) as Blank.
  { intros t [->|(c & r & -> & C)] Nt; unfold digit_delim_begin.
    - destruct (Z.eqb_spec d 46); [now specialize (Nt e)|reflexivity].
    - replace (is_digit c) with false by (unfold is_space, is_digit in *; lia). cbn [eat].
      replace ((c =? d) || is_alnum c) with false; [reflexivity|].
      destruct (Z.eqb_spec c d) as [->|]; [congruence|]. unfold is_space, is_alnum, is_alpha, is_upper, is_lower, is_digit in *. lia. }
  destruct (sim_head s s' R) as [(c & r & r' & -> & -> & C & R' & _)|[B B']].
  - unfold digit_delim_begin. destruct (is_digit c).
    + unfold eat_digits. ate R is_digit (c :: r) (c :: r') R1.
      destruct (eat is_digit (c :: r)) as [f1 s1], (eat is_digit (c :: r')) as [f1' s1']. cbn [fst snd] in *. subst f1'.
      destruct (sim_head s1 s1' R1) as [(c1 & q & q' & -> & -> & C1 & R2 & _)|[B B']].
      * destruct (c1 =? d); [|cbn [fst snd]; auto].
        assert (fst (eat (fun i => (i =? d) || is_digit i) (c1 :: q)) = fst (eat (fun i => (i =? d) || is_digit i) (c1 :: q')) /\
          sim (snd (eat (fun i => (i =? d) || is_digit i) (c1 :: q))) (snd (eat (fun i => (i =? d) || is_digit i) (c1 :: q')))) as [Ea R3].
        { apply sim_eat; [|exact R1]. intros z Hz. destruct (Z.eqb_spec z d) as [->|]; [congruence|].
          unfold is_space, is_digit in *. lia. }
        destruct (eat _ (c1 :: q)) as [f2 s2], (eat _ (c1 :: q')) as [f2' s2']. cbn [fst snd] in *. subst f2'. auto.
      * assert (forall t f, (t = [] \/ exists c r, t = c :: r /\ is_space c = true) ->
          match t with
          | c1 :: _ => if c1 =? d then let '(f2, s2) := eat (fun i => (i =? d) || is_digit i) t in (KDate, d :: f ++ f2, s2)
                      else (if d =? 46 then KNumber else KDate, d :: f, t)
          | [] => (if d =? 46 then KNumber else KDate, d :: f, [])
          end = (if d =? 46 then KNumber else KDate, d :: f, t)) as Q.
        { intros t f [->|(z & u & -> & Hz)]; [reflexivity|]. destruct (Z.eqb_spec z d); [congruence|reflexivity]. }
        rewrite !Q by assumption. cbn [fst snd]. auto.
    + assert (fst (eat (fun i => (i =? d) || is_alnum i) (c :: r)) = fst (eat (fun i => (i =? d) || is_alnum i) (c :: r')) /\
          sim (snd (eat (fun i => (i =? d) || is_alnum i) (c :: r))) (snd (eat (fun i => (i =? d) || is_alnum i) (c :: r')))) as [Ea R3].
        { apply sim_eat; [|exact R]. intros z Hz. destruct (Z.eqb_spec z d) as [->|]; [congruence|].
          unfold is_space, is_alnum, is_alpha, is_upper, is_lower, is_digit in *. lia. }
        destruct (eat _ (c :: r)) as [f2 s2], (eat _ (c :: r')) as [f2' s2']. cbn [fst snd] in *. subst f2'. auto.
  - destruct (Z.eq_dec d 46) as [->|Nd].
    + specialize (D eq_refl). destruct B as [->|B].
      * assert (s' = []) as -> by now apply D. cbn. split; [reflexivity|]. now apply sim_end.
      * assert (s <> []) as N by (destruct B as (c & r & -> & _); discriminate).
        assert (s' <> []) as N' by (intros Q; apply N; now apply D).
        rewrite (Blank s), (Blank s') by auto. cbn [fst snd]. auto.
    + rewrite (Blank s), (Blank s') by (auto; easy). cbn [fst snd]. auto.
Qed.

Lemma sim_digit s s' : sim s s' -> simr (digit_begin s) (digit_begin s').
Proof.
  intros R. unfold digit_begin, eat_digits. ate R is_digit s s' R1.
  destruct (eat is_digit s) as [f0 s1], (eat is_digit s') as [f0' s1']. cbn [fst snd] in *. subst f0'.
  assert (forall t, (t = [] \/ exists c r, t = c :: r /\ is_space c = true) ->
    match t with
    | c :: r =>
      if c =? 58 then let '(f1, s2) := eat (fun i => is_digit i || (i =? 58) || (i =? 46)) t in ((Some KTime, f0 ++ f1), s2)
      else if (c =? 45) || (c =? 47) || (c =? 46) then let '(ty, f1, s2) := digit_delim_begin c r in ((Some ty, f0 ++ f1), s2)
      else ((Some KNumber, f0), t)
    | [] => ((Some KNumber, f0), [])
    end = ((Some KNumber, f0), t)) as Blank.
  { intros t [->|(c & r & -> & C)]; [reflexivity|]. unfold is_space in C.
    replace (c =? 58) with false by lia. now replace ((c =? 45) || (c =? 47) || (c =? 46)) with false by lia. }
  destruct (sim_head s1 s1' R1) as [(c & r & r' & -> & -> & C & R' & D)|[B B']].
  - destruct (c =? 58).
    + ate R1 (fun i => is_digit i || (i =? 58) || (i =? 46)) (c :: r) (c :: r') R2.
      destruct (eat _ (c :: r)) as [f1 s2], (eat _ (c :: r')) as [f1' s2']. cbn [fst snd] in *. subst f1'. now split.
    + destruct ((c =? 45) || (c =? 47) || (c =? 46)) eqn:Dl; [|now split].
      destruct (sim_delim c r r' C R' D) as [E R2].
      destruct (digit_delim_begin c r) as [[ty f1] s2], (digit_delim_begin c r') as [[ty' f1'] s2']. cbn [fst snd] in *.
      injection E as <- <-. now split.
  - rewrite !Blank by assumption. now split.
Qed.

Lemma sim_dot s s' : sim s s' -> simr (dot_begin s) (dot_begin s').
Proof.
  intros R. unfold dot_begin, eat_digits. ate R is_digit s s' R1.
  destruct (eat is_digit s) as [f0 s1], (eat is_digit s') as [f0' s1']. cbn [fst snd] in *. subst f0'. now split.
Qed.

Definition same_res (x y : res (token * bytes)) : Prop :=
  match x, y with
  | Ok a, Ok b => simr a b
  | Err e, Err e' => e = e'
  | Fault f, Fault f' => f = f'
  | _, _ => False
  end.

Lemma sim_alpha s s' : sim s s' -> same_res (alpha_begin s) (alpha_begin s').
Proof.
  intros R. unfold alpha_begin, eat_alphabetics. ate R is_alpha s s' R1.
  destruct (eat is_alpha s) as [f s1], (eat is_alpha s') as [f' s1']. cbn [fst snd] in *. subst f'.
  set (g := fun t : bytes => match t with
    | c :: _ => if (c =? 45) || (c =? 47) || (c =? 46) then Ok true
                else if (c =? 43) || is_digit c then
                  let* t := search_date_token (lowers f) in Ok (match t with None => true | Some _ => false end)
                else Ok false
    | [] => Ok false end).
  assert (g s1 = g s1') as G.
  { assert (forall t, (t = [] \/ exists c r, t = c :: r /\ is_space c = true) -> g t = Ok false) as Blank.
    { intros t [->|(c & r & -> & C)]; [reflexivity|]. unfold g. cbv beta iota. unfold is_space in C.
      replace ((c =? 45) || (c =? 47) || (c =? 46)) with false by lia.
      now replace ((c =? 43) || is_digit c) with false by (unfold is_digit; lia). }
    destruct (sim_head s1 s1' R1) as [(c & r & r' & -> & -> & _)|[B B']]; [reflexivity|]. now rewrite !Blank by assumption. }
  fold (g s1) (g s1'). rewrite <- G. destruct (g s1) as [b|e|x]; cbn [bind]; [|reflexivity..]. destruct b; [|now split].
  ate R1 date_word_char s1 s1' R2.
  destruct (eat date_word_char s1) as [f1 s2], (eat date_word_char s1') as [f1' s2']. cbn [fst snd] in *. subst f1'. now split.
Qed.

Lemma sim_sign sg s s' : sim s s' -> same_res (sign_begin sg s) (sign_begin sg s').
Proof.
  intros R. apply sim_strip in R as (R & T & T'). unfold sign_begin.
  destruct (sim_head _ _ R) as [(c & r & r' & E & E' & C & R' & _)|[B B']].
  - rewrite E, E' in *. destruct (is_digit c).
    + ate R (fun i => is_digit i || (i =? 58) || (i =? 46) || (i =? 45)) (c :: r) (c :: r') R2.
      destruct (eat _ (c :: r)) as [f1 s2], (eat _ (c :: r')) as [f1' s2']. cbn [fst snd] in *. subst f1'. now split.
    + destruct (is_alpha c); [|reflexivity]. unfold eat_alphabetics. ate R is_alpha (c :: r) (c :: r') R2.
      destruct (eat _ (c :: r)) as [f1 s2], (eat _ (c :: r')) as [f1' s2']. cbn [fst snd] in *. subst f1'. now split.
  - assert (forall t, tight t -> (t = [] \/ exists c r, t = c :: r /\ is_space c = true) -> t = []) as Bn.
    { intros t Tt [->|(c & r & -> & C)]; [reflexivity|]. cbn in Tt. congruence. }
    rewrite (Bn _ T B), (Bn _ T' B'). split; [reflexivity|]. now apply sim_end.
Qed.

Lemma sim_len_tail f s : (length (snd (eat f s)) <= length s)%nat.
Proof. pose proof (eat_split f s) as S. destruct (eat f s) as [a b]. destruct S as (-> & _). rewrite app_length. cbn. lia. Qed.

Lemma sim_tokenize fuel : forall fuel' n room s s', (length s < fuel)%nat -> (length s' < fuel')%nat -> sim s s' ->
  tokenize fuel n room s = tokenize fuel' n room s'.
Proof.
  induction fuel as [|fuel IH]; intros [|fuel'] n room s s' L L' R; try lia. cbn [tokenize].
  assert (length (eat_whitespaces s) <= length s)%nat as Lw by apply sim_len_tail.
  assert (length (eat_whitespaces s') <= length s')%nat as Lw' by apply sim_len_tail.
  apply sim_strip in R as (R & T & T'). destruct (sim_head _ _ R) as [(c & r & r' & E & E' & C & R' & D)|[B B']].
  2:{ assert (forall t, tight t -> (t = [] \/ exists c r, t = c :: r /\ is_space c = true) -> t = []) as Bn.
      { intros t Tt [->|(c & r & -> & C)]; [reflexivity|]. cbn in Tt. congruence. }
      now rewrite (Bn _ T B), (Bn _ T' B'). }
  rewrite E, E' in *. cbn [length] in *. destruct (MAX_DATE_FIELDS <=? n); [reflexivity|]. cbv zeta.
  assert (forall t rest rest', took (c :: r) t rest -> took (c :: r') t rest' -> sim rest rest' ->
    (let* room' := use_buf room (snd t) in let* ts := tokenize fuel (n + 1) room' rest in Ok (t :: ts)) =
    (let* room' := use_buf room (snd t) in let* ts := tokenize fuel' (n + 1) room' rest' in Ok (t :: ts))) as Add.
  { intros t rest rest' K K' Rr. destruct (use_buf room (snd t)) as [room'|e|x]; cbn [bind]; [|reflexivity..].
    apply took_sig in K as (u & Eu & Nu & _). apply took_sig in K' as (u' & Eu' & Nu' & _).
    assert (length (c :: r) = length u + length rest)%nat as Q by (rewrite Eu; apply app_length).
    assert (length (c :: r') = length u' + length rest')%nat as Q' by (rewrite Eu'; apply app_length). cbn [length] in Q, Q'.
    assert (0 < length u)%nat by (destruct u; [easy|cbn; lia]). assert (0 < length u')%nat by (destruct u'; [easy|cbn; lia]).
    rewrite (IH fuel' (n + 1) room' rest rest'); [reflexivity|lia|lia|exact Rr]. }
  destruct (is_digit c) eqn:Dc.
  { pose proof (sim_digit _ _ R) as [E1 R1]. destruct (digit_begin (c :: r)) as [t rest] eqn:Q, (digit_begin (c :: r')) as [t' rest'] eqn:Q'.
    cbn [fst snd] in *. subst t'. apply Add; [now apply digit_took|now apply digit_took|exact R1]. }
  destruct (Z.eqb_spec c 46) as [->|].
  { pose proof (sim_dot _ _ R') as [E1 R1]. destruct (dot_begin r) as [t rest] eqn:Q, (dot_begin r') as [t' rest'] eqn:Q'.
    cbn [fst snd] in *. subst t'. apply Add; [now apply dot_took|now apply dot_took|exact R1]. }
  destruct (is_alpha c) eqn:Ha.
  { pose proof (sim_alpha _ _ R) as S. destruct (alpha_took c r Ha) as (t & rest & Q & K). destruct (alpha_took c r' Ha) as (t' & rest' & Q' & K').
    rewrite Q, Q' in *. destruct S as [E1 R1]. cbn [bind fst snd] in *. subst t'. now apply Add. }
  destruct ((c =? 43) || (c =? 45)) eqn:Sg.
  { destruct (use_buf room [c]); cbn [bind]; [|reflexivity..]. pose proof (sim_sign c _ _ R') as S.
    destruct (sign_took c r Sg) as [(t & rest & Q & K)|Q], (sign_took c r' Sg) as [(t' & rest' & Q' & K')|Q']; rewrite Q, Q' in *; cbn [bind]; try easy.
    destruct S as [E1 R1]. cbn [fst snd] in *. subst t'. now apply Add. }
  destruct (is_punct c) eqn:P; [|reflexivity].
  ate R is_punct (c :: r) (c :: r') R2. pose proof (sim_len_tail is_punct r). pose proof (sim_len_tail is_punct r').
  apply IH; [..|exact R2]; cbn [eat]; rewrite P; destruct (eat is_punct r), (eat is_punct r'); cbn [snd] in *; lia.
Qed.

Lemma parse_respaced s s' : s <> [] -> s' <> [] -> sim s s' -> parse_date_time s = parse_date_time s'.
Proof.
  intros N N' R. unfold parse_date_time. destruct s as [|c s]; [easy|]. destruct s' as [|c' s']; [easy|].
  apply sim_tokenize; [lia|lia|exact R].
Qed.

Lemma sim_refl s : sim s s.
Proof.
  induction s as [|c s IH]; [now apply sim_end|]. destruct (is_space c) eqn:C.
  - change (c :: s) with ([c] ++ s). apply sim_run; cbn; rewrite ?C; easy.
  - now apply sim_chr.
Qed.

(** Leading white space *)
Lemma parse_leading w s : Forall white w -> s <> [] -> parse_date_time (w ++ s) = parse_date_time s.
Proof.
  intros W N. apply whites_forallb in W. unfold parse_date_time. destruct s as [|c s]; [easy|].
  destruct (w ++ c :: s) as [|d u] eqn:E; [now destruct w|]. rewrite <- E. clear E d u.
  transitivity (tokenize (S (length (w ++ c :: s))) 0 MAX_DATE_LEN (c :: s)).
  - cbn [tokenize]. now rewrite (eat_ws_app w _ W).
  - apply sim_tokenize; [rewrite app_length; lia|lia|apply sim_refl].
Qed.
