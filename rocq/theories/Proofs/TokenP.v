(** Keyword lookup: the binary search finds exactly the table entries, with or without cache. *)
From Verif Require Import Model.Token.
From Coq Require Import Lia Arith.
Open Scope Z_scope.

(** ** Comparison of byte strings *)
Lemma bcmp_refl a : bcmp a a = Eq.
Proof. induction a as [|x a IH]; cbn; [easy|]. now rewrite Z.compare_refl. Qed.
Lemma bcmp_eq a : forall b, bcmp a b = Eq <-> a = b.
Proof.
  induction a as [|x a IH]; intros [|y b]; cbn; try easy.
  destruct (Z.compare_spec x y) as [->|H|H].
  - rewrite IH. split; [now intros ->|congruence].
  - split; [easy|]. intros E. injection E. lia.
  - split; [easy|]. intros E. injection E. lia.
Qed.
Lemma bcmp_antisym a : forall b, bcmp b a = CompOpp (bcmp a b).
Proof.
  induction a as [|x a IH]; intros [|y b]; cbn; try easy. rewrite (Z.compare_antisym x y).
  destruct (x ?= y); cbn; auto.
Qed.
Lemma bcmp_trans a : forall b c, bcmp a b = Lt -> bcmp b c = Lt -> bcmp a c = Lt.
Proof.
  induction a as [|x a IH]; intros [|y b] [|z c]; cbn; try easy.
  destruct (Z.compare_spec x y) as [H|H|H], (Z.compare_spec y z) as [K|K|K], (Z.compare_spec x z) as [J|J|J];
    try easy; try lia. apply IH.
Qed.
Lemma beq_eq a : forall b, beq a b = true <-> a = b.
Proof.
  induction a as [|x a IH]; intros [|y b]; cbn; try easy.
  rewrite andb_true_iff, Z.eqb_eq, IH. split; [now intros [-> ->]|]. intros E. injection E. auto.
Qed.

(** ** Sorted tables *)
Fixpoint sortedb (l : list date_token) : bool :=
  match l with
  | a :: ((b :: _) as r) => match bcmp (dt_token a) (dt_token b) with Lt => sortedb r | _ => false end
  | _ => true
  end.

Definition sorted (l : list date_token) : Prop := forall i j a b, (i < j)%nat ->
  nth_error l i = Some a -> nth_error l j = Some b -> bcmp (dt_token a) (dt_token b) = Lt.

Lemma sortedb_ok l : sortedb l = true -> sorted l.
Proof.
  intros H i j. revert i. induction j as [|j IH]; intros i a b L A B; [lia|].
  assert (forall k x y, nth_error l k = Some x -> nth_error l (S k) = Some y -> bcmp (dt_token x) (dt_token y) = Lt) as N.
  { clear - H. revert H. induction l as [|p l IHl]; intros H k x y X Y; [now destruct k|].
    destruct l as [|q l]; [destruct k; cbn in Y; [easy|now destruct k]|].
    cbn [sortedb] in H. destruct (bcmp (dt_token p) (dt_token q)) eqn:E; try discriminate.
    destruct k as [|k]; cbn [nth_error] in X, Y; [now injection X as <-; injection Y as <-|].
    now apply (IHl H k). }
  destruct (nth_error l j) as [c|] eqn:C.
  - destruct (Nat.eq_dec i j) as [->|Ne].
    + rewrite C in A. injection A as ->. now apply (N j).
    + apply bcmp_trans with (dt_token c); [apply (IH i); auto; lia|now apply (N j)].
  - apply nth_error_None in C. assert (nth_error l (S j) <> None) as D by congruence. apply nth_error_Some in D. lia.
Qed.

Lemma date_table_sorted : sorted DATE_TOKEN_TABLE.
Proof. apply sortedb_ok. vm_compute. reflexivity. Qed.
Lemma delta_table_sorted : sorted DELTA_TOKEN_TABLE.
Proof. apply sortedb_ok. vm_compute. reflexivity. Qed.

(** ** The search *)
Lemma bsearch_ok table key : sorted table -> forall fuel base size,
  (size <= fuel)%nat -> (1 <= size)%nat -> (base + size <= length table)%nat ->
  (forall i t, (i < base)%nat -> nth_error table i = Some t -> bcmp (dt_token t) key = Lt) ->
  (forall i t, (base + size <= i)%nat -> nth_error table i = Some t -> bcmp (dt_token t) key = Gt) ->
  exists p, bsearch fuel table key base size = Ok p /\ (p < length table)%nat /\
    forall i t, nth_error table i = Some t -> dt_token t = key -> i = p.
Proof.
  intros S. induction fuel as [|fuel IH]; intros base size F P B L G; [lia|]. cbn [bsearch].
  destruct (Nat.leb_spec size 1) as [Q|Q].
  - exists base. split; [easy|]. split; [lia|]. intros i t E K.
    destruct (Nat.lt_trichotomy i base) as [H|[H|H]]; [|easy|].
    + specialize (L i t H E). rewrite K, bcmp_refl in L. discriminate.
    + specialize (G i t ltac:(lia) E). rewrite K, bcmp_refl in G. discriminate.
  - assert (1 <= Nat.div2 size /\ Nat.div2 size + Nat.div2 size <= size)%nat as [D1 D2].
    { pose proof (Nat.div2_odd size) as D. destruct (Nat.odd size); cbn [Nat.b2n] in D; lia. }
    set (half := Nat.div2 size) in *.
    destruct (nth_error table (base + half)) as [t|] eqn:T; [|apply nth_error_None in T; lia].
    destruct (bcmp (dt_token t) key) eqn:C.
    + apply bcmp_eq in C. apply IH; try lia.
      * intros i u Hi U. rewrite <- C. now apply (S i (base + half)%nat).
      * intros i u Hi U. apply (G i); [lia|easy].
    + apply IH; try lia.
      * intros i u Hi U. apply bcmp_trans with (dt_token t); [now apply (S i (base + half)%nat)|easy].
      * intros i u Hi U. apply (G i); [lia|easy].
    + apply IH; try lia.
      * exact L.
      * intros i u Hi U. destruct (Nat.eq_dec i (base + half)) as [->|Ne].
        -- rewrite T in U. now injection U as <-.
        -- assert (bcmp (dt_token t) (dt_token u) = Lt) as K by (apply (S (base + half)%nat i); auto; lia).
           rewrite bcmp_antisym in C. destruct (bcmp key (dt_token t)) eqn:C'; try discriminate.
           rewrite bcmp_antisym, (bcmp_trans _ _ _ C' K). reflexivity.
Qed.

Lemma token_search_ok table key : sorted table ->
  exists o, token_search table key = Ok o /\
  match o with
  | Some t => In t table /\ dt_token t = token_key key
  | None => forall t, In t table -> dt_token t <> token_key key
  end.
Proof.
  intros S. unfold token_search. destruct table as [|t0 tb] eqn:T; [exists None; split; [easy|]; now intros t []|].
  rewrite <- T in *.
  destruct (bsearch_ok table (token_key key) S (Datatypes.S (length table)) 0 (length table)) as (p & E & P & U).
  - lia. - rewrite T. cbn; lia. - lia. - intros; lia.
  - intros i t Hi N. assert (nth_error table i <> None) as Q by congruence. apply nth_error_Some in Q. lia.
  - rewrite E. cbn [bind]. destruct (nth_error table p) as [t|] eqn:N; [|apply nth_error_None in N; lia].
    assert (forall u, In u table -> dt_token u = token_key key -> u = t) as Un.
    { intros u I K. apply In_nth_error in I as (i & I). rewrite (U i u I K) in I. congruence. }
    destruct (bcmp (dt_token t) (token_key key)) eqn:C.
    + exists (Some t). split; [easy|]. split; [eapply nth_error_In; eauto|now apply bcmp_eq].
    + exists None. split; [easy|]. intros u I K. pose proof (Un u I K). subst u.
      rewrite K, bcmp_refl in C. discriminate.
    + exists None. split; [easy|]. intros u I K. pose proof (Un u I K). subst u.
      rewrite K, bcmp_refl in C. discriminate.
Qed.

Lemma sorted_unique table a b : sorted table -> In a table -> In b table -> dt_token a = dt_token b -> a = b.
Proof.
  intros S A B E. apply In_nth_error in A as (i & A), B as (j & B).
  destruct (Nat.lt_trichotomy i j) as [H|[->|H]]; [| |].
  - pose proof (S i j a b H A B) as L. rewrite E, bcmp_refl in L. discriminate.
  - congruence.
  - pose proof (S j i b a H B A) as L. rewrite E, bcmp_refl in L. discriminate.
Qed.

Lemma token_search_found table key t : sorted table -> In t table -> dt_token t = token_key key ->
  token_search table key = Ok (Some t).
Proof.
  intros S I K. destruct (token_search_ok table key S) as ([u|] & E & H).
  - destruct H as [Iu Ku]. rewrite E. do 2 f_equal. apply (sorted_unique table); auto. congruence.
  - now destruct (H t I).
Qed.

Lemma token_key_idem k : token_key (token_key k) = token_key k.
Proof. unfold token_key. rewrite firstn_firstn. f_equal. Qed.

(** ** The cache *)
Definition cache_ok (table : list date_token) (c : cache) : Prop :=
  length c = 25%nat /\ forall t, In (Some t) c -> In t table.

Lemma cache_new_ok table : cache_ok table cache_new.
Proof. split; [reflexivity|]. intros t I. apply repeat_spec in I. discriminate. Qed.

Lemma set_nth_len {A} n (x : A) l : length (set_nth n x l) = length l.
Proof. revert n. induction l as [|y l IH]; intros [|n]; cbn; auto. Qed.
Lemma set_nth_in {A} n (x y : A) l : In y (set_nth n x l) -> y = x \/ In y l.
Proof.
  revert n. induction l as [|z l IH]; intros [|n]; cbn; try easy.
  - intros [->|H]; auto.
  - intros [->|H]; auto. destruct (IH n H); auto.
Qed.

Lemma decode_cached_ok table c field w : sorted table -> cache_ok table c -> (field < 25)%nat ->
  exists r c', decode_nocache table w = Ok r /\ decode_cached table c field w = Ok (r, c') /\ cache_ok table c'.
Proof.
  intros S [L I] F. unfold decode_cached, decode_nocache.
  destruct (nth_error c field) as [tp|] eqn:N; [|apply nth_error_None in N; lia].
  assert (match tp with
        | Some t => if beq (token_key w) (dt_token t) then Ok (Some t) else token_search table (token_key w)
        | None => token_search table (token_key w)
        end = token_search table (token_key w)) as ->.
  { destruct tp as [t|]; [|easy]. destruct (beq (token_key w) (dt_token t)) eqn:B; [|easy]. apply beq_eq in B.
    symmetry. apply token_search_found; auto; [|now rewrite token_key_idem].
    apply I. eapply nth_error_In; eauto. }
  destruct (token_search_ok table (token_key w) S) as ([t|] & -> & H); cbn [bind].
  - eexists _, _. split; [reflexivity|]. split; [reflexivity|]. split; [now rewrite set_nth_len|].
    intros u Q. apply set_nth_in in Q as [E|Q]; [injection E as ->; now destruct H|auto].
  - eexists _, _. split; [reflexivity|]. split; [reflexivity|]. split; auto.
Qed.
