(** Texts without any digit: what the tokenizer and the decoders make of them. *)
From Verif Require Import Model.F64 Model.Parse Model.DateTime Spec.Clock Proofs.Arith Proofs.DigitsP.
From Coq Require Import List ZArith Bool Lia.
Import List ListNotations.
Open Scope Z_scope.

Definition nodig (s : bytes) : Prop := Forall (fun c => is_digit c = false) s.

Lemma nodig_app a b : nodig (a ++ b) <-> nodig a /\ nodig b.
Proof. unfold nodig. apply Forall_app. Qed.

Lemma nodig_eat f s : nodig s -> nodig (fst (eat f s)) /\ nodig (snd (eat f s)).
Proof.
  intros H. pose proof (eat_split f s) as E. destruct (eat f s) as (a, b). destruct E as (-> & _ & _).
  now apply nodig_app.
Qed.
Lemma nodig_lowers s : nodig s -> nodig (lowers s).
Proof.
  unfold nodig, lowers. intros H. apply Forall_map. eapply Forall_impl; [|exact H].
  intros c D. cbv beta. unfold lower, is_upper, is_digit in *. destruct ((65 <=? c) && (c <=? 90)) eqn:E; lia.
Qed.
Lemma nodig_eat_digits s : nodig s -> eat_digits s = ([], s).
Proof. intros H. destruct H as [|c r D H]; [reflexivity|]. cbn. now rewrite D. Qed.

Lemma lower_alpha c : is_alpha c = true -> is_alpha (lower c) = true.
Proof. unfold lower, is_alpha, is_upper, is_lower. intros H. destruct ((65 <=? c) && (c <=? 90)) eqn:E; lia. Qed.

(** The fields of a text without digits *)
Definition plain (t : token) : Prop :=
  match fst t with
  | Some KNumber => snd t = [46]
  | Some KDate => nodig (snd t) /\ exists c r, snd t = c :: r /\ is_alpha c = true
  | Some KString | Some KSpecial | None => True
  | _ => False
  end.

Lemma eat_first_eq f c r : f c = true -> exists a b, eat f (c :: r) = (c :: a, b).
Proof. intros F. cbn [eat]. rewrite F. destruct (eat f r) as (a, b). now exists a, b. Qed.

Lemma alpha_plain c r t rest : nodig (c :: r) -> is_alpha c = true -> alpha_begin (c :: r) = Ok (t, rest) ->
  plain t /\ nodig rest.
Proof.
  intros N A. unfold alpha_begin, eat_alphabetics.
  destruct (nodig_eat is_alpha (c :: r) N) as (N1 & N2). destruct (eat_first_eq is_alpha c r A) as (a & b & E).
  rewrite E in *. cbn [fst snd] in N1, N2.
  intros H. match type of H with (let* _ := ?m in _) = _ => destruct m as [is_date| |]; try discriminate H end. cbn [bind] in H.
  destruct is_date.
  - destruct (nodig_eat date_word_char b N2) as (N3 & N4). destruct (eat date_word_char b) as (f1, s2). cbn [fst snd] in N3, N4.
    injection H as <- <-. split; [|exact N4]. unfold plain. cbn [fst snd]. split.
    + change (nodig (lowers (c :: a) ++ f1)). apply nodig_app. split; [now apply nodig_lowers|exact N3].
    + exists (lower c), (lowers a ++ f1). split; [reflexivity|]. now apply lower_alpha.
  - injection H as <- <-. split; [exact I|exact N2].
Qed.

Lemma sign_plain c r t rest : nodig r -> sign_begin c r = Ok (t, rest) -> plain t /\ nodig rest.
Proof.
  intros N. unfold sign_begin. assert (nodig (eat_whitespaces r)) as N0 by apply (nodig_eat is_space r N).
  destruct (eat_whitespaces r) as [|d q] eqn:E.
  - intros H. injection H as <- <-. split; [exact I|constructor].
  - inversion N0 as [|? ? D N1]; subst. rewrite D. destruct (is_alpha d); [|discriminate].
    destruct (nodig_eat is_alpha (d :: q) N0) as (N3 & N4). unfold eat_alphabetics. destruct (eat is_alpha (d :: q)) as (f, s1).
    intros H. injection H as <- <-. split; [exact I|exact N4].
Qed.

Lemma tokenize_plain : forall fuel n room s ts, nodig s -> tokenize fuel n room s = Ok ts -> Forall plain ts.
Proof.
  induction fuel as [|fuel IH]; intros n room s ts N; [discriminate|]. cbn [tokenize].
  assert (nodig (eat_whitespaces s)) as N0 by apply (nodig_eat is_space s N).
  destruct (eat_whitespaces s) as [|c r].
  - intros H. injection H as <-. constructor.
  - inversion N0 as [|? ? D N1]; subst. destruct (MAX_DATE_FIELDS <=? n); [discriminate|]. rewrite D.
    assert (forall t rest, plain t -> nodig rest ->
      (let* room' := use_buf room (snd t) in let* ts := tokenize fuel (n + 1) room' rest in Ok (t :: ts)) = Ok ts -> Forall plain ts) as G.
    { intros t rest P Q H. destruct (use_buf room (snd t)) as [room'| |]; try discriminate H. cbn [bind] in H.
      destruct (tokenize fuel (n + 1) room' rest) as [ts'| |] eqn:E; try discriminate H. injection H as <-.
      constructor; [exact P|]. eapply IH; eauto. }
    destruct (c =? 46).
    { unfold dot_begin. rewrite nodig_eat_digits by exact N1. apply G; [reflexivity|exact N1]. }
    destruct (is_alpha c) eqn:A.
    { destruct (alpha_begin (c :: r)) as [[t rest]| |] eqn:E; try discriminate. cbn [bind].
      destruct (alpha_plain c r t rest N0 A E) as (P & Q). now apply G. }
    destruct ((c =? 43) || (c =? 45)).
    { destruct (use_buf room [c]) as [u| |]; try discriminate. cbn [bind].
      destruct (sign_begin c r) as [[t rest]| |] eqn:E; try discriminate. cbn [bind].
      destruct (sign_plain c r t rest N1 E) as (P & Q). now apply G. }
    destruct (is_punct c); [|discriminate]. apply IH. apply (nodig_eat is_punct (c :: r) N0).
Qed.

Lemma parse_plain s ts : nodig s -> parse_date_time s = Ok ts -> Forall plain ts.
Proof. intros N. unfold parse_date_time. destruct s; [discriminate|]. now apply tokenize_plain. Qed.

(** A word is not a number. *)
Lemma str2i32_alpha c r : is_alpha c = true -> is_digit c = false -> str2i32 (c :: r) = Ok (0, c :: r).
Proof.
  intros A D. unfold str2i32. rewrite eat_ws_cons by (unfold is_alpha, is_upper, is_lower, is_space in *; lia).
  unfold extract_sign. destruct (c =? 43) eqn:E1; [exfalso; unfold is_alpha, is_upper, is_lower in A; lia|].
  destruct (c =? 45) eqn:E2; [exfalso; unfold is_alpha, is_upper, is_lower in A; lia|].
  unfold eat_digits. cbn [eat]. rewrite D. reflexivity.
Qed.

(** ** Intervals *)
Definition zero_x : tmf := (tm_new, 0).

Lemma number_zero md ty range : fst (interval_number_field md [46] ty range zero_x) = zero_x.
Proof.
  unfold interval_number_field.
  assert (forall u, interval_number md [46] u = Ok (u, 0, f0)) as -> by reflexivity.
  destruct (tfield_of (default_unit ty range)) as [k| |]; [|reflexivity..].
  destruct k; try reflexivity; destruct md; vm_compute; reflexivity.
Qed.
Lemma word_zero md f ty range x : nodig f -> (exists c r, f = c :: r /\ is_alpha c = true) ->
  exists e, interval_number_field md f ty range x = (x, Err e).
Proof.
  intros N (c & r & -> & A). inversion N as [|? ? D _]; subst. unfold interval_number_field, interval_number.
  rewrite (str2i32_alpha c r A D). cbn [bind].
  destruct (c =? 45) eqn:E1; [exfalso; unfold is_alpha, is_upper, is_lower in A; lia|].
  destruct (c =? 46) eqn:E2; [exfalso; unfold is_alpha, is_upper, is_lower in A; lia|]. eexists. reflexivity.
Qed.
Lemma merge_fst m i x : fst (merge_i m i x) = x.
Proof. unfold merge_i. now destruct (has _ _). Qed.

Lemma field_zero md range t i : plain t -> fst (interval_field md range t i zero_x) = zero_x.
Proof.
  destruct t as [[k|] f]; unfold plain; cbn [fst snd]; [|reflexivity].
  intros P. unfold interval_field. cbn [fst snd].
  destruct k; try contradiction; try reflexivity.
  all: try (destruct (decode_units f) as [[ty val]| |]; [|reflexivity..]; destruct ty; try reflexivity; try apply merge_fst;
            destruct (tfield_of val); try reflexivity; apply merge_fst).
  - subst f. pose proof (number_zero md (i_ty i) range) as Z0.
    destruct (interval_number_field md [46] (i_ty i) range zero_x) as [x [r| |]]; cbn [fst] in Z0; subst x; cbn [step_bind]; [|reflexivity..].
    apply merge_fst.
  - destruct P as (N & W). destruct (word_zero md f (i_ty i) range zero_x N W) as (e & E). rewrite E. reflexivity.
Qed.

Lemma fields_zero md range : forall ts i, Forall plain ts -> fst (interval_fields md range ts i zero_x) = zero_x.
Proof.
  induction ts as [|t ts IH]; intros i F; [reflexivity|]. inversion F as [|? ? P Q]; subst. cbn [interval_fields].
  pose proof (field_zero md range t i P) as Z0.
  destruct (interval_field md range t i zero_x) as [x [j| |]]; cbn [fst] in Z0; subst x; cbn [step_bind]; [|reflexivity..].
  apply IH, Q.
Qed.

Lemma decode_interval_zero md ts range st : Forall plain ts -> fst (decode_interval md ts range st (tm_new, 0)) = zero_x.
Proof.
  intros F. unfold decode_interval. cbn [fst]. fold zero_x.
  assert (Forall plain (rev ts)) as R by now apply Forall_rev.
  pose proof (fields_zero md range (rev ts) (mkI (tt_code IgnoreDtf) 0 false KDelta) R) as Z0.
  destruct (interval_fields md range (rev ts) _ zero_x) as [x [i| |]]; cbn [fst] in Z0; subst x; cbn [step_bind]; [|reflexivity..].
  destruct (i_fmask i =? 0); [reflexivity|].
  change (carry_fsec md zero_x) with (zero_x, Ok tt : res unit). cbn [step_bind].
  destruct ts as [|t rest]; [reflexivity|].
  assert (negate_all md zero_x = (zero_x, Ok tt)) as Ng by (destruct md; reflexivity).
  destruct (starts_minus (snd t)) as [m| |], st; cbn [andb]; try reflexivity;
    try (destruct (m && negb (existsb starts_sign rest)); change (force_negative zero_x) with zero_x);
    destruct (i_before i); try rewrite Ng; reflexivity.
Qed.

Lemma str2d_c q : str2d (99 :: q) = Ok (f0, 99 :: q).
Proof. reflexivity. Qed.
Lemma str2d_dot q : nodig q -> str2d (46 :: q) = Ok (f0, q).
Proof.
  intros N. unfold str2d. change (eat_whitespaces (46 :: q)) with (46 :: q). cbv iota.
  change (extract_sign (46 :: q)) with (1, 46 :: q). cbv iota beta.
  change (eat_digits (46 :: q)) with (@nil Z, 46 :: q). cbv iota beta.
  change (10 <? blen []) with false. change (46 =? 46) with true. cbv iota beta.
  rewrite nodig_eat_digits by exact N. reflexivity.
Qed.

Lemma iso_number_zero s v f r : nodig s -> parse_iso8601_number s = Ok (v, f, r) -> v = 0 /\ f = f0 /\ nodig r /\ iso8601_integer_width s = 0.
Proof.
  intros N. unfold parse_iso8601_number. destruct N as [|c q D N]; [discriminate|]. rewrite D. cbn [orb].
  destruct (c =? 99) eqn:E1.
  - apply Z.eqb_eq in E1. subst c. cbn [orb negb]. rewrite str2d_c. cbn [bind]. rewrite Nat.eqb_refl. discriminate.
  - cbn [orb]. destruct (c =? 46) eqn:E2; [|discriminate]. cbn [negb]. apply Z.eqb_eq in E2. subst c.
    rewrite str2d_dot by exact N. cbn [bind].
    destruct (Nat.eqb _ _) eqn:E3; [discriminate|].
    change (flt f0 (f64_of_Z i32_min) || fgt f0 (f64_of_Z i32_max)) with false. cbv iota zeta.
    change (if fge f0 f0 then f64_to_i32 (ffloor f0) else f64_to_i32 (fneg (ffloor f0))) with 0.
    change (fsub f0 (f64_of_Z 0)) with f0.
    intros H. injection H as <- <- <-. repeat split; assumption.
Qed.

Ltac iso_num H :=
  match type of H with (let* _ := parse_iso8601_number ?s in _) = _ =>
    let q := fresh "q" in let E := fresh "E" in
    destruct (parse_iso8601_number s) as [[[? ?] ?]| |] eqn:E; [|discriminate H..]; cbn [bind] in H;
    let A := fresh "A" in let B := fresh "B" in let C := fresh "C" in let D := fresh "D" in
    apply iso_number_zero in E; [destruct E as (A & B & C & D)|assumption]; subst end.

Section Ops.
Variable md : mode.
Lemma ay0 : add_year md 0 zero_x = Ok zero_x. Proof. destruct md; reflexivity. Qed.
Lemma am0 : add_mon md 0 zero_x = Ok zero_x. Proof. destruct md; reflexivity. Qed.
Lemma ad0 : add_mday md 0 zero_x = Ok zero_x. Proof. destruct md; reflexivity. Qed.
Lemma ah0 : add_hour md 0 zero_x = Ok zero_x. Proof. destruct md; reflexivity. Qed.
Lemma ai0 : add_min md 0 zero_x = Ok zero_x. Proof. destruct md; reflexivity. Qed.
Lemma as0 : add_sec md 0 zero_x = Ok zero_x. Proof. destruct md; reflexivity. Qed.
Lemma af0 : add_mon md (f64_to_i32 (fmul f0 (f64_of_Z MONTHS_PER_YEAR))) zero_x = Ok zero_x. Proof. destruct md; reflexivity. Qed.
Lemma fs0 n : fract_secs md f0 n zero_x = Ok zero_x. Proof. reflexivity. Qed.
Lemma fd0 n : fract_days md f0 n zero_x = Ok zero_x. Proof. reflexivity. Qed.
Lemma m70 : mul32 md 0 7 = Ok 0. Proof. destruct md; reflexivity. Qed.
End Ops.
Ltac ops H := repeat (first [rewrite ay0 in H | rewrite af0 in H | rewrite am0 in H | rewrite ad0 in H | rewrite ah0 in H
  | rewrite ai0 in H | rewrite as0 in H | rewrite fs0 in H | rewrite fd0 in H | rewrite m70 in H]; cbn [bind] in H).

Lemma date_left_zero md s unit hf x o : nodig s -> decode_date_part_left md s unit hf 0 f0 zero_x = Ok (x, o) ->
  x = zero_x /\ (forall r, o = Some r -> nodig r).
Proof.
  intros N H. unfold decode_date_part_left in H. destruct hf; [discriminate H|]. ops H.
  destruct (unit =? 0); [injection H as <- <-; split; [reflexivity|discriminate]|].
  destruct (unit =? 84); [injection H as <- <-; split; [reflexivity|intros r Q; injection Q as <-; exact N]|].
  iso_num H. ops H. destruct b as [|c r]; [injection H as <- <-; split; [reflexivity|discriminate]|].
  destruct (c =? 84); [injection H as <- <-; split; [reflexivity|intros r' Q; injection Q as <-; assumption]|].
  destruct (c =? 45); [|discriminate H]. cbn [negb] in H.
  assert (nodig r) as Nr by (match goal with N : nodig (_ :: r) |- _ => now inversion N end).
  iso_num H. ops H. destruct b as [|c' r']; [injection H as <- <-; split; [reflexivity|discriminate]|].
  destruct (c' =? 84); [|discriminate H]. injection H as <- <-. split; [reflexivity|intros r'' Q; injection Q as <-; assumption].
Qed.

Lemma time_left_zero md s unit hf x : nodig s -> decode_time_part_left md s unit hf 0 f0 zero_x = Ok x -> x = zero_x.
Proof.
  intros N H. unfold decode_time_part_left in H. destruct hf; [discriminate H|]. ops H.
  destruct (unit =? 0); [now injection H as <-|]. iso_num H. ops H.
  destruct b as [|c r]; [now injection H as <-|]. destruct (c =? 58); [|discriminate H]. cbn [negb] in H.
  assert (nodig r) as Nr by (match goal with N : nodig (_ :: r) |- _ => now inversion N end).
  iso_num H. ops H. destruct b; [now injection H as <-|discriminate H].
Qed.

Lemma iso_zero md : forall fuel s dp hf x, nodig s -> iso_loop md fuel s dp hf zero_x = Ok x -> x = zero_x.
Proof.
  induction fuel as [|fuel IH]; intros s dp hf x N H; [discriminate H|]. cbn [iso_loop] in H.
  destruct s as [|c0 s']; [now injection H as <-|]. pose proof N as N'. inversion N' as [|? ? D0 Ns]; subst.
  destruct (c0 =? 84); [eapply IH; eauto|].
  iso_num H.
  match type of H with context [match ?l with [] => (0, []) | _ => _ end] =>
    assert (exists u r, match l with [] => (0, []) | c :: r => (c, r) end = (u, r) /\ nodig r) as (u & r & Eu & Nr)
      by (destruct l as [|c r]; [exists 0, []; split; [reflexivity|constructor]|exists c, r; split; [reflexivity|now inversion C]]) end.
  rewrite Eu in H.
  match goal with W : iso8601_integer_width _ = 0 |- _ => rewrite W in H end.
  change (0 =? 8) with false in H. change (0 =? 6) with false in H. cbn [andb] in H.
  assert ((let* q := decode_date_part_left md r u hf 0 f0 zero_x in
           match q with (x, None) => Ok x | (x, Some s) => iso_loop md fuel s false false x end) = Ok x -> x = zero_x) as L.
  { intros L. destruct (decode_date_part_left md r u hf 0 f0 zero_x) as [[x1 o]| |] eqn:E; [|discriminate L..].
    cbn [bind] in L. destruct (date_left_zero _ _ _ _ _ _ Nr E) as (-> & Q). destruct o as [s1|]; [|now injection L as <-].
    eapply IH; [|exact L]. now apply Q. }
  ops H.
  repeat match type of H with (if ?b then _ else _) = _ => destruct b end;
    ops H; first [discriminate H | now apply L | eapply IH; [|exact H]; assumption | eapply time_left_zero; [|exact H]; assumption].
Qed.

Lemma typmod_zero md p a : interval_adjust_by_typmod md (from_mdt 0 0 0) p = Ok a -> a = from_mdt 0 0 0.
Proof.
  unfold interval_adjust_by_typmod. destruct (0 <=? p); [|congruence].
  set (pr := interval_precision p). set (rg := interval_range p).
  match goal with |- (let* a := ?m in _) = _ -> _ => assert (m = Ok (from_mdt 0 0 0) \/ exists e, m = Err e) as [-> |[e ->]] end; [| |discriminate].
  - repeat match goal with |- (if ?b then _ else _) = _ \/ _ => destruct b end; first [left; reflexivity|right; eexists; reflexivity].
  - cbn [bind]. destruct (pr =? INTERVAL_FULL_PRECISION); cbn [negb]; [congruence|].
    destruct ((pr <? 0) || (6 <? pr)) eqn:B; [discriminate|].
    assert (In pr [0; 1; 2; 3; 4; 5; 6]) as I by (cbn [In]; lia).
    cbn [from_mdt iv_time iv_month iv_day].
    cbn [In] in I. repeat destruct I as [<-|I]; try contradiction; destruct md; vm_compute; congruence.
Qed.

Lemma interval_nodig md s p st a : nodig s -> interval_try_from_str md s p st = Ok a -> a = from_mdt 0 0 0.
Proof.
  intros N. unfold interval_try_from_str. cbv zeta. set (range := if 0 <=? p then _ else _).
  destruct (parse_date_time s) as [ts| |] eqn:E; [|discriminate..]. cbn [bind].
  pose proof (decode_interval_zero md ts range st (parse_plain s ts N E)) as Z0.
  destruct (decode_interval md ts range st (tm_new, 0)) as [x r]. cbn [fst] in Z0. subst x.
  assert (interval_from_pgtime md (fst zero_x) (snd zero_x) = Ok (from_mdt 0 0 0)) as F0 by (destruct md; vm_compute; reflexivity).
  intros H.
  match type of H with (let* q := ?m in _) = _ => assert (forall y k, m = Ok (y, k) -> y = zero_x) as X end.
  { intros y k. destruct r as [k'|[]|]; try discriminate.
    - now intros K; injection K as <- <-.
    - destruct (decode_iso8601_interval md s zero_x) as [y'| |] eqn:E1; [|discriminate..]. cbn [bind].
      intros K. injection K as <- <-. unfold decode_iso8601_interval in E1. cbn [fst zero_x] in E1. fold zero_x in E1.
      destruct s as [|c [|c1 s']]; [discriminate E1..|]. destruct (c =? 80); [|discriminate E1].
      eapply iso_zero; [|exact E1]. now inversion N. }
  match type of H with (let* q := ?m in _) = _ => destruct m as [[y k]| |] eqn:E2; [|discriminate H..] end.
  cbn [bind] in H. rewrite (X y k eq_refl) in H. destruct k; try discriminate H. rewrite F0 in H. cbn [bind] in H.
  eapply typmod_zero; exact H.
Qed.
