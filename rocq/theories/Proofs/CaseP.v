(** The case of letters does not matter to the parsers. *)
From Coq Require Import String.
From Verif Require Import Model.Parse Spec.Text Spec.Lexing Proofs.Arith Proofs.DigitsP Proofs.LexP Proofs.IvParseP Proofs.TokenP Proofs.FoldP.
From Coq Require Import List ZArith Bool Lia.
Import ListNotations.
Open Scope Z_scope.

Definition alead (f : bytes) : bool := match f with c :: _ => is_alpha c | [] => false end.

(** ** A date field holds at most one run of letters *)

Lemma str2i32_alpha c r : is_alpha c = true -> str2i32 (c :: r) = Ok (0, c :: r).
Proof.
  intros A. unfold str2i32. rewrite eat_ws_cons by now apply alpha_solid. unfold extract_sign.
  replace (c =? 43) with false by (unfold is_alpha, is_upper, is_lower in A; lia).
  replace (c =? 45) with false by (unfold is_alpha, is_upper, is_lower in A; lia).
  unfold eat_digits. cbn [eat]. replace (is_digit c) with false by (unfold is_alpha, is_upper, is_lower, is_digit in *; lia).
  reflexivity.
Qed.

Lemma number_alpha md f have fm st order : alead f = true -> decode_number md f have fm st order = Err EInvalid.
Proof.
  destruct f as [|c r]; [discriminate|]. cbn [alead]. intros A. unfold decode_number. rewrite str2i32_alpha by exact A.
  cbn [bind]. now rewrite (proj2 (TokenP.beq_eq _ _) eq_refl).
Qed.

(** The fields set by the numbers of a date *)
Definition cnt (fm : Z) : nat :=
  ((if has fm (mask YEAR) then 0 else 1) + (if has fm (mask MONTH) then 0 else 1)
   + (if has fm (mask DAY) then 0 else 1) + (if has fm (mask HOUR) then 0 else 1))%nat.

Definition date_mask (t : Z) : Prop :=
  has t (mask YEAR) = true \/ has t (mask MONTH) = true \/ has t (mask DAY) = true \/ has t (mask HOUR) = true.

Lemma has_part fm t b : Z.land t (mask b) = mask b -> has fm t = false -> has fm (mask b) = false.
Proof.
  intros B H. unfold has in *. apply negb_false_iff, Z.eqb_eq in H. apply negb_false_iff, Z.eqb_eq.
  rewrite <- B, Z.land_assoc, H. reflexivity.
Qed.

Lemma mask_bit t b : mask b = 2 ^ tt_code b -> has t (mask b) = true -> Z.land t (mask b) = mask b.
Proof.
  intros M. unfold has. rewrite M. intros H. apply negb_true_iff, Z.eqb_neq in H.
  assert (0 <= tt_code b) as Tc by (destruct b; discriminate). rewrite Z.land_comm in *.
  assert (Z.testbit t (tt_code b) = true) as T.
  { destruct (Z.testbit t (tt_code b)) eqn:T; [reflexivity|]. exfalso. apply H. apply Z.bits_inj'. intros n Hn.
    rewrite Z.land_spec, Z.bits_0, Z.pow2_bits_eqb by exact Tc. destruct (Z.eqb_spec (tt_code b) n) as [<-|]; [now rewrite T|reflexivity]. }
  apply Z.bits_inj'. intros n Hn. rewrite Z.land_spec, Z.pow2_bits_eqb by exact Tc.
  destruct (Z.eqb_spec (tt_code b) n) as [<-|]; [now rewrite T|reflexivity].
Qed.

Lemma cnt_lor fm t : date_mask t -> has fm t = false -> (cnt (Z.lor fm t) < cnt fm)%nat.
Proof.
  intros D H. unfold cnt, date_mask in *. rewrite !has_lor.
  pose proof (has_part fm t YEAR) as Y. pose proof (has_part fm t MONTH) as M.
  pose proof (has_part fm t DAY) as Dy. pose proof (has_part fm t HOUR) as Hr.
  pose proof (mask_bit t YEAR eq_refl) as Y'. pose proof (mask_bit t MONTH eq_refl) as M'.
  pose proof (mask_bit t DAY eq_refl) as D'. pose proof (mask_bit t HOUR eq_refl) as H'.
  destruct (has t (mask YEAR)), (has t (mask MONTH)), (has t (mask DAY)), (has t (mask HOUR)); rewrite ?orb_true_r, ?orb_false_r;
    try rewrite Y by auto; try rewrite M by auto; try rewrite Dy by auto; try rewrite Hr by auto;
    destruct (has fm (mask YEAR)), (has fm (mask MONTH)), (has fm (mask DAY)), (has fm (mask HOUR)); try lia;
    destruct D as [D|[D|[D|D]]]; discriminate.
Qed.

Lemma cnt_le fm t : (cnt (Z.lor fm t) <= cnt fm)%nat.
Proof. unfold cnt. rewrite !has_lor. repeat destruct (has _ _); cbn [orb]; lia. Qed.

Lemma field_mask str fm st st' k : decode_number_field str fm st = (st', Ok k) -> n_tmask st' = DTK_TIME_M \/ n_tmask st' = DTK_DATE_M.
Proof.
  unfold decode_number_field.
  assert (forall st len st' k,
    (if negb (Z.land fm DTK_TIME_M =? DTK_TIME_M) then
      if Nat.eqb len 6 then
        let st := mkN DTK_TIME_M (n_tm st) (n_fsec st) (n_2d st) in
        match str2i32 (skipn 4 str) with
        | Ok (v, _) =>
            let st := mkN DTK_TIME_M (set_sec v (n_tm st)) (n_fsec st) (n_2d st) in
            match str2i32 (sub_bytes str 2 2) with
            | Ok (v, _) =>
                let st := mkN DTK_TIME_M (set_min v (n_tm st)) (n_fsec st) (n_2d st) in
                match str2i32 (sub_bytes str 0 2) with
                | Ok (v, _) => (mkN DTK_TIME_M (set_hour v (n_tm st)) (n_fsec st) (n_2d st), Ok KTime)
                | Err e => (st, Err e) | Fault x => (st, Fault x) end
            | Err e => (st, Err e) | Fault x => (st, Fault x) end
        | Err e => (st, Err e) | Fault x => (st, Fault x) end
      else if Nat.eqb len 4 then
        let st := mkN DTK_TIME_M (set_sec 0 (n_tm st)) (n_fsec st) (n_2d st) in
        match str2i32 (skipn 2 str) with
        | Ok (v, _) =>
            let st := mkN DTK_TIME_M (set_min v (n_tm st)) (n_fsec st) (n_2d st) in
            match str2i32 (sub_bytes str 0 2) with
            | Ok (v, _) => (mkN DTK_TIME_M (set_hour v (n_tm st)) (n_fsec st) (n_2d st), Ok KTime)
            | Err e => (st, Err e) | Fault x => (st, Fault x) end
        | Err e => (st, Err e) | Fault x => (st, Fault x) end
      else (st, Err EInvalid)
    else (st, Err EInvalid)) = (st', Ok k) -> n_tmask st' = DTK_TIME_M) as T.
  { intros s0 len s1 k1. destruct (negb _); [|discriminate]. cbv zeta. destruct (Nat.eqb len 6).
    - destruct (str2i32 _) as [[v ?]|e|x]; [|discriminate..]. destruct (str2i32 _) as [[v2 ?]|e|x]; [|discriminate..].
      destruct (str2i32 _) as [[v3 ?]|e|x]; [|discriminate..]. intros Q. injection Q as <- _. reflexivity.
    - destruct (Nat.eqb len 4); [|discriminate]. destruct (str2i32 _) as [[v ?]|e|x]; [|discriminate..].
      destruct (str2i32 _) as [[v2 ?]|e|x]; [|discriminate..]. intros Q. injection Q as <- _. reflexivity. }
  cbv zeta in T |- *. destruct (negb (Nat.eqb (length str) (length (before 46 str)))).
  - destruct (str2d _) as [[v ?]|e|x]; [|discriminate..]. intros H. left. exact (T _ _ _ _ H).
  - destruct (negb (Z.land fm DTK_DATE_M =? DTK_DATE_M) && Nat.leb 6 (length str)).
    + clear T. destruct (str2i32 _) as [[v ?]|e|x]; [|discriminate..]. destruct (str2i32 _) as [[v2 ?]|e|x]; [|discriminate..].
      destruct (str2i32 _) as [[v3 ?]|e|x]; [|discriminate..]. intros Q. injection Q as <- _. now right.
    + intros H. left. exact (T _ _ _ _ H).
Qed.

Lemma str2i32_digits f v s : forallb is_digit f = true -> str2i32 f = Ok (v, s) -> s = [].
Proof.
  intros F. unfold str2i32. destruct f as [|c f]; [intros Q; now injection Q as _ <-|].
  pose proof F as F'. cbn [forallb] in F'. apply andb_true_iff in F' as [Dc _].
  rewrite eat_ws_cons by now apply digit_solid. unfold extract_sign.
  replace (c =? 43) with false by (unfold is_digit in Dc; lia). replace (c =? 45) with false by (unfold is_digit in Dc; lia).
  unfold eat_digits. rewrite <- (app_nil_r (c :: f)) at 1. rewrite eat_app by easy.
  destruct (10 <? blen (c :: f)); [discriminate|]. destruct (in32b _); [|discriminate]. intros Q. now injection Q as _ <-.
Qed.

Lemma number_mask md f have fm st order st' : f <> [] -> forallb is_digit f = true ->
  decode_number md f have fm st order = Ok st' -> date_mask (n_tmask st').
Proof.
  intros Nf F. unfold decode_number. intros H. apply bind_inv in H as ([v s] & Es & H).
  apply str2i32_digits in Es; [|exact F]. subst s. destruct (beq [] f); [discriminate|].
  set (len := blen f) in *. set (date := Z.land fm DTK_DATE_M) in *. cbv zeta in H.
  unfold date_mask.
  destruct ((len =? 3) && (date =? mask YEAR) && (1 <=? v) && (v <=? 366)); [injection H as <-; cbn [n_tmask]; auto|].
  destruct (date =? 0).
  { destruct ((3 <=? len) || is_ymd order); [injection H as <-; auto|]. destruct (is_dmy order); injection H as <-; auto. }
  destruct (date =? DTK_YEAR_M); [injection H as <-; auto|].
  destruct (date =? DTK_MONTH_M).
  { destruct have; [destruct ((3 <=? len) || is_ymd order)|]; injection H as <-; auto. }
  destruct (date =? DTK_YEAR_MONTH_M).
  { destruct (have && _); injection H as <-; auto. }
  destruct (date =? DTK_DAY_M); [injection H as <-; auto|].
  destruct (date =? DTK_MONTH_DAY_M); [injection H as <-; auto|].
  destruct (date =? DTK_DATE_M); [|discriminate].
  apply bind_inv in H as ([st1 k] & H & Q). injection Q as <-. unfold number_field in H.
  destruct (decode_number_field f fm _) as [st2 r] eqn:E. apply bind_inv in H as (k' & -> & Q). injection Q as <- _.
  cbn [fst]. apply field_mask in E as [-> | ->]; auto.
Qed.

(** Parts *)
Definition part (f : bytes) : Prop := f <> [] /\ (alead f = true \/ forallb is_digit f = true).
Definition opart (o : option bytes) : Prop := match o with Some f => part f | None => True end.
Definition nones (os : list (option bytes)) : nat := length (filter (fun o => match o with None => true | _ => false end) os).
Definition asome (o : option bytes) : bool := match o with Some f => alead f | None => false end.

Lemma number_parts_bound md os have order : forall fm t tm d2 fs r, Forall opart os ->
  number_parts md os have order fm t tm d2 fs = Ok r ->
  existsb asome os = false /\ (length os <= cnt fm + nones os)%nat.
Proof.
  induction os as [|o os IH]; intros fm t tm d2 fs r F H; [split; [reflexivity|cbn; lia]|].
  inversion F as [|? ? Po Fo]; subst. cbn [number_parts] in H. destruct o as [f|].
  - destruct Po as [Nf Pf]. destruct f as [|c f]; [easy|]. apply bind_inv in H as (st & E & H).
    destruct Pf as [A|Dg]; [rewrite number_alpha in E by exact A; discriminate|].
    destruct (has fm (n_tmask st)) eqn:Hm; [discriminate|]. apply IH in H as [H1 H2]; [|exact Fo].
    apply number_mask in E; [|easy|exact Dg]. pose proof (cnt_lor fm _ E Hm).
    cbn [existsb asome alead]. rewrite H1. split; [|unfold nones in *; cbn [filter length] in *; lia].
    cbn [forallb] in Dg. apply andb_true_iff in Dg as [Dc _]. unfold is_digit, is_alpha, is_upper, is_lower in *. lia.
  - apply IH in H as [H1 H2]; [|exact Fo]. split; [exact H1|]. unfold nones in *. cbn [filter length] in *. lia.
Qed.

Lemma text_month_count parts : forall fm t tm have os fm' t' tm' have', Forall part parts ->
  text_month parts fm t tm have = Ok (os, fm', t', tm', have') ->
  Forall opart os /\ length os = length parts /\ (nones os <= (if has fm (mask MONTH) then 0 else 1))%nat
  /\ (length (filter alead parts) <= nones os + length (filter asome os))%nat.
Proof.
  induction parts as [|f parts IH]; intros fm t tm have os fm' t' tm' have' F H; cbn [text_month] in H.
  { injection H as <- _ _ _ _. repeat split; cbn; try lia. constructor. }
  inversion F as [|? ? Pf Fp]; subst. cbv zeta in H.
  assert ((let* q := text_month parts fm t tm have in let '(fs, fm1, t1, tm1, h1) := q in Ok (Some f :: fs, fm1, t1, tm1, h1))
    = Ok (os, fm', t', tm', have') -> Forall opart os /\ length os = length (f :: parts)
    /\ (nones os <= (if has fm (mask MONTH) then 0 else 1))%nat
    /\ (length (filter alead (f :: parts)) <= nones os + length (filter asome os))%nat) as Keep.
  { intros K. apply bind_inv in K as ([[[[fs f1] t1] tm1] h1] & E & K). injection K as <- _ _ _ _.
    apply IH in E as (A & B & C & D); [|exact Fp]. repeat split.
    - constructor; assumption.
    - cbn [length]. lia.
    - unfold nones in *. cbn [filter]. exact C.
    - unfold nones in *. cbn [filter asome]. destruct (alead f); cbn [length]; lia. }
  destruct f as [|c f]; [now apply Keep|]. destruct (is_alpha c) eqn:A; [|now apply Keep].
  apply bind_inv in H as ([ty val] & _ & H). destruct (tteq ty IgnoreDtf); [now apply Keep|].
  destruct (tteq ty MONTH); [|discriminate]. destruct (has fm (mask MONTH)) eqn:Hm; [discriminate|].
  apply bind_inv in H as ([[[[fs f1] t1] tm1] h1] & E & K). injection K as <- _ _ _ _.
  apply IH in E as (Aa & B & C & D); [|exact Fp]. rewrite has_lor in C.
  assert (has (mask MONTH) (mask MONTH) = true) as Mm by reflexivity. rewrite Mm, orb_true_r in C.
  unfold nones in *. repeat split.
  - constructor; [exact I|assumption].
  - cbn [length]. lia.
  - cbn [filter length]. lia.
  - cbn [filter asome alead]. rewrite A. cbn [length] in *. lia.
Qed.

Lemma date_parts_part fuel : forall nf s parts, date_parts fuel nf s = Ok parts -> Forall part parts.
Proof.
  induction fuel as [|fuel IH]; intros nf s parts H; [discriminate|]. cbn [date_parts] in H.
  destruct s as [|c0 s0]; [injection H as <-; constructor|]. destruct (MAX_DATE_FIELDS <=? nf); [injection H as <-; constructor|].
  pose proof (eat_split (fun i => negb (is_alnum i)) (c0 :: s0)) as S.
  destruct (eat (fun i => negb (is_alnum i)) (c0 :: s0)) as [a b]. cbn [snd] in H. destruct S as (_ & _ & St).
  destruct b as [|c r]; [discriminate|]. cbn in St. destruct (is_digit c) eqn:Dc.
  - unfold eat_digits in H. pose proof (eat_split is_digit (c :: r)) as S. cbn [eat] in *. rewrite Dc in *.
    destruct (eat is_digit r) as [g p]. destruct S as (_ & F & _). apply bind_inv in H as (fs & E & H). injection H as <-.
    constructor; [split; [easy|now right]|]. eapply IH; eassumption.
  - unfold eat_alphabetics in H. assert (is_alpha c = true) as Ac by (unfold is_alnum in St; rewrite Dc in St; destruct (is_alpha c); easy).
    cbn [eat] in H. rewrite Ac in H. destruct (eat is_alpha r) as [g p]. apply bind_inv in H as (fs & E & H). injection H as <-.
    constructor; [split; [easy|now left]|]. eapply IH; eassumption.
Qed.

(** A letter of the field is in a part, unless there are too many parts. *)
Lemma date_parts_alpha fuel : forall nf s parts u, date_parts fuel nf s = Ok parts -> nf + Z.of_nat (length parts) < 25 ->
  In u s -> is_alpha u = true -> (1 <= length (filter alead parts))%nat.
Proof.
  induction fuel as [|fuel IH]; intros nf s parts u H L I A; [discriminate|]. cbn [date_parts] in H.
  destruct s as [|c0 s0]; [easy|]. unfold MAX_DATE_FIELDS in H.
  destruct (Z.leb_spec 25 nf); [injection H as <-; cbn [length] in L; lia|].
  pose proof (eat_split (fun i => negb (is_alnum i)) (c0 :: s0)) as S.
  destruct (eat (fun i => negb (is_alnum i)) (c0 :: s0)) as [a b]. cbn [snd] in H. destruct S as (E0 & Fa & St).
  destruct b as [|c r]; [discriminate|]. cbn in St.
  assert (In u (c :: r)) as Iu.
  { rewrite E0 in I. apply in_app_or in I as [I|I]; [|exact I]. exfalso. rewrite forallb_forall in Fa. apply Fa in I.
    unfold is_alnum in I. rewrite A in I. discriminate. }
  destruct (is_digit c) eqn:Dc.
  - unfold eat_digits in H. pose proof (eat_split is_digit (c :: r)) as S. cbn [eat] in *. rewrite Dc in *.
    destruct (eat is_digit r) as [g p]. destruct S as (E1 & F & _). apply bind_inv in H as (fs & E & H). injection H as <-.
    cbn [length] in L. assert (1 <= length (filter alead fs))%nat as K.
    { apply (IH (nf + 1) p fs u E); [lia| |exact A]. rewrite E1 in Iu. apply in_app_or in Iu as [Iu|Iu]; [|exact Iu]. exfalso.
      rewrite forallb_forall in F. apply F in Iu. unfold is_digit, is_alpha, is_upper, is_lower in *. lia. }
    cbn [filter]. destruct (alead (c :: g)); cbn [length]; lia.
  - unfold eat_alphabetics in H. assert (is_alpha c = true) as Ac by (unfold is_alnum in St; rewrite Dc in St; destruct (is_alpha c); easy).
    cbn [eat] in H. rewrite Ac in H. destruct (eat is_alpha r) as [g p]. apply bind_inv in H as (fs & E & H). injection H as <-.
    cbn [filter alead]. rewrite Ac. cbn [length]. lia.
Qed.

Definition compound (f : bytes) : Prop :=
  exists g x p u b, f = g ++ x :: p ++ u :: b /\ g <> [] /\ forallb is_alpha g = true /\ is_alpha x = false /\ is_alpha u = true.

Lemma compound_no_date md f fm d2 tm order v : compound f -> decode_date md f fm d2 tm order <> Ok v.
Proof.
  intros (g & x & p & u & b & -> & Ng & Fg & Ax & Au) H. unfold decode_date in H.
  apply bind_inv in H as (parts & E & H). apply bind_inv in H as ([[[[os fm'] t'] tm'] have'] & T & H).
  apply bind_inv in H as ([[[fm2 t2] tm2] d22] & N & _).
  pose proof (date_parts_part _ _ _ _ E) as P. apply text_month_count in T as (Po & Lo & Nn & C); [|exact P].
  apply number_parts_bound in N as (Na & Ln); [|exact Po].
  assert (cnt fm' <= 4)%nat as C4 by (unfold cnt; repeat destruct (has _ _); lia).
  assert (nones os <= 1)%nat as N1 by (destruct (has fm (mask MONTH)); lia).
  assert (filter asome os = []) as Fa.
  { clear -Na. induction os as [|o os IH]; [reflexivity|]. cbn [existsb filter] in *. apply orb_false_iff in Na as [-> Na]. auto. }
  rewrite Fa in C. cbn [length] in C.
  destruct g as [|c g]; [easy|].
  pose proof Fg as Fc. cbn [forallb] in Fc. apply andb_true_iff in Fc as [Ac _].
  assert (exists fuel fs, date_parts fuel 1 (x :: p ++ u :: b) = Ok fs /\ parts = (c :: g) :: fs) as (fuel & fs & E' & ->).
  { remember (length ((c :: g) ++ x :: p ++ u :: b)) as n eqn:Hn. clear Hn. remember (x :: p ++ u :: b) as rest eqn:Hr.
    cbn [app date_parts] in E. unfold MAX_DATE_FIELDS in E. change (25 <=? 0) with false in E. cbv iota in E.
    cbn [eat] in E. unfold is_alnum at 1 in E. rewrite Ac in E. cbn [orb negb snd] in E.
    replace (is_digit c) with false in E by (unfold is_digit, is_alpha, is_upper, is_lower in *; lia).
    unfold eat_alphabetics in E. change (c :: g ++ rest) with ((c :: g) ++ rest) in E.
    rewrite eat_app in E by (auto; subst rest; cbn; now rewrite Ax). apply bind_inv in E as (fs & E & Q). injection Q as <-.
    exists n, fs. split; [exact E|reflexivity]. }
  assert (1 <= length (filter alead fs))%nat as K.
  { apply (date_parts_alpha _ _ _ _ u E'); [|right; apply in_or_app; right; now left|exact Au]. cbn [length] in *. lia. }
  cbn [filter alead] in C. rewrite Ac in C. cbn [length] in C. lia.
Qed.

(** ** Fields that are not in lower case *)
Definition fc (t : token) : Prop := folded t \/ fst t = Some KDate /\ compound (snd t).

Lemma alpha_begin_fc c r x : is_alpha c = true -> alpha_begin (c :: r) = Ok x -> fc (fst x).
Proof.
  intros Hc. unfold alpha_begin, eat_alphabetics. pose proof (eat_split is_alpha (c :: r)) as S.
  cbn [eat] in *. rewrite Hc in *. destruct (eat is_alpha r) as [g s1]. destruct S as (E & F & St).
  intros H. apply bind_inv in H as (b & Hb & H). destruct b.
  - pose proof (eat_split date_word_char s1) as S. destruct (eat date_word_char s1) as [f1 s2]. destruct S as (-> & F1 & _).
    injection H as <-. unfold fc, folded. cbn [fst snd]. rewrite lowers_cons, lower_lower, FoldP.lowers_app, lowers_lowers.
    destruct (list_eq_dec Z.eq_dec (lowers f1) f1) as [Q|N]; [left; now rewrite Q|right]. split; [reflexivity|].
    apply capital_in in N as (p & u & q & -> & U).
    destruct p as [|y p].
    { exfalso. cbn [app] in St. cbn in St. unfold is_alpha in St. rewrite U in St. discriminate. }
    exists (lowers (c :: g)), y, p, u, q. split; [reflexivity|]. split; [discriminate|]. split; [|split].
    + apply forallb_forall. intros z Hz. apply in_map_iff in Hz as (z' & <- & Hz). rewrite FoldP.lower_alpha.
      revert z' Hz. now apply forallb_forall.
    + cbn in St. destruct (is_alpha y); easy.
    + unfold is_alpha. now rewrite U.
  - injection H as <-. left. unfold folded. cbn [fst snd]. exact (lowers_lowers (c :: g)).
Qed.

Lemma tokenize_fc fuel : forall n room s ts, tokenize fuel n room s = Ok ts -> Forall fc ts.
Proof.
  induction fuel as [|fuel IH]; intros n room s ts; cbn [tokenize]; [discriminate|].
  destruct (eat_whitespaces s) as [|c r]; [intros Q; injection Q as <-; constructor|].
  destruct (MAX_DATE_FIELDS <=? n); [discriminate|]. cbv zeta.
  assert (forall t rest, fc t ->
    (let* room' := use_buf room (snd t) in let* us := tokenize fuel (n + 1) room' rest in Ok (t :: us)) = Ok ts ->
    Forall fc ts) as Add.
  { intros t rest Ft H. apply bind_inv in H as (room' & _ & H). apply bind_inv in H as (us & H & Q). injection Q as <-.
    constructor; [exact Ft|]. eapply IH; eassumption. }
  destruct (is_digit c) eqn:D.
  { pose proof (digit_begin_folded (c :: r)) as K. destruct (digit_begin (c :: r)) as [t rest]. apply Add. now left. }
  destruct (c =? 46).
  { pose proof (dot_begin_folded r) as K. destruct (dot_begin r) as [t rest]. apply Add. now left. }
  destruct (is_alpha c) eqn:Ha.
  { intros H. apply bind_inv in H as ([t rest] & Q & H). apply (Add t rest); [|exact H]. exact (alpha_begin_fc c r (t, rest) Ha Q). }
  destruct ((c =? 43) || (c =? 45)).
  { intros H. apply bind_inv in H as (room' & _ & H). apply bind_inv in H as ([t rest] & Q & H).
    apply (Add t rest); [|exact H]. left. exact (sign_begin_folded c r (t, rest) Ha Q). }
  destruct (is_punct c); [|discriminate]. apply IH.
Qed.

Lemma parse_fc s ts : parse_date_time s = Ok ts -> Forall fc ts.
Proof. unfold parse_date_time. destruct s; [discriminate|]. apply tokenize_fc. Qed.

Lemma compound_low f : compound f -> compound (lowers f).
Proof.
  intros (g & x & p & u & b & -> & Ng & Fg & Ax & Au).
  exists (lowers g), (lower x), (lowers p), (lower u), (lowers b). rewrite FoldP.lowers_app, lowers_cons, FoldP.lowers_app, lowers_cons.
  split; [reflexivity|]. split; [now destruct g|]. split; [|now rewrite !FoldP.lower_alpha].
  apply forallb_forall. intros z Hz. apply in_map_iff in Hz as (z' & <- & Hz). rewrite FoldP.lower_alpha.
  revert z' Hz. now apply forallb_forall.
Qed.

Lemma compound_alead f : compound f -> alead f = true.
Proof.
  intros (g & x & p & u & b & -> & Ng & Fg & _). destruct g as [|c g]; [easy|]. cbn [app alead forallb] in *.
  now apply andb_true_iff in Fg.
Qed.

(** The same successes *)
Definition eqok {A} (r r' : res A) : Prop := forall v, r = Ok v <-> r' = Ok v.

Lemma eqok_refl {A} (r : res A) : eqok r r. Proof. easy. Qed.
Lemma eqok_none {A} (r r' : res A) : (forall v, r <> Ok v) -> (forall v, r' <> Ok v) -> eqok r r'.
Proof. intros H H' v. split; intros E; [now apply H in E|now apply H' in E]. Qed.
Lemma eqok_bind {A B} (r r' : res A) (f f' : A -> res B) : eqok r r' -> (forall a, eqok (f a) (f' a)) -> eqok (bind r f) (bind r' f').
Proof.
  intros R F v. split; intros E; apply bind_inv in E as (a & Ea & E).
  - apply R in Ea. rewrite Ea. cbn [bind]. now apply F.
  - apply R in Ea. rewrite Ea. cbn [bind]. now apply F.
Qed.

Lemma ctx_date_compound md f order c v : compound f -> ctx_decode_date md f order c <> Ok v.
Proof. intros C H. unfold ctx_decode_date in H. apply bind_inv in H as (q & H & _). now apply compound_no_date in H. Qed.

Lemma date_token_compound md f order c v : compound f -> decode_date_token md f order c <> Ok v.
Proof.
  intros C H. pose proof (compound_alead f C) as A. unfold decode_date_token in H. destruct (tfeq (c_ptype c) KJulian).
  { apply bind_inv in H as (p & _ & H). apply bind_inv in H as (q & _ & H). discriminate. }
  destruct (negb (is_num (c_ptype c)) || _) eqn:E; [|now apply ctx_date_compound in H].
  destruct f as [|ch r]; [discriminate|]. cbn [alead] in A.
  replace (is_digit ch) with false in H by (unfold is_digit, is_alpha, is_upper, is_lower in *; lia).
  destruct (negb (is_num (c_ptype c))); cbn [orb] in H; [|discriminate].
  destruct (negb (tfeq (c_ptype c) KTime)); [discriminate|]. cbv zeta in H.
  clear E. match type of H with (if ?b then _ else _) = _ => destruct b end; [discriminate|].
  match type of H with (if ?b then _ else _) = _ => destruct b end; discriminate.
Qed.

Lemma string_next field nx c : decode_string_token field (option_map low nx) c = decode_string_token field nx c.
Proof.
  destruct nx as [[t f]|]; [|reflexivity]. unfold decode_string_token. destruct (decode_special field) as [[ty val]|e|fa]; [|reflexivity..].
  cbn [bind option_map]. reflexivity.
Qed.
Lemma time_string_next field nx c : time_string_token field (option_map low nx) c = time_string_token field nx c.
Proof.
  destruct nx as [[t f]|]; [|reflexivity]. unfold time_string_token. destruct (decode_special field) as [[ty val]|e|fa]; [|reflexivity..].
  cbn [bind option_map]. reflexivity.
Qed.

Lemma low_folded t : folded t -> low t = t.
Proof. destruct t as [k f]. unfold folded, low. cbn [fst snd]. now intros ->. Qed.

Lemma field_low md order t nx c : fc t ->
  eqok (date_time_field md order t nx c) (date_time_field md order (low t) (option_map low nx) c).
Proof.
  intros [F|[K C]].
  - rewrite (low_folded t F). unfold date_time_field. rewrite string_next. apply eqok_refl.
  - destruct t as [k f]. cbn [fst snd] in *. subst k. apply eqok_none; intros v H; unfold date_time_field, low in H; cbn [fst snd read_type bind] in H;
      apply bind_inv in H as (c' & H & _); apply date_token_compound in H; auto using compound_low.
Qed.

Lemma hd_low ts : hd_error (List.map low ts) = option_map low (hd_error ts).
Proof. now destruct ts. Qed.

Lemma fields_low md order ts : Forall fc ts -> forall c,
  eqok (date_time_fields md order ts c) (date_time_fields md order (List.map low ts) c).
Proof.
  induction 1 as [|t ts Ft _ IH]; intros c; [apply eqok_refl|]. cbn [List.map date_time_fields]. rewrite hd_low.
  apply eqok_bind; [now apply field_low|exact IH].
Qed.

Lemma decode_low md order ts : Forall fc ts -> eqok (decode_date_time md order ts) (decode_date_time md order (List.map low ts)).
Proof. intros F. unfold decode_date_time. apply eqok_bind; [now apply fields_low|]. intros a. apply eqok_refl. Qed.

Lemma time_date_compound md id types f order c v : compound f -> time_date_token md id types f order c <> Ok v.
Proof.
  intros C H. unfold time_date_token in H. destruct (_ && _); [|discriminate]. apply bind_inv in H as (l & _ & H).
  apply bind_inv in H as (b & _ & H). destruct b; [|discriminate]. now apply ctx_date_compound in H.
Qed.

Lemma time_field_low md order id types t nx c : fc t ->
  eqok (time_only_field md order id types t nx c) (time_only_field md order id types (low t) (option_map low nx) c).
Proof.
  intros [F|[K C]].
  - rewrite (low_folded t F). unfold time_only_field. rewrite time_string_next. apply eqok_refl.
  - destruct t as [k f]. cbn [fst snd] in *. subst k. apply eqok_none; intros v H; unfold time_only_field, low in H; cbn [fst snd read_type bind] in H;
      apply bind_inv in H as (c' & H & _); apply time_date_compound in H; auto using compound_low.
Qed.

Lemma time_fields_low md order types ts : Forall fc ts -> forall id c,
  eqok (time_only_fields md order id types ts c) (time_only_fields md order id types (List.map low ts) c).
Proof.
  induction 1 as [|t ts Ft _ IH]; intros id c; [apply eqok_refl|]. cbn [List.map time_only_fields]. rewrite hd_low.
  apply eqok_bind; [now apply time_field_low|intros a; apply IH].
Qed.

Lemma time_decode_low md order ts : Forall fc ts -> eqok (decode_time_only md order ts) (decode_time_only md order (List.map low ts)).
Proof.
  intros F. unfold decode_time_only. replace (List.map fst (List.map low ts)) with (List.map fst ts) by (rewrite map_map; reflexivity).
  apply eqok_bind; [now apply time_fields_low|]. intros a. apply eqok_refl.
Qed.

(** Intervals: such a field is no number. *)
Lemma interval_number_alpha md f ty : alead f = true -> interval_number md f ty = Err EInvalid.
Proof.
  destruct f as [|c r]; [discriminate|]. cbn [alead]. intros A. unfold interval_number. rewrite str2i32_alpha by exact A. cbn [bind].
  replace (c =? 45) with false by (unfold is_alpha, is_upper, is_lower in A; lia).
  now replace (c =? 46) with false by (unfold is_alpha, is_upper, is_lower in A; lia).
Qed.

Lemma interval_field_low md range t i x : fc t -> interval_field md range (low t) i x = interval_field md range t i x.
Proof.
  intros [F|[K C]]; [now rewrite (low_folded t F)|].
  destruct t as [k f]. cbn [fst snd] in *. subst k. unfold interval_field, low. cbn [fst snd].
  pose proof (compound_alead _ C) as A. pose proof (compound_alead _ (compound_low _ C)) as A'.
  unfold interval_number_field. now rewrite !interval_number_alpha.
Qed.

Lemma interval_fields_low md range ts : Forall fc ts -> forall i x,
  interval_fields md range (List.map low ts) i x = interval_fields md range ts i x.
Proof.
  induction 1 as [|t ts Ft _ IH]; intros i x; [reflexivity|]. cbn [List.map interval_fields]. rewrite interval_field_low by exact Ft.
  destruct (interval_field md range t i x) as [x' [i'|e|f]]; cbn [step_bind]; auto.
Qed.

Lemma starts_sign_low t : starts_sign (low t) = starts_sign t.
Proof. destruct t as [k [|c f]]; [reflexivity|]. unfold starts_sign, low. cbn [fst snd]. rewrite lowers_cons. now rewrite !lower_not. Qed.
Lemma starts_minus_low f : starts_minus (lowers f) = starts_minus f.
Proof. destruct f as [|c f]; [reflexivity|]. rewrite lowers_cons. cbn [starts_minus]. now rewrite lower_not. Qed.

Lemma interval_decode_low md ts range style x : Forall fc ts ->
  decode_interval md (List.map low ts) range style x = decode_interval md ts range style x.
Proof.
  intros F. unfold decode_interval. rewrite <- map_rev, interval_fields_low by now apply Forall_rev.
  destruct (interval_fields _ _ _ _ _) as [x' [i|e|f]]; cbn [step_bind]; [|reflexivity..].
  destruct (i_fmask i =? 0); [reflexivity|]. destruct (carry_fsec md x') as [x2 [u|e|f]]; cbn [step_bind]; [|reflexivity..].
  destruct ts as [|t ts]; [reflexivity|]. cbn [List.map]. replace (snd (low t)) with (lowers (snd t)) by reflexivity. rewrite starts_minus_low.
  replace (existsb starts_sign (List.map low ts)) with (existsb starts_sign ts); [reflexivity|].
  clear. induction ts as [|t ts IH]; [reflexivity|]. cbn [List.map existsb]. now rewrite starts_sign_low, IH.
Qed.

(** ** The parsers *)
Lemma date_case md s order : eqok (date_try_from_str md s order) (date_try_from_str md (lowers s) order).
Proof.
  unfold date_try_from_str. rewrite parse_lowers. destruct (parse_date_time s) as [ts|e|f] eqn:P; cbn [bind]; [|apply eqok_refl..].
  apply eqok_bind; [apply decode_low; exact (parse_fc _ _ P)|]. intros a. apply eqok_refl.
Qed.

Lemma timestamp_case md s p order : eqok (timestamp_try_from_str md s p order) (timestamp_try_from_str md (lowers s) p order).
Proof.
  unfold timestamp_try_from_str. rewrite parse_lowers. destruct (parse_date_time s) as [ts|e|f] eqn:P; cbn [bind]; [|apply eqok_refl..].
  apply eqok_bind; [apply decode_low; exact (parse_fc _ _ P)|]. intros a. apply eqok_refl.
Qed.

Lemma time_case md s p order : eqok (time_try_from_str md s p order) (time_try_from_str md (lowers s) p order).
Proof.
  unfold time_try_from_str. rewrite parse_lowers. destruct (parse_date_time s) as [ts|e|f] eqn:P; cbn [bind]; [|apply eqok_refl..].
  apply eqok_bind; [apply time_decode_low; exact (parse_fc _ _ P)|]. intros a. apply eqok_refl.
Qed.

Lemma not_iso md s x : hd 0 s <> 80 -> decode_iso8601_interval md s x = Err EInvalid.
Proof.
  intros H. destruct s as [|c [|d r]]; try reflexivity. cbn [hd] in H. cbn [decode_iso8601_interval].
  now destruct (Z.eqb_spec c 80).
Qed.

Lemma lower_not_P c : lower c <> 80.
Proof. unfold lower, is_upper. destruct (_ && _) eqn:E; lia. Qed.

Lemma interval_case md s p style : hd 0 s <> 80 -> interval_try_from_str md (lowers s) p style = interval_try_from_str md s p style.
Proof.
  intros H. unfold interval_try_from_str. rewrite parse_lowers. destruct (parse_date_time s) as [ts|e|f] eqn:P; cbn [bind]; [|reflexivity..].
  rewrite interval_decode_low by exact (parse_fc _ _ P).
  destruct (decode_interval md ts _ style (tm_new, 0)) as [x [k|[]|f]]; try reflexivity. rewrite !not_iso; auto.
  destruct s as [|c s]; [easy|]. rewrite lowers_cons. cbn [hd]. apply lower_not_P.
Qed.

Lemma case_values s s' : List.map to_lower s = List.map to_lower s' ->
  (forall md order v, date_try_from_str md s order = Ok v <-> date_try_from_str md s' order = Ok v)
  /\ (forall md p order v, timestamp_try_from_str md s p order = Ok v <-> timestamp_try_from_str md s' p order = Ok v)
  /\ (forall md p order v, time_try_from_str md s p order = Ok v <-> time_try_from_str md s' p order = Ok v)
  /\ (hd 0 s <> 80 -> hd 0 s' <> 80 ->
      forall md p style, interval_try_from_str md s p style = interval_try_from_str md s' p style).
Proof.
  intros E. change (lowers s = lowers s') in E. split; [|split; [|split]].
  - intros md order v. rewrite (date_case md s order v), E. symmetry. apply date_case.
  - intros md p order v. rewrite (timestamp_case md s p order v), E. symmetry. apply timestamp_case.
  - intros md p order v. rewrite (time_case md s p order v), E. symmetry. apply time_case.
  - intros H H' md p style. rewrite <- (interval_case md s p style H), E. exact (interval_case md s' p style H').
Qed.
