(** Interval texts with eight or more digits behind a decimal point. *)
From Verif Require Import Model.F64 Model.Parse Model.DateTime Proofs.Arith Proofs.DigitsP.
From Coq Require Import List ZArith Bool Lia.
Import List ListNotations.
Open Scope Z_scope.

Definition digs (f : bytes) : Prop := Forall (fun c => is_digit c = true) f.
Definition long (s : bytes) : Prop := exists a f b, s = a ++ 46 :: f ++ b /\ digs f /\ (8 <= length f)%nat.
(** ... behind a digit and a point *)
Definition longd (s : bytes) : Prop := exists a d f b, s = a ++ d :: 46 :: f ++ b /\ is_digit d = true /\ digs f /\ (8 <= length f)%nat.
Definition head_long (s : bytes) : Prop := exists f b, s = 46 :: f ++ b /\ digs f /\ (8 <= length f)%nat.

Lemma digit_no_dot c : is_digit c = true -> c <> 46. Proof. unfold is_digit. lia. Qed.
Lemma longd_long s : longd s -> long s.
Proof. intros (a & d & f & b & -> & D & F & L). exists (a ++ [d]), f, b. rewrite <- app_assoc. auto. Qed.
Lemma head_long_long s : head_long s -> long s.
Proof. intros (f & b & -> & F & L). exists [], f, b. auto. Qed.
Lemma long_nil : ~ long [].
Proof. intros (a & f & b & E & _). destruct a; discriminate E. Qed.
Lemma long_cons c s : c <> 46 -> long (c :: s) -> long s.
Proof. intros N (a & f & b & E & F & L). destruct a as [|c' a]; [injection E as E _; congruence|]. injection E as _ ->. exists a, f, b. auto. Qed.
Lemma long_skip x y : Forall (fun c => c <> 46) x -> long (x ++ y) -> long y.
Proof. induction 1 as [|c x C X IH]; [auto|]. intros H. apply IH. eapply long_cons; eauto. Qed.
Lemma long_dot s : long (46 :: s) -> long s \/ head_long (46 :: s).
Proof.
  intros (a & f & b & E & F & L). destruct a as [|c a]; injection E as E.
  - right. exists f, b. rewrite E. auto.
  - left. exists a, f, b. auto.
Qed.
Lemma long_app x y : long y -> long (x ++ y).
Proof. intros (a & f & b & -> & F & L). exists (x ++ a), f, b. rewrite <- app_assoc. auto. Qed.
Lemma forallb_digs f : forallb is_digit f = true -> digs f.
Proof. rewrite forallb_forall. intros H. apply Forall_forall. exact H. Qed.
Lemma digs_no_dot f : digs f -> Forall (fun c => c <> 46) f.
Proof. apply Forall_impl. exact digit_no_dot. Qed.
Lemma class_no_dot p x : p 46 = false -> forallb p x = true -> Forall (fun c => c <> 46) x.
Proof. intros P. rewrite forallb_forall. intros H. apply Forall_forall. intros c I ->. specialize (H _ I). congruence. Qed.
Lemma digs_prefix : forall f b g r, f ++ b = g ++ r -> digs f -> stops is_digit r -> (length f <= length g)%nat.
Proof.
  induction f as [|c f IH]; intros b g r E F S; [cbn; lia|]. inversion F as [|? ? C F']; subst. destruct g as [|c' g].
  - cbn in E. subst r. cbn in S. congruence.
  - injection E as -> E. cbn. specialize (IH _ _ _ E F' S). lia.
Qed.

Lemma white_long s : long s -> long (eat_whitespaces s).
Proof.
  unfold eat_whitespaces. pose proof (eat_split is_space s) as S. destruct (eat is_space s) as (a, b). destruct S as (-> & A & _). cbn [snd].
  apply long_skip. now apply (class_no_dot is_space).
Qed.
Lemma sign_long s : long s -> long (snd (extract_sign s)).
Proof.
  unfold extract_sign. destruct s as [|c s]; [auto|]. destruct (c =? 43) eqn:E; [|destruct (c =? 45) eqn:E2]; cbn [snd]; [| |auto]; apply long_cons; lia.
Qed.
Lemma str2i32_long s v r : str2i32 s = Ok (v, r) -> long s -> long r.
Proof.
  unfold str2i32. intros H L. apply white_long in L. destruct (eat_whitespaces s) as [|c s']; [now apply long_nil in L|].
  apply sign_long in L. destruct (extract_sign (c :: s')) as (sg, s2). cbn [snd] in L. unfold eat_digits in H.
  pose proof (eat_split is_digit s2) as S. destruct (eat is_digit s2) as (a, b). destruct S as (-> & A & _).
  apply long_skip in L; [|apply digs_no_dot, forallb_digs, A].
  destruct (10 <? blen a); [discriminate H|]. destruct (in32b _); [|discriminate H]. now injection H as _ <-.
Qed.
Lemma str2d_long s v r : str2d s = Ok (v, r) -> long s -> long r.
Proof.
  unfold str2d. intros H L. apply white_long in L. destruct (eat_whitespaces s) as [|c s']; [now apply long_nil in L|].
  apply sign_long in L. destruct (extract_sign (c :: s')) as (sg, s2). cbn [snd] in L. unfold eat_digits in H.
  pose proof (eat_split is_digit s2) as S. destruct (eat is_digit s2) as (a, b). destruct S as (-> & A & _).
  apply long_skip in L; [|apply digs_no_dot, forallb_digs, A]. clear A.
  destruct (10 <? blen a); [discriminate H|]. destruct b as [|c2 b]; [now apply long_nil in L|].
  destruct (c2 =? 46) eqn:C.
  - apply Z.eqb_eq in C. subst c2. pose proof (eat_split is_digit b) as S. destruct (eat is_digit b) as (g, u). destruct S as (-> & G & S).
    destruct (7 <? blen g) eqn:Q; [discriminate H|]. injection H as _ <-.
    apply long_dot in L. destruct L as [L|(f & b' & E & F & L)].
    + apply long_skip in L; [exact L|apply digs_no_dot, forallb_digs, G].
    + exfalso. injection E as E. pose proof (digs_prefix f b' g u (eq_sym E) F S). unfold blen in Q. lia.
  - change (7 <? blen []) with false in H. cbv beta iota in H. now injection H as _ <-.
Qed.
Lemma pfs_long md s v : long s -> parse_fractional_second md s <> Ok v.
Proof.
  intros L H. unfold parse_fractional_second in H. destruct s as [|c s]; [now apply long_nil in L|].
  destruct (debug_assert md (c =? 46)); [|discriminate H..]. cbn [bind] in H.
  destruct (str2d (c :: s)) as [(f, r)| |] eqn:E; [|discriminate H..]. cbn [bind] in H.
  apply (str2d_long _ _ _ E) in L. destruct r; [now apply long_nil in L|discriminate H].
Qed.

Definition no_ok {A} (m : tm_step A) : Prop := match snd m with Ok _ => False | _ => True end.

Lemma decode_time_long md s rng x : long s -> no_ok (decode_time md s rng x).
Proof.
  intros L. unfold no_ok, decode_time. destruct (str2i32 s) as [(v, s1)| |] eqn:E1; [|exact I..].
  apply (str2i32_long _ _ _ E1) in L. destruct s1 as [|c s1]; [exact I|]. destruct (c =? 58) eqn:C; cbn [negb]; [|exact I].
  apply long_cons in L; [|lia]. destruct (str2i32 s1) as [(v2, s2)| |] eqn:E2; [|exact I..]. apply (str2i32_long _ _ _ E2) in L.
  destruct s2 as [|c2 s2]; [now apply long_nil in L|]. destruct (c2 =? 46) eqn:C2.
  - destruct (parse_fractional_second md (c2 :: s2)) as [w| |] eqn:E3; [|exact I..]. exfalso. eapply pfs_long; eauto.
  - destruct (c2 =? 58) eqn:C3; [|exact I]. apply long_cons in L; [|lia]. destruct (str2i32 s2) as [(v3, s3)| |] eqn:E4; [|exact I..].
    apply (str2i32_long _ _ _ E4) in L. destruct s3 as [|c3 s3]; [now apply long_nil in L|]. destruct (c3 =? 46); [|exact I].
    destruct (parse_fractional_second md (c3 :: s3)) as [w| |] eqn:E5; [|exact I..]. exfalso. eapply pfs_long; eauto.
Qed.
Lemma interval_number_long md s ty q : long s -> interval_number md s ty <> Ok q.
Proof.
  intros L H. unfold interval_number in H. destruct (str2i32 s) as [(v, s1)| |] eqn:E1; [|discriminate H..]. cbn [bind] in H.
  apply (str2i32_long _ _ _ E1) in L. destruct s1 as [|c s1]; [now apply long_nil in L|].
  destruct (c =? 45) eqn:C.
  - apply long_cons in L; [|lia]. destruct (str2i32 s1) as [(v2, s2)| |] eqn:E2; [|discriminate H..]. cbn [bind] in H.
    apply (str2i32_long _ _ _ E2) in L. destruct (_ || _); [discriminate H|]. destruct s2; [now apply long_nil in L|discriminate H].
  - destruct (c =? 46); [|discriminate H]. destruct (str2d (c :: s1)) as [(w, s2)| |] eqn:E2; [|discriminate H..]. cbn [bind] in H.
    apply (str2d_long _ _ _ E2) in L. destruct s2; [now apply long_nil in L|discriminate H].
Qed.

(** A field that no interval has *)
Definition bad (t : token) : Prop :=
  long (snd t) /\ match fst t with
  | Some KTime | Some KDate | Some KNumber => True
  | Some KTz => exists c r, snd t = c :: r /\ c <> 46
  | _ => False end.

Lemma field_bad md range t i x : bad t -> no_ok (interval_field md range t i x).
Proof.
  intros (L & K). assert (forall ty, no_ok (interval_number_field md (snd t) ty range x)) as N.
  { intros ty. unfold no_ok, interval_number_field. destruct (interval_number md (snd t) (default_unit ty range)) as [q| |] eqn:E; [|exact I..].
    exfalso. eapply interval_number_long; eauto. }
  assert (forall {B} ty (g : tmf -> Z * Z -> tm_step B), no_ok (step_bind (interval_number_field md (snd t) ty range x) g)) as N2.
  { intros B ty g. specialize (N ty). unfold no_ok, step_bind in *. destruct (interval_number_field md (snd t) ty range x) as (x', [q| |]); cbn [snd] in *; [contradiction|exact I..]. }
  assert (forall {B} s (g : tmf -> unit -> tm_step B), long s -> no_ok (step_bind (decode_time md s range x) g)) as T2.
  { intros B s g Ls. pose proof (decode_time_long md s range x Ls) as N3. unfold no_ok, step_bind in *.
    destruct (decode_time md s range x) as (x', [q| |]); cbn [snd] in *; [contradiction|exact I..]. }
  unfold interval_field. destruct (fst t) as [k|]; [|contradiction]. destruct k; try contradiction; try (apply N2); try (now apply T2).
  destruct K as (c & r & Et & C). rewrite Et in *. destruct (debug_assert md _); [|exact I..]. destruct (existsb _ _); [|apply N2].
  apply T2. eapply long_cons; eauto.
Qed.
Lemma fields_bad md range : forall ts i x, (exists t, In t ts /\ bad t) -> no_ok (interval_fields md range ts i x).
Proof.
  induction ts as [|t ts IH]; intros i x (t0 & I0 & B); [contradiction|]. cbn [interval_fields]. unfold step_bind.
  destruct I0 as [->|I0].
  - pose proof (field_bad md range t0 i x B) as N. unfold no_ok in *. destruct (interval_field md range t0 i x) as (x', [q| |]); cbn [snd] in *; [contradiction|exact I..].
  - destruct (interval_field md range t i x) as (x', [q| |]); [apply IH; eauto|exact I..].
Qed.
Lemma decode_bad md ts range style x : (exists t, In t ts /\ bad t) -> no_ok (decode_interval md ts range style x).
Proof.
  intros (t & I0 & B). unfold decode_interval, step_bind.
  pose proof (fields_bad md range (rev ts) (mkI (tt_code IgnoreDtf) 0 false KDelta) (fst x, 0)) as N.
  specialize (N (ex_intro _ t (conj (proj1 (in_rev ts t) I0) B))). unfold no_ok in *.
  destruct (interval_fields md range (rev ts) _ _) as (x', [q| |]); cbn [snd] in *; [contradiction|exact I..].
Qed.

(** ** ISO 8601 *)
Definition nz (s : bytes) : Prop := Forall (fun c => c <> 0) s.

Lemma iso_number_long s v f r : parse_iso8601_number s = Ok (v, f, r) -> long s -> long r.
Proof.
  unfold parse_iso8601_number. destruct s as [|c s]; [discriminate|]. destruct (negb _); [discriminate|].
  destruct (str2d (c :: s)) as [(w, r')| |] eqn:E; [|discriminate..]. cbn [bind]. intros H L. apply (str2d_long _ _ _ E) in L.
  destruct (Nat.eqb _ _); [discriminate H|]. destruct (_ || _); [discriminate H|]. now injection H as _ _ <-.
Qed.
Lemma nz_app x y : nz (x ++ y) <-> nz x /\ nz y. Proof. apply Forall_app. Qed.
Lemma nz_eat p s : nz s -> nz (snd (eat p s)).
Proof. pose proof (eat_split p s) as S. destruct (eat p s) as (a, b). destruct S as (-> & _). now rewrite nz_app. Qed.
Lemma nz_sign s : nz s -> nz (snd (extract_sign s)).
Proof. intros N. unfold extract_sign. destruct s as [|c s]; [auto|]. inversion N; subst. destruct (c =? 43); [auto|]. destruct (c =? 45); auto. Qed.
Lemma nz_str2d s v r : str2d s = Ok (v, r) -> nz s -> nz r.
Proof.
  unfold str2d, eat_whitespaces, eat_digits. intros H N. apply (nz_eat is_space) in N. destruct (snd (eat is_space s)) as [|c s']; [injection H as _ <-; constructor|].
  apply nz_sign in N. destruct (extract_sign (c :: s')) as (sg, s2). cbn [snd] in N. apply (nz_eat is_digit) in N.
  destruct (eat is_digit s2) as (a, b). cbn [snd] in N. destruct (10 <? blen a); [discriminate H|]. destruct b as [|c2 b].
  - destruct (7 <? _); [discriminate H|]. injection H as _ <-. constructor.
  - destruct (c2 =? 46).
    + inversion N as [|? ? _ N']; subst. apply (nz_eat is_digit) in N'. destruct (eat is_digit b) as (g, u). destruct (7 <? _); [discriminate H|]. now injection H as _ <-.
    + destruct (7 <? _); [discriminate H|]. now injection H as _ <-.
Qed.
Lemma nz_iso s v f r : parse_iso8601_number s = Ok (v, f, r) -> nz s -> nz r.
Proof.
  unfold parse_iso8601_number. destruct s as [|c s]; [discriminate|]. destruct (negb _); [discriminate|].
  destruct (str2d (c :: s)) as [(w, r')| |] eqn:E; [|discriminate..]. cbn [bind]. intros H L. apply (nz_str2d _ _ _ E) in L.
  destruct (Nat.eqb _ _); [discriminate H|]. destruct (_ || _); [discriminate H|]. now injection H as _ _ <-.
Qed.

Ltac okstep H := match type of H with
  | (let* _ := ?m in _) = Ok _ => destruct m as [?| |]; [cbn [bind] in H|discriminate H..]
  end.
Lemma date_left_long md s unit hf val fv x x' o : long s -> nz s -> unit <> 0 -> decode_date_part_left md s unit hf val fv x = Ok (x', o) ->
  exists s', o = Some s' /\ long s' /\ nz s'.
Proof.
  intros L N U H. unfold decode_date_part_left in H. destruct hf; [discriminate H|]. do 2 okstep H.
  destruct (Z.eqb_spec unit 0); [congruence|]. destruct (unit =? 84); [injection H as _ <-; eauto|].
  destruct (parse_iso8601_number s) as [((v1, f1), s1)| |] eqn:E1; [|discriminate H..]. cbn [bind] in H.
  apply (iso_number_long _ _ _ _ E1) in L. apply (nz_iso _ _ _ _ E1) in N. do 2 okstep H.
  destruct s1 as [|c s1]; [now apply long_nil in L|]. destruct (c =? 84); [injection H as _ <-; eauto|].
  destruct (c =? 45) eqn:C; cbn [negb] in H; [|discriminate H]. apply long_cons in L; [|lia]. inversion N as [|? ? _ N']; subst.
  destruct (parse_iso8601_number s1) as [((v2, f2), s2)| |] eqn:E2; [|discriminate H..]. cbn [bind] in H.
  apply (iso_number_long _ _ _ _ E2) in L. apply (nz_iso _ _ _ _ E2) in N'. do 2 okstep H.
  destruct s2 as [|c2 s2]; [now apply long_nil in L|]. destruct (c2 =? 84); [injection H as _ <-; eauto|discriminate H].
Qed.
Lemma time_left_long md s unit hf val fv x x' : long s -> nz s -> unit <> 0 -> decode_time_part_left md s unit hf val fv x <> Ok x'.
Proof.
  intros L N U H. unfold decode_time_part_left in H. destruct hf; [discriminate H|]. do 2 okstep H.
  destruct (Z.eqb_spec unit 0); [congruence|].
  destruct (parse_iso8601_number s) as [((v1, f1), s1)| |] eqn:E1; [|discriminate H..]. cbn [bind] in H.
  apply (iso_number_long _ _ _ _ E1) in L. do 2 okstep H.
  destruct s1 as [|c s1]; [now apply long_nil in L|].
  destruct (c =? 58) eqn:C; cbn [negb] in H; [|discriminate H]. apply long_cons in L; [|lia].
  destruct (parse_iso8601_number s1) as [((v2, f2), s2)| |] eqn:E2; [|discriminate H..]. cbn [bind] in H.
  apply (iso_number_long _ _ _ _ E2) in L. do 2 okstep H.
  destruct s2 as [|c2 s2]; [now apply long_nil in L|]. discriminate H.
Qed.
Lemma iso_long md : forall fuel s dp hf x x', long s -> nz s -> iso_loop md fuel s dp hf x <> Ok x'.
Proof.
  induction fuel as [|fuel IH]; intros s dp hf x x' L N H; [discriminate H|]. cbn [iso_loop] in H.
  destruct s as [|c0 s]; [now apply long_nil in L|]. destruct (c0 =? 84) eqn:C0.
  { apply long_cons in L; [|lia]. inversion N; subst. eapply IH; [exact L|assumption|exact H]. }
  remember (iso8601_integer_width (c0 :: s)) as W eqn:EW. clear EW.
  destruct (parse_iso8601_number (c0 :: s)) as [((v, f), s1)| |] eqn:E; [|discriminate H..]. cbn [bind] in H.
  apply (iso_number_long _ _ _ _ E) in L. apply (nz_iso _ _ _ _ E) in N. destruct s1 as [|c s1]; [now apply long_nil in L|].
  inversion N as [|? ? C N']; subst. destruct (Z.eqb_spec c 0) as [|_]; [congruence|].
  destruct (Z.eqb_spec c 46) as [->|D]; [destruct dp; cbn in H; discriminate H|]. apply long_cons in L; [|exact D].
  assert (forall dp' hf' x0, iso_loop md fuel s1 dp' hf' x0 <> Ok x') as K by (intros; now apply IH).
  assert (forall x0 g, (let* q := decode_date_part_left md s1 c hf v f x0 in
     match q with (y, None) => Ok y | (y, Some s2) => iso_loop md fuel s2 false false y end) = Ok g -> g = x' -> False) as Lf.
  { intros x0 g Hg ->. destruct (decode_date_part_left md s1 c hf v f x0) as [(y, o)| |] eqn:Ed; [|discriminate Hg..]. cbn [bind] in Hg.
    destruct (date_left_long _ _ _ _ _ _ _ _ _ L N' C Ed) as (s2 & -> & L2 & N2). eapply IH; [exact L2|exact N2|exact Hg]. }
  clear E IH.
  destruct dp.
  - repeat match type of H with
    | (let* q := decode_date_part_left _ _ _ _ _ _ _ in _) = Ok _ => fail 1
    | (let* _ := ?m in _) = Ok _ => destruct m as [?| |]; [cbn [bind] in H|discriminate H..]
    | (if ?b then _ else _) = Ok _ => destruct b
    end; try (eapply K; exact H); try (eapply Lf; [exact H|reflexivity]); try discriminate H.
  - repeat match type of H with
    | (let* _ := ?m in _) = Ok _ => destruct m as [?| |]; [cbn [bind] in H|discriminate H..]
    | (if ?b then _ else _) = Ok _ => destruct b
    end; try (eapply K; exact H); try discriminate H. eapply time_left_long; eauto.
Qed.

(** ** Splitting into fields *)
Definition later (s : bytes) : Prop := longd s \/ head_long s.
Definition no_digit_first (s : bytes) : Prop := match s with c :: _ => is_digit c = false | [] => True end.

Lemma longd_cons c s : longd (c :: s) -> longd s \/ is_digit c = true /\ head_long s.
Proof.
  intros (a & d & f & b & E & D & F & L). destruct a as [|c' a]; injection E as -> ->; [right; split; [exact D|]; now exists f, b|].
  left. now exists a, d, f, b.
Qed.
Lemma longd_more c s : longd s -> longd (c :: s).
Proof. intros (a & d & f & b & -> & R). now exists (c :: a), d, f, b. Qed.
Lemma cut : forall x y, longd (x ++ y) -> no_digit_first y -> longd x \/ later y.
Proof.
  induction x as [|c x IH]; intros y H S; [right; left; exact H|]. cbn [app] in H. apply longd_cons in H. destruct H as [H|(D & f & b & E & F & L)].
  - destruct (IH y H S) as [K|K]; [left; now apply longd_more|right; exact K].
  - destruct x as [|c' x]; [right; right; now exists f, b|]. injection E as -> E. apply app_eq_app in E. destruct E as (l & [(-> & ->)|(-> & ->)]).
    + left. now exists [], c, f, l.
    + destruct l as [|d' l]; [left; rewrite app_nil_r in *; exists [], c, x, []; rewrite app_nil_r; auto|].
      exfalso. cbn in S. apply Forall_app in F. destruct F as (_ & F). inversion F; congruence.
Qed.
Lemma cut_nodigit : forall x y, Forall (fun c => is_digit c = false) x -> longd (x ++ y) -> longd y.
Proof.
  induction x as [|c x IH]; intros y X H; [exact H|]. inversion X as [|? ? C X']; subst. apply longd_cons in H. destruct H as [H|(D & _)]; [now apply IH|congruence].
Qed.
Lemma class_nodigit p x : (forall c, p c = true -> is_digit c = false) -> forallb p x = true -> Forall (fun c => is_digit c = false) x.
Proof. intros P. rewrite forallb_forall. intros H. apply Forall_forall. intros c I. now apply P, H. Qed.
Lemma stops_first p s : (forall c, is_digit c = true -> p c = true) -> stops p s -> no_digit_first s.
Proof. destruct s as [|c s]; [auto|]. cbn. intros P H. destruct (is_digit c) eqn:E; [|reflexivity]. apply P in E. congruence. Qed.
(** A piece that takes digits and points together is not cut behind a digit. *)
Lemma lower_same c : is_digit c = true \/ c = 46 \/ c = 45 \/ c = 47 -> lower c = c.
Proof. unfold lower, is_digit, is_upper. intros H. replace ((65 <=? c) && (c <=? 90)) with false by lia. reflexivity. Qed.
Lemma lowers_digs f : digs f -> lowers f = f.
Proof. induction 1 as [|c f C F IH]; [reflexivity|]. cbn [lowers List.map]. fold (lowers f). now rewrite IH, lower_same by auto. Qed.
Lemma long_lowers s : long s -> long (lowers s).
Proof.
  intros (a & f & b & -> & F & L). exists (lowers a), f, (lowers b). unfold lowers. rewrite map_app. cbn [List.map]. rewrite map_app.
  change (List.map lower f) with (lowers f). rewrite (lowers_digs f F). auto.
Qed.
Lemma lowers_app x y : lowers (x ++ y) = lowers x ++ lowers y. Proof. apply map_app. Qed.

Definition piece (s : bytes) (t : token) (rest : bytes) : Prop := (later s -> bad t \/ later rest) /\ (nz rest -> nz s).
Lemma nz_class p x : p 0 = false -> forallb p x = true -> nz x.
Proof. intros P. rewrite forallb_forall. intros H. apply Forall_forall. intros c I ->. specialize (H _ I). congruence. Qed.

Lemma delim_piece c r ty f1 s2 : c = 45 \/ c = 47 \/ c = 46 -> digit_delim_begin c r = (ty, f1, s2) ->
  exists g, c :: r = g ++ s2 /\ (f1 = g \/ exists g', g = c :: g' /\ f1 = c :: lowers g') /\ no_digit_first s2 /\ nz g /\ (ty = KDate \/ ty = KNumber).
Proof.
  intros C H. assert (c <> 0) as C0 by lia. unfold digit_delim_begin in H.
  destruct r as [|c1 r].
  { injection H as <- <- <-. exists [c]. split; [reflexivity|]. split; [left; reflexivity|]. split; [exact I|]. split; [constructor; [exact C0|constructor]|destruct (c =? 46); auto]. }
  destruct (is_digit c1).
  - unfold eat_digits in H. pose proof (eat_split is_digit (c1 :: r)) as S. destruct (eat is_digit (c1 :: r)) as (a, b). destruct S as (E & A & S). rewrite E in *.
    pose proof (nz_class is_digit a eq_refl A) as Na. destruct b as [|c2 b].
    + injection H as <- <- <-. exists (c :: a). split; [reflexivity|]. split; [left; reflexivity|]. split; [exact I|]. split; [now constructor|destruct (c =? 46); auto].
    + destruct (c2 =? c) eqn:Q.
      * pose proof (eat_split (fun i => (i =? c) || is_digit i) (c2 :: b)) as S2. destruct (eat (fun i => (i =? c) || is_digit i) (c2 :: b)) as (a2, b2).
        destruct S2 as (E2 & A2 & S2). injection H as <- <- <-. exists (c :: a ++ a2). rewrite E2. cbn [app]. rewrite app_assoc. split; [reflexivity|]. split; [left; reflexivity|].
        split; [apply (stops_first _ _ (fun d D => eq_trans (f_equal (orb (d =? c)) D) (orb_true_r _)) S2)|]. split; [|auto].
        constructor; [exact C0|]. apply nz_app. split; [exact Na|]. eapply nz_class; [|exact A2]. cbv beta. destruct (Z.eqb_spec 0 c); [congruence|reflexivity].
      * injection H as <- <- <-. exists (c :: a). split; [reflexivity|]. split; [left; reflexivity|]. split; [exact S|]. split; [now constructor|destruct (c =? 46); auto].
  - pose proof (eat_split (fun i => (i =? c) || is_alnum i) (c1 :: r)) as S. destruct (eat (fun i => (i =? c) || is_alnum i) (c1 :: r)) as (a, b).
    destruct S as (E & A & S). rewrite E. injection H as <- <- <-. exists (c :: a). split; [reflexivity|]. split; [right; exists a; auto|].
    split; [refine (stops_first _ _ _ S); intros d D; unfold is_alnum; rewrite D, !orb_true_r; reflexivity|]. split; [|auto].
    constructor; [exact C0|]. eapply nz_class; [|exact A]. cbv beta. destruct (Z.eqb_spec 0 c); [congruence|reflexivity].
Qed.

Lemma digit_piece s t rest : match s with c :: _ => is_digit c = true | [] => False end -> digit_begin s = (t, rest) -> piece s t rest.
Proof.
  intros Hd H. assert (later s -> longd s) as LD.
  { intros [L|(f & b & -> & _)]; [exact L|discriminate Hd]. }
  unfold digit_begin, eat_digits in H. pose proof (eat_split is_digit s) as S. destruct (eat is_digit s) as (a, s1). destruct S as (-> & A & S).
  pose proof (nz_class is_digit a eq_refl A) as Na. pose proof (forallb_digs a A) as Da.
  assert (forall x, longd (a ++ x) -> long x) as Sk by (intros x L; apply longd_long, long_skip in L; [exact L|now apply digs_no_dot]).
  destruct s1 as [|c r].
  { injection H as <- <-. split; [|intros _; now rewrite app_nil_r]. intros L. apply LD, Sk in L. now apply long_nil in L. }
  destruct (c =? 58) eqn:C58.
  { pose proof (eat_split (fun i => is_digit i || (i =? 58) || (i =? 46)) (c :: r)) as S1.
    destruct (eat (fun i => is_digit i || (i =? 58) || (i =? 46)) (c :: r)) as (a1, b1). destruct S1 as (E & A1 & S1). rewrite E in *. injection H as <- <-.
    split.
    - intros L. apply LD in L. rewrite app_assoc in L. apply cut in L; [|refine (stops_first _ _ _ S1); intros d D; rewrite D; reflexivity].
      destruct L as [L|L]; [left|right; exact L]. split; [now apply longd_long|exact I].
    - intros N. rewrite !nz_app. split; [exact Na|]. split; [|exact N]. apply (nz_class _ _ eq_refl A1). }
  destruct ((c =? 45) || (c =? 47) || (c =? 46)) eqn:Cd.
  { destruct (digit_delim_begin c r) as ((ty, f1), s2) eqn:E. injection H as <- <-.
    destruct (delim_piece c r ty f1 s2 ltac:(lia) E) as (g & Eg & Hf & Sg & Ng & Ty). rewrite Eg in *. split.
    - intros L. apply LD in L. rewrite app_assoc in L. apply cut in L; [|exact Sg]. destruct L as [L|L]; [left|right; exact L].
      split; [|destruct Ty as [-> | ->]; exact I]. cbn [snd]. apply longd_long in L. destruct Hf as [->|(g' & Eg' & ->)]; [exact L|]. rewrite Eg' in L.
      apply long_lowers in L. rewrite lowers_app, lowers_digs in L by exact Da. cbn [lowers List.map] in L. rewrite lower_same in L by lia. exact L.
    - intros N. rewrite !nz_app. auto. }
  injection H as <- <-. split; [|intros N; rewrite nz_app; auto]. intros L. apply LD in L. apply cut in L; [|exact S].
  destruct L as [L|L]; [|right; exact L]. apply longd_long in L. exfalso. rewrite <- (app_nil_r a) in L. apply long_skip in L; [now apply long_nil in L|now apply digs_no_dot].
Qed.

Lemma dot_piece r t rest : dot_begin r = (t, rest) -> piece (46 :: r) t rest.
Proof.
  unfold dot_begin, eat_digits. pose proof (eat_split is_digit r) as S. destruct (eat is_digit r) as (a, b). destruct S as (-> & A & S). intros H. injection H as <- <-. split.
  - intros [L|(f & u & E & F & L)].
    + apply (cut (46 :: a) b) in L; [|exact S]. destruct L as [L|L]; [left; split; [now apply longd_long|exact I]|right; exact L].
    + left. split; [|exact I]. injection E as E. cbn [snd]. pose proof (digs_prefix f u a b (eq_sym E) F S) as Q. exists [], a, [].
      rewrite app_nil_r. split; [reflexivity|]. split; [now apply forallb_digs|lia].
  - intros N. constructor; [discriminate|]. rewrite nz_app. split; [|exact N]. exact (nz_class is_digit a eq_refl A).
Qed.
Lemma alpha_nodigit c : is_alpha c = true -> is_digit c = false.
Proof. unfold is_alpha, is_upper, is_lower, is_digit. lia. Qed.

Lemma alpha_piece s t rest : match s with c :: _ => is_alpha c = true | [] => False end -> alpha_begin s = Ok (t, rest) -> piece s t rest.
Proof.
  intros Hd H. assert (later s -> longd s) as LD.
  { intros [L|(f & b & -> & _)]; [exact L|discriminate Hd]. }
  unfold alpha_begin, eat_alphabetics in H. pose proof (eat_split is_alpha s) as S. destruct (eat is_alpha s) as (a, s1). destruct S as (-> & A & S).
  pose proof (nz_class is_alpha a eq_refl A) as Na. pose proof (class_nodigit is_alpha a alpha_nodigit A) as Da.
  match type of H with (let* _ := ?m in _) = _ => destruct m as [d| |]; [cbn [bind] in H|discriminate H..] end. destruct d.
  - pose proof (eat_split date_word_char s1) as S1. destruct (eat date_word_char s1) as (a1, b1). destruct S1 as (-> & A1 & S1). injection H as <- <-. split.
    + intros L. apply LD in L. apply cut_nodigit in L; [|exact Da]. apply cut in L.
      * destruct L as [L|L]; [left|right; exact L]. split; [|exact I]. cbn [snd]. apply long_app. now apply longd_long.
      * refine (stops_first _ _ _ S1). intros d D. unfold date_word_char, is_alnum. rewrite D, !orb_true_r. reflexivity.
    + intros N. rewrite !nz_app. split; [exact Na|]. split; [exact (nz_class date_word_char a1 eq_refl A1)|exact N].
  - injection H as <- <-. split; [|intros N; rewrite nz_app; auto]. intros L. right. left. apply LD in L. now apply cut_nodigit in L.
Qed.

Lemma white_split s : exists w, s = w ++ eat_whitespaces s /\ forallb is_space w = true.
Proof. unfold eat_whitespaces. pose proof (eat_split is_space s) as S. destruct (eat is_space s) as (a, b). destruct S as (-> & A & _). now exists a. Qed.
Lemma space_nodigit c : is_space c = true -> is_digit c = false.
Proof. unfold is_space, is_digit. lia. Qed.
Lemma white_longd s : longd s -> longd (eat_whitespaces s).
Proof.
  destruct (white_split s) as (w & E & W). intros L. rewrite E in L. apply cut_nodigit in L; [exact L|]. exact (class_nodigit is_space w space_nodigit W).
Qed.
Lemma white_nz s : nz (eat_whitespaces s) -> nz s.
Proof. destruct (white_split s) as (w & E & W). intros N. rewrite E. apply nz_app. split; [exact (nz_class is_space w eq_refl W)|exact N]. Qed.
Lemma white_later s : later s -> later (eat_whitespaces s).
Proof.
  intros [L|(f & b & -> & R)]; [left; now apply white_longd|]. right. change (eat_whitespaces (46 :: f ++ b)) with (46 :: f ++ b). now exists f, b.
Qed.

Lemma sign_piece c r t rest : c = 43 \/ c = 45 -> sign_begin c r = Ok (t, rest) -> piece (c :: r) t rest.
Proof.
  intros C H. assert (later (c :: r) -> longd (eat_whitespaces r)) as LD.
  { intros [L|(f & b & E & _)]; [|injection E as -> _; lia]. apply longd_cons in L. destruct L as [L|(D & _)]; [now apply white_longd|unfold is_digit in D; lia]. }
  assert (nz (eat_whitespaces r) -> nz (c :: r)) as NW by (intros N; constructor; [lia|now apply white_nz]).
  unfold sign_begin in H. destruct (eat_whitespaces r) as [|c1 s1].
  { injection H as <- <-. split; [|auto]. intros L. apply LD, longd_long in L. now apply long_nil in L. }
  destruct (is_digit c1).
  - pose proof (eat_split (fun i => is_digit i || (i =? 58) || (i =? 46) || (i =? 45)) (c1 :: s1)) as S.
    destruct (eat (fun i => is_digit i || (i =? 58) || (i =? 46) || (i =? 45)) (c1 :: s1)) as (a, b). destruct S as (E & A & S). rewrite E in *. injection H as <- <-. split.
    + intros L. apply LD in L. apply cut in L; [|refine (stops_first _ _ _ S); intros d D; rewrite D; reflexivity].
      destruct L as [L|L]; [left|right; exact L]. split; [apply (long_app [c]); now apply longd_long|]. exists c, a. split; [reflexivity|lia].
    + intros N. apply NW. rewrite nz_app. split; [exact (nz_class _ a eq_refl A)|exact N].
  - destruct (is_alpha c1); [|discriminate H]. unfold eat_alphabetics in H. pose proof (eat_split is_alpha (c1 :: s1)) as S.
    destruct (eat is_alpha (c1 :: s1)) as (a, b). destruct S as (E & A & S). rewrite E in *. injection H as <- <-. split.
    + intros L. apply LD in L. right. left. apply cut_nodigit in L; [exact L|]. exact (class_nodigit is_alpha a alpha_nodigit A).
    + intros N. apply NW. rewrite nz_app. split; [exact (nz_class is_alpha a eq_refl A)|exact N].
Qed.

Lemma tokenize_long : forall fuel n room s ts, tokenize fuel n room s = Ok ts -> (later s -> exists t, In t ts /\ bad t) /\ nz s.
Proof.
  induction fuel as [|fuel IH]; intros n room s ts H; [discriminate H|]. cbn [tokenize] in H.
  assert ((later (eat_whitespaces s) -> exists t, In t ts /\ bad t) /\ nz (eat_whitespaces s)) as K; [|split; [intros L; now apply K, white_later|apply white_nz, K]].
  destruct (eat_whitespaces s) as [|c r].
  { split; [|constructor]. intros [L|L]; [apply longd_long in L|apply head_long_long in L]; now apply long_nil in L. }
  destruct (MAX_DATE_FIELDS <=? n); [discriminate H|].
  assert (forall t rest, piece (c :: r) t rest ->
    (let* room' := use_buf room (snd t) in let* ts := tokenize fuel (n + 1) room' rest in Ok (t :: ts)) = Ok ts ->
    (later (c :: r) -> exists t, In t ts /\ bad t) /\ nz (c :: r)) as Add.
  { intros t rest (P1 & P2) Ha. destruct (use_buf room (snd t)) as [room'| |]; [|discriminate Ha..]. cbn [bind] in Ha.
    destruct (tokenize fuel (n + 1) room' rest) as [ts'| |] eqn:E; [|discriminate Ha..]. injection Ha as <-.
    apply IH in E. destruct E as (E1 & E2). split; [|now apply P2]. intros L. destruct (P1 L) as [B|L']; [exists t; split; [left; reflexivity|exact B]|].
    destruct (E1 L') as (t' & I' & B'). exists t'. split; [right; exact I'|exact B']. }
  destruct (is_digit c) eqn:Cd.
  { destruct (digit_begin (c :: r)) as (t, rest) eqn:E. eapply Add; [|exact H]. apply digit_piece; [exact Cd|exact E]. }
  destruct (c =? 46) eqn:C46.
  { apply Z.eqb_eq in C46. subst c. destruct (dot_begin r) as (t, rest) eqn:E. eapply Add; [|exact H]. now apply dot_piece. }
  destruct (is_alpha c) eqn:Ca.
  { destruct (alpha_begin (c :: r)) as [(t, rest)| |] eqn:E; [|discriminate H..]. eapply Add; [|exact H]. apply alpha_piece; [exact Ca|exact E]. }
  destruct ((c =? 43) || (c =? 45)) eqn:Cs.
  { destruct (use_buf room [c]); [|discriminate H..]. cbn [bind] in H. destruct (sign_begin c r) as [(t, rest)| |] eqn:E; [|discriminate H..].
    eapply Add; [|exact H]. apply sign_piece; [lia|exact E]. }
  destruct (is_punct c) eqn:Cp; [|discriminate H].
  pose proof (eat_split is_punct (c :: r)) as S. destruct (eat is_punct (c :: r)) as (a, b). cbn [snd] in H. destruct S as (E & A & S). rewrite E.
  apply IH in H. destruct H as (H1 & H2). split.
  - intros [L|(f & u & E2 & _)].
    + apply H1. left. apply cut_nodigit in L; [exact L|]. refine (class_nodigit is_punct a _ A). unfold is_punct, is_digit. intros; lia.
    + exfalso. rewrite <- E in E2. injection E2 as -> _. discriminate C46.
  - apply nz_app. split; [exact (nz_class is_punct a eq_refl A)|exact H2].
Qed.

Lemma interval_long md s p st a : longd s -> interval_try_from_str md s p st <> Ok a.
Proof.
  intros L H. unfold interval_try_from_str in H. destruct (parse_date_time s) as [ts| |] eqn:E; [|discriminate H..]. cbn [bind] in H.
  assert ((exists t, In t ts /\ bad t) /\ nz s) as (B & N).
  { unfold parse_date_time in E. destruct s as [|c s]; [discriminate E|]. apply tokenize_long in E. split; [apply E; left; exact L|apply E]. }
  pose proof (decode_bad md ts (if 0 <=? p then interval_range p else INTERVAL_FULL_RANGE) st (tm_new, 0) B) as D. unfold no_ok in D.
  destruct (decode_interval md ts _ st (tm_new, 0)) as (x, r). cbn [snd] in D. destruct r as [k|e|e]; [contradiction| |discriminate H].
  destruct e; try discriminate H. cbn [bind] in H. destruct (decode_iso8601_interval md s x) as [y| |] eqn:F; [|discriminate H..].
  unfold decode_iso8601_interval in F. destruct s as [|c [|c1 s]]; try discriminate F. destruct (c =? 80) eqn:Q; [|discriminate F].
  inversion N as [|? ? _ N']; subst. apply longd_long in L. apply long_cons in L; [|lia]. eapply iso_long; [exact L|exact N'|exact F].
Qed.
