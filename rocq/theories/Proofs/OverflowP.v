(** Texts without long runs of digits never make the date and time parsers overflow. *)
From Verif Require Import Model.Parse Proofs.Arith Proofs.DigitsP Proofs.TokenP Proofs.LexP Proofs.SafeP.
From Verif Require Import Proofs.Cal Proofs.TsP Proofs.TimeP Proofs.FloatP Proofs.ScaleP Proofs.FboundP Proofs.IvParseP.
From Verif Require Import Spec.Calendar Spec.Ranges Spec.ShortNumbers Proofs.ShortP.
From Verif Require Proofs.DateP Proofs.ParsedP.
From Coq Require Import Lia Reals Lra.
Open Scope Z_scope.

(** No arithmetic overflow, and [P] of the result *)
Definition nf {A} (P : A -> Prop) (r : res A) : Prop :=
  match r with Ok a => P a | Err _ => True | Fault f => f <> FArith end.

Lemma nf_bind {A B} (P : A -> Prop) (Q : B -> Prop) m k :
  nf P m -> (forall a, m = Ok a -> P a -> nf Q (k a)) -> nf Q (bind m k).
Proof. destruct m; cbn; auto. Qed.
Lemma nf_imp {A} (P Q : A -> Prop) m : nf P m -> (forall a, m = Ok a -> P a -> Q a) -> nf Q m.
Proof. destruct m; cbn; auto. Qed.
Lemma nf_ar32 md z : in_i32 z -> nf (fun a => a = z) (ar32 md z).
Proof. intros H. rewrite ar32_ok by exact H. reflexivity. Qed.
Lemma nf_ar64 md z : in_i64 z -> nf (fun a => a = z) (ar64 md z).
Proof. intros H. rewrite ar64_ok by exact H. reflexivity. Qed.
Lemma nf_true {A} (m : res A) : nf (fun _ => True) m -> m <> Fault FArith.
Proof. destruct m; cbn; congruence. Qed.
Lemma nf_sf {A} (m : res A) : sf Release m -> nf (fun _ => True) m.
Proof. destruct m as [| |[]]; cbn; try congruence; easy. Qed.
Lemma nf_str2i32 s : short_numbers s -> nf (fun p => Z.abs (fst p) <= 999999 /\ suffix (snd p) s) (str2i32 s).
Proof.
  intros H. destruct (str2i32 s) as [[v r]|e|f] eqn:E; cbn; [now apply str2i32_short|exact I|].
  exfalso. revert E. unfold str2i32. destruct (eat_whitespaces s); [discriminate|].
  destruct (extract_sign _). destruct (eat_digits _). destruct (10 <? _); [discriminate|]. now destruct (in32b _).
Qed.
Lemma nf_fraction md c r : nf (fun f => c = 46 -> Z.abs f <= 1000000) (parse_fractional_second md (c :: r)).
Proof.
  destruct (parse_fractional_second md (c :: r)) as [f|e|f] eqn:E; cbn; [|exact I|].
  - intros ->. now apply (fraction_short md r).
  - intros ->. revert E. unfold parse_fractional_second, str2d. destruct md; cbn [debug_assert].
    1: destruct (c =? 46); cbn [bind]; [|discriminate].
    2: cbn [bind].
    all: destruct (eat_whitespaces _); cbn [bind]; [discriminate|]; destruct (extract_sign _); destruct (eat_digits _);
      destruct (10 <? _); [discriminate|]; destruct (match _ with [] => _ | _ => _ end); destruct (7 <? _); [discriminate|];
      cbn [bind]; repeat match goal with |- context [match ?x with _ => _ end] => destruct x end; discriminate.
Qed.

Lemma quot_lt a k : 0 < k -> Z.abs (Z.quot a k) <= Z.abs a.
Proof.
  intros K. rewrite <- Z.quot_abs by lia. rewrite (Z.abs_eq k) by lia. rewrite Z.quot_div_nonneg by lia.
  apply Z.div_le_upper_bound; nia.
Qed.

(** ** Calendar *)
Ltac nfa := match goal with
  | |- nf _ (add32 _ _ _) => apply nf_ar32 | |- nf _ (sub32 _ _ _) => apply nf_ar32
  | |- nf _ (mul32 _ _ _) => apply nf_ar32 | |- nf _ (neg32 _ _) => apply nf_ar32
  | |- nf _ (add64 _ _ _) => apply nf_ar64 | |- nf _ (sub64 _ _ _) => apply nf_ar64
  | |- nf _ (mul64 _ _ _) => apply nf_ar64 | |- nf _ (neg64 _ _) => apply nf_ar64 end;
  unfold in_i32, in_i64, i32_min, i32_max, i64_min, i64_max.
Ltac nfs := eapply nf_bind; [nfa; lia|intros ? _ ->].

Lemma nf_date2julian md y m d : Z.abs y <= 1010000 -> Z.abs m <= 12 -> Z.abs d <= 1010000 ->
  nf (fun j => Z.abs j <= 400000000) (date2julian md y m d).
Proof.
  intros Y M D. unfold date2julian.
  apply (nf_bind (fun p => Z.abs (fst p) <= 1014800 /\ Z.abs (snd p) <= 25)).
  { destruct (2 <? m); repeat nfs; cbn; lia. }
  intros [a k] _ [A K]. cbn [fst snd] in A, K. clear - A K D.
  pose proof (quot_lt a 100 eq_refl) as Q1. pose proof (quot_lt a 4 eq_refl) as Q2. pose proof (quot_lt (Z.quot a 100) 4 eq_refl) as Q3.
  pose proof (quot_lt (7834 * k) 256 eq_refl) as Q4.
  set (q1 := Z.quot a 100) in *. set (q2 := Z.quot a 4) in *. set (q3 := Z.quot q1 4) in *.
  set (q4 := Z.quot (7834 * k) 256) in *. clearbody q3 q2 q1.
  repeat nfs.
  eapply nf_imp; [nfa; lia|]. cbn beta. intros z _ ->. lia.
Qed.

(** ** What the fields collected so far look like *)
Definition full (m : Z) : Prop := Z.land m DTK_DATE_M = DTK_DATE_M.
Definition Dt (m : Z) (jul : bool) (tm : pgtime) : Prop :=
  (jul = false -> Z.abs (tm_year tm) <= 999999) /\
  (jul = true -> has m (mask DOY) = false /\ full m) /\
  (has m (mask DOY) = true -> full m) /\
  0 <= tm_yday tm <= 366 /\
  (has m (mask MONTH) = true \/ Z.abs (tm_mon tm) <= 12) /\
  Z.abs (tm_mday tm) <= 999999.
(** [hs]: hours are small *)
Definition Ck (hs : bool) (tm : pgtime) : Prop :=
  Z.abs (tm_hour tm) <= (if hs then 99 else 999999) /\ Z.abs (tm_min tm) <= 999999 /\ Z.abs (tm_sec tm) <= 999999.

Lemma full_lor m t : full m -> full (Z.lor m t).
Proof.
  unfold full. intros H. rewrite Z.land_lor_distr_l, H.
  apply Z.bits_inj'. intros n _. rewrite Z.lor_spec, Z.land_spec.
  destruct (Z.testbit DTK_DATE_M n); [|now rewrite andb_false_r]. reflexivity.
Qed.
Lemma full_has m t : full m -> has DTK_DATE_M t = true -> has m t = true.
Proof.
  unfold full, has. intros H. rewrite <- H. intros N. apply negb_true_iff, Z.eqb_neq in N. apply negb_true_iff, Z.eqb_neq.
  intros E. apply N. rewrite (Z.land_comm m), <- Z.land_assoc, E. apply Z.land_0_r.
Qed.
Lemma full_year m : full m -> has m (mask YEAR) = true. Proof. intros F. now apply full_has. Qed.
Lemma full_month m : full m -> has m (mask MONTH) = true. Proof. intros F. now apply full_has. Qed.
Lemma full_day m : full m -> has m (mask DAY) = true. Proof. intros F. now apply full_has. Qed.
Lemma full_date m : full m -> has m DTK_DATE_M = true. Proof. intros F. now apply full_has. Qed.

Lemma Dt_lor m t jul tm : Dt m jul tm -> has t (mask DOY) = false -> Dt (Z.lor m t) jul tm.
Proof.
  intros (Y & Ju & Do & Yd & Mo & Da) N. unfold Dt. rewrite !has_lor, N, orb_false_r.
  split; [exact Y|]. split; [|split; [|split; [exact Yd|split; [|exact Da]]]].
  - intros E. destruct (Ju E). split; [assumption|now apply full_lor].
  - intros E. apply full_lor, Do, E.
  - destruct Mo as [->|]; auto.
Qed.
Lemma Dt_ext m jul tm tm' : Dt m jul tm -> tm_year tm' = tm_year tm -> tm_yday tm' = tm_yday tm -> tm_mon tm' = tm_mon tm ->
  tm_mday tm' = tm_mday tm -> Dt m jul tm'.
Proof. unfold Dt. now intros H -> -> -> ->. Qed.
(** A part of the date that is not there yet *)
Lemma Dt_part m t jul tm tm' : Dt m jul tm -> has m t = false -> has DTK_DATE_M t = true -> has t (mask DOY) = false ->
  Z.abs (tm_year tm') <= 999999 -> tm_yday tm' = tm_yday tm -> (has (Z.lor m t) (mask MONTH) = true \/ Z.abs (tm_mon tm') <= 12) ->
  Z.abs (tm_mday tm') <= 999999 -> Dt (Z.lor m t) jul tm'.
Proof.
  intros D N P F Y Yd Mo Da. destruct (Dt_lor m t jul tm D F) as (_ & Ju & Do & Yd' & _ & _).
  unfold Dt. rewrite Yd. auto 7.
Qed.
Lemma Dt_none m t jul tm : Dt m jul tm -> has m t = false -> has DTK_DATE_M t = true -> jul = false.
Proof.
  intros (_ & J & _) N P. destruct jul; [|easy]. destruct (J eq_refl) as [_ F]. rewrite (full_has m t F P) in N. discriminate.
Qed.
Lemma Dt_year m v jul tm : Dt m jul tm -> has m (mask YEAR) = false -> Z.abs v <= 999999 -> Dt (Z.lor m (mask YEAR)) jul (set_year v tm).
Proof.
  intros D N V. pose proof D as (Y & Ju & Do & Yd & Mo & Da).
  eapply Dt_part; [exact D|exact N|reflexivity|reflexivity|exact V|reflexivity| |exact Da].
  rewrite has_lor. destruct Mo as [->|]; auto.
Qed.
Lemma Dt_month m v jul tm : Dt m jul tm -> has m (mask MONTH) = false -> Dt (Z.lor m (mask MONTH)) jul (set_mon v tm).
Proof.
  intros D N. pose proof (Dt_none _ _ _ _ D N eq_refl) as ->. pose proof D as (Y & Ju & Do & Yd & Mo & Da).
  eapply Dt_part; [exact D|exact N|reflexivity|reflexivity|exact (Y eq_refl)|reflexivity| |exact Da].
  left. rewrite has_lor. now rewrite orb_true_r.
Qed.
Lemma Dt_day m v jul tm : Dt m jul tm -> has m (mask DAY) = false -> Z.abs v <= 999999 -> Dt (Z.lor m (mask DAY)) jul (set_mday v tm).
Proof.
  intros D N V. pose proof (Dt_none _ _ _ _ D N eq_refl) as ->. pose proof D as (Y & Ju & Do & Yd & Mo & Da).
  eapply Dt_part; [exact D|exact N|reflexivity|reflexivity|exact (Y eq_refl)|reflexivity| |exact V].
  rewrite has_lor. destruct Mo as [->|]; auto.
Qed.
Lemma Dt_date m y mo d jul tm tm' : Dt m jul tm -> has m DTK_DATE_M = false -> Z.abs y <= 999999 -> Z.abs d <= 999999 ->
  tm_year tm' = y -> tm_mon tm' = mo -> tm_mday tm' = d -> tm_yday tm' = tm_yday tm -> Dt (Z.lor m DTK_DATE_M) jul tm'.
Proof.
  intros D N Y Da <- <- <- E. eapply Dt_part; [exact D|exact N|reflexivity|reflexivity|exact Y|exact E| |exact Da].
  left. rewrite has_lor. now rewrite orb_true_r.
Qed.
Lemma land_sub m s t : Z.land m DTK_DATE_M = s -> Z.land DTK_DATE_M t = t -> has m t = has s t.
Proof. intros <- T. unfold has. rewrite <- T at 1. now rewrite Z.land_assoc. Qed.
Lemma Dt_doy m v jul tm : Dt m jul tm -> Z.land m DTK_DATE_M = mask YEAR -> 1 <= v <= 366 ->
  Dt (Z.lor m (Z.lor (Z.lor (mask DOY) (mask MONTH)) (mask DAY))) jul (set_yday v tm).
Proof.
  intros D E V. assert (has m (mask MONTH) = false) as N by (rewrite (land_sub m (mask YEAR)); [reflexivity|exact E|reflexivity]).
  pose proof (Dt_none _ _ _ _ D N eq_refl) as ->. destruct D as (Y & Ju & Do & Yd & Mo & Da).
  assert (full (Z.lor m (Z.lor (Z.lor (mask DOY) (mask MONTH)) (mask DAY)))) as F.
  { unfold full. rewrite Z.land_lor_distr_l, E. reflexivity. }
  unfold Dt. cbn [set_yday tm_year tm_yday tm_mon tm_mday]. split; [exact Y|]. split; [easy|]. split; [easy|]. split; [lia|].
  split; [left; now apply full_month|exact Da].
Qed.

(** ** Numbers *)
Lemma str2i32_two s v r : (length s <= 2)%nat -> str2i32 s = Ok (v, r) -> Z.abs v <= 99.
Proof.
  intros L. unfold str2i32. pose proof (eat_suffix is_space s) as [p S1]. unfold eat_whitespaces.
  set (w := snd (eat is_space s)) in *. assert (length w <= 2)%nat as Lw.
  { rewrite S1 in L. rewrite app_length in L. lia. }
  clearbody w. destruct w as [|c w]. { intros Q. injection Q as <- <-. lia. }
  pose proof (sign_suffix (c :: w)) as [q S2]. pose proof (sign_one (c :: w)) as Sg.
  destruct (extract_sign (c :: w)) as [sg t]. cbn [fst snd] in *.
  assert (length t <= 2)%nat as Lt. { rewrite S2 in Lw. rewrite app_length in Lw. lia. }
  unfold eat_digits. pose proof (eat_split is_digit t) as E. destruct (eat is_digit t) as [a b]. destruct E as (-> & F & _).
  rewrite app_length in Lt. destruct (10 <? blen a); [discriminate|]. destruct (in32b _); [|discriminate].
  intros Q. injection Q as <- <-. apply digits_forallb in F. rewrite dval_value. pose proof (digits_value_bound a F) as B.
  assert (10 ^ Z.of_nat (length a) <= 10 ^ 2) as P by (apply Z.pow_le_mono_r; lia). change (10 ^ 2) with 100 in P.
  rewrite Z.abs_mul, Sg. lia.
Qed.

Definition num_tail (str : bytes) (f_mask : Z) (st : nst) (len : nat) : nst * res tfield :=
    if negb (Z.land f_mask DTK_TIME_M =? DTK_TIME_M) then
      if Nat.eqb len 6 then
        let st := mkN DTK_TIME_M (n_tm st) (n_fsec st) (n_2d st) in
        match str2i32 (skipn 4 str) with
        | Ok (v, _) =>
            let st := mkN DTK_TIME_M (set_sec v (n_tm st)) (n_fsec st) (n_2d st) in
            match str2i32 (sub_bytes str 2 2) with
            | Ok (v, _) =>
                let st := mkN DTK_TIME_M (set_min v (n_tm st)) (n_fsec st) (n_2d st) in
                match str2i32 (sub_bytes str 0 2) with
                | Ok (v, _) =>
                    (mkN DTK_TIME_M (set_hour v (n_tm st)) (n_fsec st) (n_2d st), Ok KTime)
                | Err e => (st, Err e)
                | Fault x => (st, Fault x)
                end
            | Err e => (st, Err e)
            | Fault x => (st, Fault x)
            end
        | Err e => (st, Err e)
        | Fault x => (st, Fault x)
        end
      else if Nat.eqb len 4 then
        let st := mkN DTK_TIME_M (set_sec 0 (n_tm st)) (n_fsec st) (n_2d st) in
        match str2i32 (skipn 2 str) with
        | Ok (v, _) =>
            let st := mkN DTK_TIME_M (set_min v (n_tm st)) (n_fsec st) (n_2d st) in
            match str2i32 (sub_bytes str 0 2) with
            | Ok (v, _) =>
                (mkN DTK_TIME_M (set_hour v (n_tm st)) (n_fsec st) (n_2d st), Ok KTime)
            | Err e => (st, Err e)
            | Fault x => (st, Fault x)
            end
        | Err e => (st, Err e)
        | Fault x => (st, Fault x)
        end
      else (st, Err EInvalid)
    else (st, Err EInvalid).

(** Only the clock changed *)
Definition clock_only (st st' : nst) : Prop :=
  (n_tmask st' = n_tmask st \/ n_tmask st' = DTK_TIME_M) /\
  tm_year (n_tm st') = tm_year (n_tm st) /\ tm_yday (n_tm st') = tm_yday (n_tm st) /\
  tm_mon (n_tm st') = tm_mon (n_tm st) /\ tm_mday (n_tm st') = tm_mday (n_tm st) /\ n_fsec st' = n_fsec st.

Lemma short_sub s a b : short_numbers s -> short_numbers (sub_bytes s a b).
Proof.
  intros H. unfold sub_bytes. apply (short_prefix _ (skipn b (skipn a s))). rewrite firstn_skipn.
  apply (short_suffix (firstn a s)). now rewrite firstn_skipn.
Qed.
Lemma short_skip s a : short_numbers s -> short_numbers (skipn a s).
Proof. intros H. apply (short_suffix (firstn a s)). now rewrite firstn_skipn. Qed.

Lemma num_tail_ok hs str fm st len : short_numbers str -> Ck hs (n_tm st) ->
  let '(st', r) := num_tail str fm st len in
  clock_only st st' /\ Ck hs (n_tm st') /\ nf (fun _ => n_tmask st' = DTK_TIME_M) r.
Proof.
  intros S (H & M & Se). unfold num_tail.
  pose proof (nf_str2i32 _ (short_skip str 4 S)) as P4. pose proof (nf_str2i32 _ (short_skip str 2 S)) as P2.
  pose proof (nf_str2i32 _ (short_sub str 2 2 S)) as P22. pose proof (nf_str2i32 _ (short_sub str 0 2 S)) as P02.
  pose proof (str2i32_two (sub_bytes str 0 2)) as T.
  assert (length (sub_bytes str 0 2) <= 2)%nat as L by (unfold sub_bytes; apply firstn_le_length).
  destruct (negb _); [|repeat split; cbn; auto].
  destruct (Nat.eqb len 6); [|destruct (Nat.eqb len 4); [|repeat split; cbn; auto]].
  - destruct (str2i32 (skipn 4 str)) as [[v4 r4]| |]; cbn in P4; [|repeat split; cbn; auto..].
    destruct (str2i32 (sub_bytes str 2 2)) as [[v22 r22]| |]; cbn in P22; [|repeat split; cbn; auto; lia..].
    destruct (str2i32 (sub_bytes str 0 2)) as [[v02 r02]| |]; cbn in P02; [|repeat split; cbn; auto; lia..].
    specialize (T _ _ L eq_refl). repeat split; cbn; auto; try lia. destruct hs; lia.
  - destruct (str2i32 (skipn 2 str)) as [[v4 r4]| |]; cbn in P2; [|repeat split; cbn; auto; lia..].
    destruct (str2i32 (sub_bytes str 0 2)) as [[v02 r02]| |]; cbn in P02; [|repeat split; cbn; auto; lia..].
    specialize (T _ _ L eq_refl). repeat split; cbn; auto; try lia. destruct hs; lia.
Qed.

Definition N (m : Z) (jul hs : bool) (F : Z) (st : nst) : Prop :=
  (has m (n_tmask st) = false -> Dt (Z.lor m (n_tmask st)) jul (n_tm st)) /\ Ck hs (n_tm st) /\ Z.abs (n_fsec st) <= F.

Lemma clock_N m jul hs F st st' : Dt m jul (n_tm st) -> clock_only st st' -> Ck hs (n_tm st') -> Z.abs (n_fsec st) <= F ->
  n_tmask st' = 0 \/ n_tmask st' = DTK_TIME_M -> N m jul hs F st'.
Proof.
  intros D (_ & Y & Yd & Mo & Da & Fs) C Hf T. unfold N. rewrite Fs. split; [|split; [exact C|exact Hf]].
  intros _. apply (Dt_ext _ _ (n_tm st)); auto. apply Dt_lor; [exact D|]. destruct T as [-> | ->]; reflexivity.
Qed.

Lemma skip_dot str : skipn (length (before 46 str)) str = [] \/ exists r, skipn (length (before 46 str)) str = 46 :: r.
Proof.
  unfold before. pose proof (eat_split (fun i => negb (i =? 46)) str) as E. destruct (eat _ str) as [a b]. destruct E as (-> & _ & E).
  cbn [fst]. rewrite skipn_app, skipn_all, Nat.sub_diag. cbn [app skipn]. destruct b as [|c b]; [now left|]. right.
  cbn in E. apply negb_false_iff, Z.eqb_eq in E as ->. now exists b.
Qed.
Lemma str2d_nofault s f : str2d s = Fault f -> f <> FArith.
Proof.
  unfold str2d. destruct (eat_whitespaces _); [discriminate|]; destruct (extract_sign _); destruct (eat_digits _);
  destruct (10 <? _); [discriminate|]; destruct (match _ with [] => _ | _ => _ end); destruct (7 <? _); discriminate.
Qed.
Lemma number_field_ok m jul hs F str fm st : short_numbers str -> Dt m jul (n_tm st) -> Ck hs (n_tm st) -> Z.abs (n_fsec st) <= F ->
  1000000 <= F -> fm = m \/ full fm ->
  let '(st', r) := decode_number_field str fm st in
  nf (fun _ => N m jul hs F st') r /\ (n_tmask st = 0 -> full fm -> N m jul hs F st').
Proof.
  intros S D C Hf BF Hm.
  assert (decode_number_field str fm st =
    let count := length (before 46 str) in
    let len := length str in
    if negb (Nat.eqb len count) then
      match str2d (skipn count str) with
      | Ok (v, _) => num_tail str fm (mkN (n_tmask st) (n_tm st) (usecs_of v) (n_2d st)) count
      | Err e => (st, Err e)
      | Fault x => (st, Fault x)
      end
    else if negb (Z.land fm DTK_DATE_M =? DTK_DATE_M) && Nat.leb 6 len then
      let st := mkN DTK_DATE_M (n_tm st) (n_fsec st) (n_2d st) in
      match str2i32 (skipn (len - 2) str) with
      | Ok (v, _) =>
          let st := mkN DTK_DATE_M (set_mday v (n_tm st)) (n_fsec st) (n_2d st) in
          match str2i32 (sub_bytes str (len - 4) 2) with
          | Ok (v, _) =>
              let st := mkN DTK_DATE_M (set_mon v (n_tm st)) (n_fsec st) (n_2d st) in
              match str2i32 (sub_bytes str 0 (len - 4)) with
              | Ok (v, _) =>
                  (mkN DTK_DATE_M (set_year v (n_tm st)) (n_fsec st)
                     (if Nat.eqb (len - 4) 2 then true else n_2d st), Ok KDate)
              | Err e => (st, Err e)
              | Fault x => (st, Fault x)
              end
          | Err e => (st, Err e)
          | Fault x => (st, Fault x)
          end
      | Err e => (st, Err e)
      | Fault x => (st, Fault x)
      end
    else num_tail str fm st len) as -> by reflexivity.
  cbv zeta.
  assert (n_tmask st = 0 -> N m jul hs F st) as N0.
  { intros T. unfold N. rewrite T. split; [|now split]. intros _. apply Dt_lor; [exact D|reflexivity]. }
  destruct (negb (Nat.eqb _ _)).
  - destruct (str2d (skipn (length (before 46 str)) str)) as [[v r]|e|f] eqn:E.
    + assert (Z.abs (usecs_of v) <= F) as U.
      { destruct (skip_dot str) as [Q|[q Q]]; rewrite Q in E.
        - change (str2d []) with (Ok (f0, [] : bytes)) in E. injection E as <- _. change (usecs_of f0) with 0. lia.
        - destruct (fb_dot q v r E) as [B _]. apply fb_usecs in B. lia. }
      set (st1 := mkN _ _ _ _). pose proof (num_tail_ok hs str fm st1 (length (before 46 str)) S C) as T.
      destruct (num_tail _ _ _ _) as [st' r']. cbn beta iota in T. destruct T as (CO & C' & R). split.
      * destruct r'; cbn in R |- *; auto. apply (clock_N m jul hs F st1); auto.
      * intros Z0 _. apply (clock_N m jul hs F st1); auto. destruct CO as [[Q|Q] _]; [|auto]. left. rewrite Q. exact Z0.
    + split; [exact I|auto].
    + split; [cbn; eapply str2d_nofault; exact E|auto].
  - destruct (negb (Z.land fm DTK_DATE_M =? DTK_DATE_M) && Nat.leb 6 (length str)) eqn:B.
    + apply andb_prop in B as [B _]. apply negb_true_iff, Z.eqb_neq in B.
      assert (fm = m) as -> by (destruct Hm; [assumption|now elim B]).
      pose proof (nf_str2i32 _ (short_skip str (length str - 2) S)) as P1.
      destruct (str2i32 (skipn _ str)) as [[v1 r1]| |]; cbn in P1; [|split; [cbn; auto|intros _ G; now elim B]..].
      pose proof (nf_str2i32 _ (short_sub str (length str - 4) 2 S)) as P2.
      destruct (str2i32 (sub_bytes str _ 2)) as [[v2 r2]| |]; cbn in P2; [|split; [cbn; auto|intros _ G; now elim B]..].
      pose proof (nf_str2i32 _ (short_sub str 0 (length str - 4) S)) as P3.
      destruct (str2i32 (sub_bytes str 0 _)) as [[v3 r3]| |]; cbn in P3; [|split; [cbn; auto|intros _ G; now elim B]..].
      split; [|intros _ G; now elim B].
      cbn [nf]. unfold N. cbn [n_tmask n_tm n_fsec]. split; [|split; [exact C|exact Hf]].
      intros T. eapply Dt_date; [exact D|exact T|apply P3|apply P1|reflexivity..].
    + pose proof (num_tail_ok hs str fm st (length str) S C) as T.
      destruct (num_tail _ _ _ _) as [st' r']. cbn beta iota in T. destruct T as (CO & C' & R). split.
      * destruct r'; cbn in R |- *; auto. apply (clock_N m jul hs F st); auto.
      * intros Z0 _. apply (clock_N m jul hs F st); auto. destruct CO as [[Q|Q] _]; [|auto]. left. rewrite Q. exact Z0.
Qed.
Lemma nf_number_field m jul hs F str fm st : short_numbers str -> Dt m jul (n_tm st) -> Ck hs (n_tm st) -> Z.abs (n_fsec st) <= F ->
  1000000 <= F -> fm = m \/ full fm -> nf (fun q => N m jul hs F (fst q)) (number_field str fm st).
Proof.
  intros S D C Hf BF Hm. unfold number_field. pose proof (number_field_ok m jul hs F str fm st S D C Hf BF Hm) as H.
  destruct (decode_number_field str fm st) as [st' r]. destruct H as [H _]. destruct r; cbn in H |- *; auto.
Qed.

Lemma nf_decode_number md m jul hs F str ht fm st o : short_numbers str -> Dt m jul (n_tm st) -> Ck hs (n_tm st) ->
  Z.abs (n_fsec st) <= F -> 1000000 <= F -> fm = m \/ full fm -> nf (N m jul hs F) (decode_number md str ht fm st o).
Proof.
  intros S D C Hf BF Hm. unfold decode_number. eapply nf_bind; [exact (nf_str2i32 str S)|].
  intros [val s] E [V Sx]. cbn [fst snd] in V, Sx. destruct (beq s str); [exact I|].
  assert (forall st, Dt m jul (n_tm st) -> Ck hs (n_tm st) -> Z.abs (n_fsec st) <= F ->
    nf (N m jul hs F)
     (let len := blen str in
      let tm := n_tm st in
      let date := Z.land fm DTK_DATE_M in
      let put (m : Z) (tm : pgtime) (d2 : bool) : res nst :=
        Ok (mkN m tm (n_fsec st) (if m =? mask YEAR then len <=? 2 else d2)) in
      if (len =? 3) && (date =? mask YEAR) && (1 <=? val) && (val <=? 366) then
        Ok (mkN (Z.lor (Z.lor (mask DOY) (mask MONTH)) (mask DAY)) (set_yday val tm) (n_fsec st)
              (n_2d st))
      else if date =? 0 then
        if (3 <=? len) || is_ymd o then put (mask YEAR) (set_year val tm) (n_2d st)
        else if is_dmy o then put (mask DAY) (set_mday val tm) (n_2d st)
        else put (mask MONTH) (set_mon val tm) (n_2d st)
      else if date =? DTK_YEAR_M then put (mask MONTH) (set_mon val tm) (n_2d st)
      else if date =? DTK_MONTH_M then
        if ht then
          if (3 <=? len) || is_ymd o then put (mask YEAR) (set_year val tm) (n_2d st)
          else put (mask DAY) (set_mday val tm) (n_2d st)
        else put (mask DAY) (set_mday val tm) (n_2d st)
      else if date =? DTK_YEAR_MONTH_M then
        if ht && ((3 <=? len) && n_2d st) then
          put (mask DAY) (set_year val (set_mday (tm_year tm) tm)) false
        else put (mask DAY) (set_mday val tm) (n_2d st)
      else if date =? DTK_DAY_M then put (mask MONTH) (set_mon val tm) (n_2d st)
      else if date =? DTK_MONTH_DAY_M then put (mask YEAR) (set_year val tm) (n_2d st)
      else if date =? DTK_DATE_M then
        let* q := number_field str fm st in Ok (fst q)
      else Err EInvalid)) as Fin.
  { clear st D C Hf. intros st D C Hf. cbv zeta.
    assert (forall d2, nf (N m jul hs F) (Ok (mkN (mask YEAR) (set_year val (n_tm st)) (n_fsec st) d2))) as PY.
    { intros d2. cbn [nf]. split; [|split; [exact C|exact Hf]]. cbn [n_tmask n_tm]. intros T. now apply Dt_year. }
    assert (forall d2, nf (N m jul hs F) (Ok (mkN (mask MONTH) (set_mon val (n_tm st)) (n_fsec st) d2))) as PM.
    { intros d2. cbn [nf]. split; [|split; [exact C|exact Hf]]. cbn [n_tmask n_tm]. intros T. now apply Dt_month. }
    assert (forall d2, nf (N m jul hs F) (Ok (mkN (mask DAY) (set_mday val (n_tm st)) (n_fsec st) d2))) as PD.
    { intros d2. cbn [nf]. split; [|split; [exact C|exact Hf]]. cbn [n_tmask n_tm]. intros T. now apply Dt_day. }
    destruct ((blen str =? 3) && (Z.land fm DTK_DATE_M =? mask YEAR) && (1 <=? val) && (val <=? 366)) eqn:B1.
    { apply andb_prop in B1 as [B1 B4]. apply andb_prop in B1 as [B1 B3]. apply andb_prop in B1 as [_ B2]. apply Z.eqb_eq in B2.
      assert (fm = m) as -> by (destruct Hm as [|G]; [assumption|unfold full in G; rewrite B2 in G; discriminate]).
      cbn [nf]. split; [|split; [exact C|exact Hf]]. cbn [n_tmask n_tm]. intros _. apply Dt_doy; auto; lia. }
    destruct (Z.land fm DTK_DATE_M =? 0).
    { destruct (_ || _); [apply PY|]. destruct (is_dmy o); [apply PD|apply PM]. }
    destruct (Z.land fm DTK_DATE_M =? DTK_YEAR_M); [apply PM|].
    destruct (Z.land fm DTK_DATE_M =? DTK_MONTH_M).
    { destruct ht; [|apply PD]. destruct (_ || _); [apply PY|apply PD]. }
    destruct (Z.land fm DTK_DATE_M =? DTK_YEAR_MONTH_M).
    { destruct (ht && _); [|apply PD]. cbn [nf]. split; [|split; [exact C|exact Hf]]. cbn [n_tmask n_tm]. intros T.
      pose proof (Dt_none _ _ _ _ D T eq_refl) as ->. pose proof D as (Y & _ & _ & _ & Mo & _).
      eapply Dt_part; [exact D|exact T|reflexivity|reflexivity|exact V|reflexivity| |exact (Y eq_refl)].
      rewrite has_lor. destruct Mo as [->|]; auto. }
    destruct (Z.land fm DTK_DATE_M =? DTK_DAY_M); [apply PM|].
    destruct (Z.land fm DTK_DATE_M =? DTK_MONTH_DAY_M); [apply PY|].
    destruct (Z.land fm DTK_DATE_M =? DTK_DATE_M); [|exact I].
    eapply nf_bind; [exact (nf_number_field m jul hs F str fm st S D C Hf BF Hm)|]. intros [q k] _ Q. exact Q. }
  destruct s as [|c s].
  - apply (Fin (mkN 0 (n_tm st) (n_fsec st) (n_2d st))); auto.
  - destruct (Z.eqb_spec c 46) as [->|]; [|exact I]. destruct (2 <? _).
    + pose proof (number_field_ok m jul hs F str (Z.lor fm DTK_DATE_M) (mkN 0 (n_tm st) (n_fsec st) (n_2d st)) S D C Hf BF) as H.
      assert (full (Z.lor fm DTK_DATE_M)) as G.
      { unfold full. apply Z.bits_inj'. intros n _. rewrite Z.land_spec, Z.lor_spec. destruct (Z.testbit DTK_DATE_M n).
        - now rewrite orb_true_r. - now rewrite andb_false_r. }
      specialize (H (or_intror G)). destruct (decode_number_field _ _ _) as [st' r]. destruct H as [H1 H2].
      specialize (H2 eq_refl G). destruct r; cbn in H1 |- *; auto.
    + eapply nf_bind; [exact (nf_fraction md 46 s)|]. intros fs _ Bf. specialize (Bf eq_refl).
      apply (Fin (mkN 0 (n_tm st) fs (n_2d st))); auto. cbn. lia.
Qed.

(** ** Dates *)
Lemma date_parts_short fuel : forall n s ps, short_numbers s -> date_parts fuel n s = Ok ps -> Forall short_numbers ps.
Proof.
  induction fuel as [|fuel IH]; intros n s ps S; [discriminate|]. cbn [date_parts].
  destruct s as [|c0 s0] eqn:Es; [intros Q; injection Q as <-; constructor|]. rewrite <- Es in *. clear Es c0 s0.
  destruct (MAX_DATE_FIELDS <=? n); [intros Q; injection Q as <-; constructor|].
  pose proof (short_suf _ _ (eat_suffix (fun i => negb (is_alnum i)) s) S) as S1.
  destruct (snd (eat _ s)) as [|c r]; [discriminate|].
  assert (forall f, short_numbers (fst (eat f (c :: r))) /\ short_numbers (snd (eat f (c :: r)))) as H.
  { intros f. pose proof (eat_split f (c :: r)) as E. destruct (eat f (c :: r)) as [a b]. destruct E as (E & _). rewrite E in S1.
    split; [now apply short_prefix in S1|now apply short_suffix in S1]. }
  unfold eat_digits, eat_alphabetics.
  assert (exists f, (if is_digit c then eat is_digit (c :: r) else eat is_alpha (c :: r)) = eat f (c :: r)) as [f ->].
  { destruct (is_digit c); eauto. }
  destruct (H f) as [Ha Hb]. destruct (eat f (c :: r)) as [a b]. cbn [fst snd] in Ha, Hb.
  destruct (date_parts fuel (n + 1) b) as [fs| |] eqn:E; cbn [bind]; try discriminate. intros Q. injection Q as <-.
  constructor; [exact Ha|]. eapply IH; eauto.
Qed.
Lemma nf_date_parts fuel : forall n s, nf (fun _ => True) (date_parts fuel n s).
Proof.
  induction fuel as [|fuel IH]; intros n s; [easy|]. cbn [date_parts].
  destruct s; [exact I|]. destruct (_ <=? n); [exact I|]. destruct (snd _); [exact I|].
  destruct (if _ : bool then _ else _) as [f p]. eapply nf_bind; [apply IH|]. easy.
Qed.
Lemma nf_decode_special w : nf (fun _ => True) (decode_special w).
Proof. apply nf_sf. apply sf_decode_special. Qed.
Definition short_opt (o : option bytes) : Prop := match o with Some f => short_numbers f | None => True end.
Lemma nf_text_month jul hs ps : forall m t tm h, Forall short_numbers ps -> Dt m jul tm -> Ck hs tm ->
  nf (fun q => let '(fs, fm, t', tm', h') := q in Forall short_opt fs /\ Dt fm jul tm' /\ Ck hs tm' /\
     (forall m0, m = Z.lor m0 t -> fm = Z.lor m0 t')) (text_month ps m t tm h).
Proof.
  induction ps as [|f ps IH]; intros m t tm h S D C; cbn [text_month].
  { cbn. split; [constructor|]. split; [exact D|]. split; [exact C|]. auto. }
  inversion S as [|? ? Sf Sp]; subst.
  assert (nf (fun q => let '(fs, fm, t', tm', h') := q in Forall short_opt fs /\ Dt fm jul tm' /\ Ck hs tm' /\
     (forall m0, m = Z.lor m0 t -> fm = Z.lor m0 t'))
     (let* q := text_month ps m t tm h in let '(fs, fm, t, tm', h) := q in Ok (Some f :: fs, fm, t, tm', h))) as K.
  { eapply nf_bind; [now apply IH|]. intros [[[[fs fm] t'] tm'] h'] _ (A & B & E & G). cbn [nf]. split; [now constructor|auto]. }
  destruct f as [|c f]; [exact K|]. destruct (is_alpha c); [|exact K].
  eapply nf_bind; [apply nf_decode_special|]. intros [ty v] _ _. destruct (tteq ty IgnoreDtf); [exact K|].
  destruct (tteq ty MONTH); [|exact I]. destruct (has m (mask MONTH)) eqn:Hm; [exact I|].
  eapply nf_bind; [apply IH; [exact Sp|now apply Dt_month|exact C]|].
  intros [[[[fs fm] t'] tm'] h'] _ (A & B & E & G). cbn [nf]. split; [now constructor|]. split; [exact B|]. split; [exact E|].
  intros m0 ->. apply G. now rewrite Z.lor_assoc.
Qed.
Lemma nf_number_parts md jul hs F o ht ps : 1000000 <= F -> forall m t tm d2 fs, Forall short_opt ps -> Dt m jul tm -> Ck hs tm -> Z.abs fs <= F ->
  nf (fun q => let '(fm, t', tm', d2') := q in Dt fm jul tm' /\ Ck hs tm' /\
     (forall m0, m = Z.lor m0 t -> fm = Z.lor m0 t')) (number_parts md ps ht o m t tm d2 fs).
Proof.
  intros BF. induction ps as [|[f|] ps IH]; intros m t tm d2 fs S D C Hf; cbn [number_parts].
  - cbn. split; [exact D|]. split; [exact C|]. auto.
  - inversion S as [|? ? Sf Sp]; subst. cbn in Sf. destruct f as [|c f]; [exact I|].
    eapply nf_bind; [apply (nf_decode_number md m jul hs F (c :: f) ht m (mkN 0 tm fs d2) o); auto|].
    intros st _ (A & B & E). destruct (has m (n_tmask st)) eqn:Hm; [exact I|].
    eapply nf_imp; [apply IH; auto|]. intros [[[fm t'] tm'] d2'] _ (X & Y & W). split; [exact X|]. split; [exact Y|].
    intros m0 ->. apply W. now rewrite Z.lor_assoc.
  - inversion S; subst. now apply IH.
Qed.
Lemma nf_decode_date md jul hs str m d2 tm o : short_numbers str -> Dt m jul tm -> Ck hs tm ->
  nf (fun q => let '(t, tm', d2') := q in Dt (Z.lor m t) jul tm' /\ Ck hs tm') (decode_date md str m d2 tm o).
Proof.
  intros S D C. unfold decode_date. eapply nf_bind; [apply nf_date_parts|]. intros ps E _. apply date_parts_short in E; [|exact S].
  eapply nf_bind; [apply (nf_text_month jul hs ps m 0 tm false E D C)|]. intros [[[[fs fm] t'] tm'] h'] _ (A & B & C' & G).
  eapply nf_bind; [apply (nf_number_parts md jul hs 1000000 o h' fs (Z.le_refl _) fm t' tm' d2 0 A B C'); cbn; lia|].
  intros [[[fm2 t2] tm2] d22] _ (B2 & C2 & G2). destruct (negb _); [exact I|]. cbn [nf]. split; [|exact C2].
  rewrite <- (G2 m); [exact B2|]. apply G. now rewrite Z.lor_0_r.
Qed.

(** ** Clock times *)
Definition same_date (a b : pgtime) : Prop :=
  tm_year a = tm_year b /\ tm_yday a = tm_yday b /\ tm_mon a = tm_mon b /\ tm_mday a = tm_mday b.
Definition kept (a b B : Z) : Prop := a = b \/ Z.abs a <= B.
Definition clock_small (x : tmf) : Prop :=
  Z.abs (tm_hour (fst x)) <= 999999 /\ Z.abs (tm_min (fst x)) <= 999999 /\ Z.abs (tm_sec (fst x)) <= 999999 /\ Z.abs (snd x) <= 1000000.
Definition clock_kept (x' x : tmf) : Prop :=
  kept (tm_hour (fst x')) (tm_hour (fst x)) 999999 /\ kept (tm_min (fst x')) (tm_min (fst x)) 999999 /\
  kept (tm_sec (fst x')) (tm_sec (fst x)) 999999 /\ kept (snd x') (snd x) 1000000.

Definition time_check (tm : pgtime) (fs : Z) : tmf * res unit :=
  if (tm_hour tm <? 0) || (tm_min tm <? 0) || (MINS_PER_HOUR - 1 <? tm_min tm)
     || (tm_sec tm <? 0) || (SECS_PER_MINUTE <? tm_sec tm) || (fs <? 0)
     || (USECS_PER_SEC <? fs)
  then ((tm, fs), Err EInvalid) else ((tm, fs), Ok tt).
Lemma time_check_ok x tm fs : same_date tm (fst x) -> clock_small (tm, fs) ->
  let '(x', r) := time_check tm fs in
  same_date (fst x') (fst x) /\ clock_kept x' x /\ nf (fun _ => clock_small x' /\ 0 <= tm_hour (fst x')) r.
Proof.
  intros D C. unfold time_check.
  assert (clock_kept (tm, fs) x) as K by (unfold clock_kept, kept; destruct C as (A & B & E & F); auto).
  destruct (_ || _) eqn:E; cbn; auto. split; [exact D|]. split; [exact K|]. split; [exact C|].
  repeat apply orb_false_elim in E as [E _]. lia.
Qed.
Lemma decode_time_ok md field range x : short_numbers field ->
  let '(x', r) := decode_time md field range x in
  same_date (fst x') (fst x) /\ clock_kept x' x /\ nf (fun _ => clock_small x' /\ 0 <= tm_hour (fst x')) r.
Proof.
  intros S. destruct x as [tm0 fs0]. unfold decode_time. fold time_check.
  pose proof (nf_str2i32 field S) as P1. destruct (str2i32 field) as [[h s]| |]; cbn in P1.
  2,3: cbn; unfold same_date, clock_kept, kept; auto 10. destruct P1 as [Bh S1].
  cbn [fst snd].
  destruct s as [|c s]; [cbn; unfold same_date, clock_kept, kept; cbn; auto 10|].
  destruct (negb (c =? 58)); [cbn; unfold same_date, clock_kept, kept; cbn; auto 10|].
  assert (short_numbers s) as Ss by (eapply short_suf; [eapply suffix_cons; exact S1|exact S]).
  pose proof (nf_str2i32 s Ss) as P2. destruct (str2i32 s) as [[mi s2]| |]; cbn in P2.
  2,3: cbn; unfold same_date, clock_kept, kept; cbn; auto 10. destruct P2 as [Bm S2].
  destruct s2 as [|c2 s2].
  { destruct (range =? INTERVAL_MASK_MS); apply (time_check_ok (tm0, fs0)); cbn; unfold same_date, clock_small; cbn; lia. }
  destruct (Z.eqb_spec c2 46) as [->|N].
  { pose proof (nf_fraction md 46 s2) as P3. destruct (parse_fractional_second md (46 :: s2)) as [fs| |]; cbn in P3.
    2,3: cbn; unfold same_date, clock_kept, kept; cbn; auto 10.
    apply (time_check_ok (tm0, fs0)); cbn; unfold same_date, clock_small; cbn; lia. }
  destruct (Z.eqb_spec c2 58) as [->|N2]; [|cbn; unfold same_date, clock_kept, kept; cbn; auto 10].
  assert (short_numbers s2) as Ss2 by (eapply short_suf; [eapply suffix_cons; exact S2|exact Ss]).
  pose proof (nf_str2i32 s2 Ss2) as P3. destruct (str2i32 s2) as [[se s3]| |]; cbn in P3.
  2,3: cbn; unfold same_date, clock_kept, kept; cbn; auto 10. destruct P3 as [Bs S3].
  destruct s3 as [|c3 s3].
  { apply (time_check_ok (tm0, fs0)); cbn; unfold same_date, clock_small; cbn; lia. }
  destruct (Z.eqb_spec c3 46) as [->|N3]; [|cbn; unfold same_date, clock_kept, kept; cbn; auto 10].
  pose proof (nf_fraction md 46 s3) as P4. destruct (parse_fractional_second md (46 :: s3)) as [fs| |]; cbn in P4.
  2,3: cbn; unfold same_date, clock_kept, kept; cbn; auto 10.
  apply (time_check_ok (tm0, fs0)); cbn; unfold same_date, clock_small; cbn; lia.
Qed.
Lemma nf_time_field md field x : short_numbers field ->
  nf (fun x' => same_date (fst x') (fst x) /\ clock_small x' /\ 0 <= tm_hour (fst x')) (time_field md field x).
Proof.
  intros S. unfold time_field. pose proof (decode_time_ok md field INTERVAL_FULL_RANGE x S) as H.
  destruct (decode_time md field INTERVAL_FULL_RANGE x) as [x' r]. destruct H as (A & _ & B). destruct r; cbn in B |- *; auto.
Qed.

(** ** The context of the date and time parsers *)
Definition rest_ok (hs : bool) (c : ctx) : Prop :=
  Ck hs (c_tm c) /\ Z.abs (c_fsec c) <= 2000000 /\ c_bc c = false /\ (hs = true -> c_ptype c <> KHour).
Definition Inv (hs : bool) (c : ctx) : Prop := Dt (c_fmask c) (c_julian c) (c_tm c) /\ rest_ok hs c.
Definition Pre (hs : bool) (c : ctx) : Prop :=
  (has (c_fmask c) (c_tmask c) = false -> Dt (Z.lor (c_fmask c) (c_tmask c)) (c_julian c) (c_tm c)) /\ rest_ok hs c.

Lemma nf_merge hs c : Pre hs c -> nf (Inv hs) (merge_mask c).
Proof. intros [P R]. unfold merge_mask. destruct (has _ _) eqn:E; [exact I|]. cbn. split; [now apply P|exact R]. Qed.
Lemma ctx_new_ok hs : Inv hs ctx_new.
Proof. unfold Inv, rest_ok, Dt, Ck, full. vm_compute. destruct hs; intuition (try discriminate); now right. Qed.

Lemma nf_ctx_decode_date md hs str o c : short_numbers str -> Inv hs c -> nf (Pre hs) (ctx_decode_date md str o c).
Proof.
  intros S [D R]. unfold ctx_decode_date. eapply nf_bind; [apply (nf_decode_date md (c_julian c) hs); [exact S|exact D|apply R]|].
  intros [[t tm] d2] _ [A B]. destruct R as (_ & R1 & R2 & R3). split; [cbn; auto|]. split; [exact B|auto].
Qed.
Lemma N_Pre hs c n : rest_ok hs c -> N (c_fmask c) (c_julian c) hs 2000000 n -> Pre hs (of_nst n c).
Proof. intros (_ & _ & R2 & R3) (A & B & E). split; [exact A|]. split; [exact B|]. split; [exact E|]. now split. Qed.
Lemma nf_ctx_number_field hs str fm c : short_numbers str -> Inv hs c -> fm = c_fmask c \/ full fm ->
  nf (Pre hs) (ctx_number_field str fm c).
Proof.
  intros S [D R] Hm. unfold ctx_number_field.
  eapply nf_bind; [apply (nf_number_field (c_fmask c) (c_julian c) hs 2000000 str fm (to_nst c)); [exact S|exact D|exact (proj1 R)|exact (proj1 (proj2 R))|lia|exact Hm]|].
  intros q _ Q. cbn [nf]. now apply N_Pre.
Qed.
Lemma nf_ctx_decode_number md hs str fm o c : short_numbers str -> Inv hs c -> fm = c_fmask c \/ full fm ->
  nf (Pre hs) (ctx_decode_number md str fm o c).
Proof.
  intros S [D R] Hm. unfold ctx_decode_number.
  eapply nf_bind; [apply (nf_decode_number md (c_fmask c) (c_julian c) hs 2000000 str false fm (to_nst c) o); [exact S|exact D|exact (proj1 R)|exact (proj1 (proj2 R))|lia|exact Hm]|].
  intros q _ Q. cbn [nf]. now apply N_Pre.
Qed.
Lemma full_or m : full (Z.lor m DTK_DATE_M).
Proof.
  unfold full. apply Z.bits_inj'. intros n _. rewrite Z.land_spec, Z.lor_spec. destruct (Z.testbit DTK_DATE_M n).
  - now rewrite orb_true_r.
  - now rewrite andb_false_r.
Qed.
Lemma dot_time v a : rep v a -> (0 <= a <= 1)%R -> 0 <= f64_to_i64 (fmul v (f64_of_Z USECS_PER_DAY)) <= usecs_day.
Proof. intros R H. apply (mul_unit_pos v a USECS_PER_DAY R H). unfold USECS_PER_DAY. lia. Qed.

Lemma nf_prefixed md hs str c : short_numbers str -> Inv hs c -> nf (Pre hs) (prefixed_number md str c).
Proof.
  intros S IV. pose proof IV as [D R]. unfold prefixed_number. eapply nf_bind; [exact (nf_str2i32 str S)|].
  intros [val s] _ [V Sx]. cbn [fst snd] in V, Sx.
  eapply (nf_bind (fun _ => True)); [destruct s; [exact I|]; destruct (_ && _); exact I|]. intros _ _ _.
  eapply (nf_bind (Pre hs)).
  2: { intros c' _ [A (B1 & B2 & B3 & B4)]. cbn [nf]. split; [exact A|]. split; [exact B1|]. split; [exact B2|]. split; [exact B3|]. easy. }
  destruct R as ((R1 & R2 & R3) & R4 & R5 & R6).
  destruct (c_ptype c) eqn:Ep; try exact I.
  - (* time *)
    eapply nf_bind; [apply (nf_ctx_number_field hs str _ c S IV); right; apply full_or|]. intros c' _ P.
    destruct (negb _); [exact I|exact P].
  - (* second *)
    cbv zeta. assert (forall t f, has t (mask DOY) = false -> Z.abs f <= 2000000 ->
      Pre hs (c_set_tmask t (c_set_fsec f (c_set_tmask (mask SECOND) (c_set_tm (set_sec val (c_tm c)) c))))) as H.
    { intros t f Ht Bf. split; cbn.
      - intros _. apply (Dt_ext _ _ (c_tm c)); try reflexivity. now apply Dt_lor.
      - unfold rest_ok, Ck. cbn. rewrite Ep. auto. }
    destruct s as [|ch s].
    + cbn [nf]. apply (H (mask SECOND) (c_fsec c)); [reflexivity|lia].
    + destruct (Z.eqb_spec ch 46) as [->|]; [|cbn [nf]; apply (H (mask SECOND) (c_fsec c)); [reflexivity|lia]].
      eapply nf_bind; [exact (nf_fraction md 46 s)|]. intros fs _ B. specialize (B eq_refl). cbn [nf].
      apply H; [reflexivity|lia].
  - (* minute *)
    cbn [nf]. split; cbn.
    + intros _. apply (Dt_ext _ _ (c_tm c)); try reflexivity. now apply Dt_lor.
    + unfold rest_ok, Ck. cbn. rewrite Ep. auto.
  - (* hour *)
    destruct hs; [now elim R6|]. cbn [nf]. split; cbn.
    + intros _. apply (Dt_ext _ _ (c_tm c)); try reflexivity. now apply Dt_lor.
    + unfold rest_ok, Ck. cbn. rewrite Ep. auto.
  - (* day *)
    cbn [nf]. split; cbn.
    + intros T. now apply Dt_day.
    + unfold rest_ok, Ck. cbn. rewrite Ep. auto.
  - (* month *)
    destruct (_ && _); cbn [nf]; split; cbn.
    + intros _. apply (Dt_ext _ _ (c_tm c)); try reflexivity. now apply Dt_lor.
    + unfold rest_ok, Ck. cbn. rewrite Ep. auto.
    + intros T. now apply Dt_month.
    + unfold rest_ok, Ck. cbn. rewrite Ep. auto.
  - (* year *)
    cbn [nf]. split; cbn.
    + intros T. now apply Dt_year.
    + unfold rest_ok, Ck. cbn. rewrite Ep. auto.
  - (* julian *)
    destruct (Z.ltb_spec val 0); [exact I|]. rewrite julian2date_ok by lia. cbn [bind].
    pose proof (day_of_valid val) as W. destruct (day_of val) as [[y mo] d]. destruct W as [Wm Wd].
    pose proof (month_len_bounds y mo Wm) as Wl. cbv zeta.
    assert (forall t tm', (t = DTK_DATE_M \/ t = Z.lor DTK_DATE_M DTK_TIME_M) -> has (c_fmask c) t = false ->
      tm_mday tm' = d -> tm_yday tm' = tm_yday (c_tm c) -> Dt (Z.lor (c_fmask c) t) true tm') as H'.
    { intros t tm' Ht N <- Eyd. unfold Dt.
      assert (has t (mask MONTH) = true /\ has t (mask DOY) = false /\ has DTK_DATE_M t = true) as (T1 & T2 & T3).
      { destruct Ht as [-> | ->]; repeat split. }
      assert (has (c_fmask c) (mask DOY) = false) as T4.
      { destruct (has (c_fmask c) (mask DOY)) eqn:Q; [|reflexivity]. destruct D as (_ & _ & Do & _).
        specialize (Do Q). rewrite (full_has _ t Do T3) in N. discriminate. }
      assert (full (Z.lor (c_fmask c) t)) as T5.
      { rewrite Z.lor_comm. apply full_lor. destruct Ht as [-> | ->]; reflexivity. }
      rewrite !has_lor, T1, T2, T4, orb_true_r. cbn [orb]. split; [easy|]. split; [auto|]. split; [easy|].
      rewrite Eyd. split; [apply D|]. split; [auto|lia]. }
    assert (Pre hs (c_set_julian true (c_set_tmask DTK_DATE_M (c_set_tm (set_ymd y mo d (c_tm c)) c)))) as H0.
    { split; cbn; [|unfold rest_ok, Ck; cbn; rewrite Ep; auto]. intros N. apply H'; auto. }
    destruct s as [|ch s]; [exact H0|]. destruct (Z.eqb_spec ch 46) as [->|]; [|exact H0].
    destruct (str2d (46 :: s)) as [[v r]|e|f] eqn:E; [|exact I|cbn; eapply str2d_nofault; exact E]. cbn [bind fst].
    destruct (str2d_dot s v r E) as [(a & Ra & Ba) _]. pose proof (dot_time v a Ra Ba) as B.
    rewrite date2time_ok by exact B. cbn [bind nf].
    set (T := f64_to_i64 _) in *. clearbody T.
    assert (0 <= hour_of T <= 24 /\ 0 <= min_of T < 60 /\ 0 <= sec_of T < 60 /\ 0 <= usec_of T < 1000000) as (B1 & B2 & B3 & B4).
    { clear - B. unfold hour_of, min_of, sec_of, usec_of, usecs_day in *. lia. }
    split; cbn.
    + intros N. apply H'; auto.
    + unfold rest_ok, Ck. cbn. rewrite Ep. repeat split; try lia; try easy. destruct hs; lia.
Qed.

(** ** Single fields *)
Lemma str2i32_alnum c r v s : is_alnum c = true -> str2i32 (c :: r) = Ok (v, s) -> 0 <= v <= i32_max.
Proof.
  intros A. unfold str2i32, eat_whitespaces, extract_sign. cbn [eat].
  assert (is_space c = false) as -> by (unfold is_alnum, is_alpha, is_upper, is_lower, is_digit, is_space in *; lia).
  cbn [snd].
  assert (c =? 43 = false) as -> by (unfold is_alnum, is_alpha, is_upper, is_lower, is_digit in *; lia).
  assert (c =? 45 = false) as -> by (unfold is_alnum, is_alpha, is_upper, is_lower, is_digit in *; lia).
  unfold eat_digits. pose proof (eat_split is_digit (c :: r)) as E. destruct (eat is_digit (c :: r)) as [a b]. destruct E as (_ & F & _).
  destruct (10 <? blen a); [discriminate|]. destruct (in32b (dval 0 a * 1)) eqn:B; [|discriminate].
  intros Q. injection Q as <- <-. apply digits_forallb in F. apply in32b_spec in B. unfold in_i32 in B.
  rewrite dval_value in *. pose proof (digits_value_bound a F). lia.
Qed.
Lemma Inv_Pre hs c t : Inv hs c -> has t (mask DOY) = false -> Pre hs (c_set_tmask t c).
Proof. intros [D R] T. split; [|exact R]. cbn. intros _. now apply Dt_lor. Qed.
Lemma zero_land m : Z.land m DTK_DATE_M = 0 -> forall t, Z.land DTK_DATE_M t = t -> has m t = false.
Proof. intros E t T. rewrite (land_sub m 0 t E T). reflexivity. Qed.

(** Between fields: the mask of the last field is part of the mask of all fields. *)
Definition Inv2 (hs : bool) (c : ctx) : Prop := Inv hs c /\ Z.lor (c_fmask c) (c_tmask c) = c_fmask c.
Lemma Inv2_Pre hs c : Inv2 hs c -> Pre hs c.
Proof. intros [[D R] E]. split; [|exact R]. now rewrite E. Qed.
Lemma nf_merge2 hs c : Pre hs c -> nf (Inv2 hs) (merge_mask c).
Proof.
  intros P. eapply nf_imp; [exact (nf_merge hs c P)|]. intros c' E IV. split; [exact IV|]. unfold merge_mask in E.
  destruct (has _ _); [discriminate|]. injection E as <-. cbn. rewrite <- Z.lor_assoc. now rewrite Z.lor_diag.
Qed.
Lemma ctx_new_ok2 hs : Inv2 hs ctx_new.
Proof. split; [apply ctx_new_ok|reflexivity]. Qed.
Lemma then_merge hs (m : res ctx) : nf (Pre hs) m -> nf (Inv2 hs) (let* c := m in merge_mask c).
Proof. intros H. eapply nf_bind; [exact H|]. intros c _ P. now apply nf_merge2. Qed.

Lemma nf_decode_date_token md hs field o c : short_numbers field -> (exists ch r, field = ch :: r /\ is_alnum ch = true) -> Inv2 hs c ->
  nf (Pre hs) (decode_date_token md field o c).
Proof.
  intros S (ch & r & -> & A) IV. unfold decode_date_token. destruct (tfeq (c_ptype c) KJulian).
  { destruct (str2i32 (ch :: r)) as [[v s]| |] eqn:E; [|exact I|].
    - cbn [bind fst]. apply str2i32_alnum in E; [|exact A]. rewrite julian2date_ok by (unfold i32_max in E; lia). exact I.
    - pose proof (nf_str2i32 _ S) as H. rewrite E in H. exact H. }
  destruct (negb (is_num (c_ptype c)) || _); [|apply nf_ctx_decode_date; [exact S|apply IV]].
  destruct (is_digit ch || negb (is_num (c_ptype c))); [|exact I]. destruct (negb (is_num (c_ptype c))); [|now apply Inv2_Pre].
  destruct (negb (tfeq _ _)); [exact I|]. cbv zeta. destruct (_ =? DTK_TIME_M); [exact I|]. destruct (Nat.eqb _ _); exact I.
Qed.
Lemma nf_decode_number_token md hs field o c : short_numbers field -> Inv hs c -> nf (Pre hs) (decode_number_token md field o c).
Proof.
  intros S IV. unfold decode_number_token. destruct (negb _); [now apply nf_prefixed|]. cbv zeta.
  destruct (_ && _); [now apply nf_ctx_decode_date|]. destruct (_ && _); [apply nf_ctx_number_field; auto|].
  destruct (_ && _); [apply nf_ctx_number_field; auto|apply nf_ctx_decode_number; auto].
Qed.

(** The words that matter *)
Lemma bc_table : forallb (fun t => negb (tteq (dt_ty t) ADBC && (dt_value t =? BC)) || beq (dt_token t) (bs "bc")) DATE_TOKEN_TABLE = true.
Proof. vm_compute. reflexivity. Qed.
Lemma hour_table : forallb (fun t => negb (tteq (dt_ty t) UNITS && (dt_value t =? 20)) || beq (dt_token t) (bs "h")) DATE_TOKEN_TABLE = true.
Proof. vm_compute. reflexivity. Qed.
Lemma tteq_refl t : tteq t t = true. Proof. destruct t; reflexivity. Qed.
Lemma table_word ty v k w : (length k < 10)%nat ->
  forallb (fun t => negb (tteq (dt_ty t) ty && (dt_value t =? v)) || beq (dt_token t) k) DATE_TOKEN_TABLE = true ->
  ty <> UnknownField -> decode_special w = Ok (ty, v) -> w = k.
Proof.
  intros L F U. unfold decode_special, decode_nocache.
  destruct (token_search_ok DATE_TOKEN_TABLE (token_key w) date_table_sorted) as ([t|] & E & H).
  all: rewrite E; cbn [bind]. 2: intros Q; injection Q as <- <-; now elim U. intros Q. injection Q as Ty Tv.
  destruct H as [I K]. pose proof (proj1 (forallb_forall _ _) F t I) as B. cbn beta in B.
  rewrite Ty, Tv, tteq_refl, Z.eqb_refl in B. cbn [negb orb andb] in B. apply beq_eq in B. rewrite B in K. clear - K L.
  unfold token_key in K. change MAX_TOKEN_LEN with 10%nat in K. rewrite firstn_firstn in K. cbn [Nat.min] in K.
  assert (length (firstn 10 w) < 10)%nat as Lw by (rewrite <- K; exact L).
  rewrite firstn_length in Lw. rewrite (firstn_all2 w) in K by lia. now symmetry.
Qed.
Lemma bc_word w : decode_special w = Ok (ADBC, BC) -> w = bs "bc".
Proof. apply table_word; [cbn; lia|apply bc_table|discriminate]. Qed.
Lemma hour_word w : decode_special w = Ok (UNITS, 20) -> w = bs "h".
Proof. apply table_word; [cbn; lia|apply hour_table|discriminate]. Qed.
Lemma nth_hour l : forall n, nth_error l n = Some KHour -> forallb (fun k => negb (tfeq k KHour)) (firstn n l) = true ->
  forallb (fun k => negb (tfeq k KHour)) (skipn (S n) l) = true -> forall i, nth_error l i = Some KHour -> i = n.
Proof.
  induction l as [|k l IH]; intros [|n] E A B [|i]; cbn in E |- *; try discriminate; auto.
  - intros Q. exfalso. cbn [skipn] in B. rewrite forallb_forall in B. apply nth_error_In in Q. apply B in Q. discriminate.
  - intros Q. cbn in A. injection Q as ->. discriminate.
  - intros Q. f_equal. apply IH; auto. cbn in A. now apply andb_prop in A.
Qed.
Lemma hour_code v : tfield_of v = Ok KHour -> v = 20.
Proof.
  unfold tfield_of. destruct (Z.ltb_spec v 0); [discriminate|]. intros E.
  destruct (nth_error tfields (Z.to_nat v)) as [k|] eqn:Q; [|discriminate]. injection E as ->.
  apply (nth_hour tfields 20) in Q; [lia|reflexivity|reflexivity|reflexivity].
Qed.

Lemma hour_isotime w : decode_special w = Ok (ISOTIME, 20) -> w = bs "h".
Proof. apply table_word; [cbn; lia|vm_compute; reflexivity|discriminate]. Qed.

(** The field is not one of the words that make large years or hours *)
Definition plain (hs : bool) (field : bytes) : Prop := field <> bs "bc" /\ (hs = true -> field <> bs "h").

Lemma clock_zero hs m jul tm : Ck hs tm -> Dt m jul tm -> Ck hs (set_sec 0 (set_min 0 (set_hour 0 tm))) /\
  Dt m jul (set_sec 0 (set_min 0 (set_hour 0 tm))).
Proof. intros C D. split; [unfold Ck; cbn; destruct hs; lia|exact D]. Qed.

Lemma nf_decode_string_token hs field next c : plain hs field -> Inv hs c ->
  nf (fun o => match o with Some c' => Pre hs c' | None => True end) (decode_string_token field next c).
Proof.
  intros [W1 W2] IV. unfold decode_string_token. destruct (decode_special field) as [[ty v]|e|f] eqn:E.
  2: exact I. 2: pose proof (nf_decode_special field) as Q; rewrite E in Q; exact Q.
  cbn [bind]. destruct (tteq ty IgnoreDtf); [exact I|]. cbv zeta.
  eapply (nf_bind (Pre hs)); [|intros c' _ P; exact P].
  pose proof IV as [D (R1 & R2 & R3 & R4)].
  destruct ty; try exact I.
  - (* reserved words *)
    destruct (special_code field _ v E eq_refl) as (k & ->). cbn [bind].
    assert (forall k', Pre hs (c_set_dtype k' (c_set_tmask (mask RESERV) c))) as P0.
    { intros k'. apply (Inv_Pre hs c (mask RESERV) IV). reflexivity. }
    destruct k; try exact I; try apply P0. cbn [nf]. split.
    + cbn. intros _. apply (Dt_ext _ _ (c_tm c)); try reflexivity. now apply Dt_lor.
    + destruct (clock_zero hs _ _ _ R1 D) as [A B]. split; [exact A|auto].
  - (* month *)
    cbn [nf]. destruct (_ && _) eqn:B.
    + apply andb_prop in B as [B B5]. apply andb_prop in B as [B B4]. apply andb_prop in B as [B B3]. apply andb_prop in B as [B1 _].
      cbn in B1, B3, B4, B5. apply negb_true_iff in B3. split; [|split; [exact R1|auto]]. cbn. intros T.
      pose proof (Dt_none _ _ _ _ D T eq_refl) as J. rewrite J in *. pose proof D as (Y & _).
      eapply Dt_part; [exact D|exact T|reflexivity|reflexivity|exact (Y eq_refl)|reflexivity| |cbn; lia].
      left. rewrite has_lor, B1. reflexivity.
    + split; [|split; [exact R1|auto]]. cbn. intros T. now apply Dt_month.
  - (* am, pm *)
    cbn [nf]. apply (Inv_Pre hs c (mask AMPM) IV). reflexivity.
  - (* weekday *)
    cbn [nf]. apply (Inv_Pre hs c (mask DOW) IV). reflexivity.
  - (* prefix *)
    destruct (special_code field _ v E eq_refl) as (k & Ek). rewrite Ek. cbn [bind nf].
    split; [cbn; intros _; now apply Dt_lor|]. split; [exact R1|]. split; [exact R2|]. split; [exact R3|].
    cbn. intros -> ->. apply hour_code in Ek as ->. apply hour_word in E. now apply W2.
  - (* ad, bc *)
    cbn [nf]. assert ((v =? BC) = false) as Q.
    { apply Z.eqb_neq. intros ->. now apply W1, bc_word. }
    split; [cbn; intros _; now apply Dt_lor|]. split; [exact R1|]. split; [exact R2|]. split; [exact Q|exact R4].
  - (* t *)
    destruct (negb _); [exact I|]. destruct next as [[t x]|]; [|cbn; discriminate].
    destruct t as [kt|]; cbn [read_type bind]; [|cbn; discriminate]. destruct (negb _); [exact I|].
    destruct (special_code field _ v E eq_refl) as (k & Ek). rewrite Ek. cbn [bind nf].
    split; [cbn; intros _; now apply Dt_lor|]. split; [exact R1|]. split; [exact R2|]. split; [exact R3|].
    cbn. intros -> ->. apply hour_code in Ek as ->. apply hour_isotime in E. now apply W2.
Qed.
Lemma nf_time_string_token hs field next c : plain hs field -> Inv hs c ->
  nf (fun o => match o with Some c' => Pre hs c' | None => True end) (time_string_token field next c).
Proof.
  intros [W1 W2] IV. unfold time_string_token. destruct (decode_special field) as [[ty v]|e|f] eqn:E.
  2: exact I. 2: pose proof (nf_decode_special field) as Q; rewrite E in Q; exact Q.
  cbn [bind]. destruct (tteq ty IgnoreDtf); [exact I|]. cbv zeta.
  eapply (nf_bind (Pre hs)); [|intros c' _ P; exact P].
  pose proof IV as [D (R1 & R2 & R3 & R4)].
  destruct ty; try exact I.
  - (* reserved words *)
    destruct (special_code field _ v E eq_refl) as (k & ->). cbn [bind].
    destruct k; try exact I. cbn [nf]. split.
    + cbn. intros _. apply (Dt_ext _ _ (c_tm c)); try reflexivity. now apply Dt_lor.
    + destruct (clock_zero hs _ _ _ R1 D) as [A B]. split; [exact A|auto].
  - (* am, pm *)
    cbn [nf]. apply (Inv_Pre hs c (mask AMPM) IV). reflexivity.
  - (* prefix *)
    destruct (special_code field _ v E eq_refl) as (k & Ek). rewrite Ek. cbn [bind nf].
    split; [cbn; intros _; now apply Dt_lor|]. split; [exact R1|]. split; [exact R2|]. split; [exact R3|].
    cbn. intros -> ->. apply hour_code in Ek as ->. apply hour_word in E. now apply W2.
  - (* ad, bc *)
    cbn [nf]. assert ((v =? BC) = false) as Q.
    { apply Z.eqb_neq. intros ->. now apply W1, bc_word. }
    split; [cbn; intros _; now apply Dt_lor|]. split; [exact R1|]. split; [exact R2|]. split; [exact Q|exact R4].
  - (* t *)
    destruct next as [[t x]|]; [|exact I].
    destruct t as [kt|]; cbn [read_type bind]; [|cbn; discriminate]. destruct (negb _); [exact I|].
    destruct (special_code field _ v E eq_refl) as (k & Ek). rewrite Ek. cbn [bind nf].
    split; [cbn; intros _; now apply Dt_lor|]. split; [exact R1|]. split; [exact R2|]. split; [exact R3|].
    cbn. intros -> ->. apply hour_code in Ek as ->. apply hour_isotime in E. now apply W2.
Qed.

(** ** Whole texts *)
Definition field_ok (hs : bool) (t : token) : Prop := shape t /\ short_numbers (snd t) /\ plain hs (snd t).

Lemma Ck_time hs tm c fs : same_date tm (c_tm c) -> clock_small (tm, fs) -> (hs = true -> Z.abs (tm_hour tm) <= 99) -> Inv hs c ->
  Pre hs (c_set_tmask DTK_TIME_M (c_set_tm tm (c_set_fsec fs c))).
Proof.
  intros (S1 & S2 & S3 & S4) (C1 & C2 & C3 & C4) H [D (R1 & R2 & R3 & R4)]. cbn [fst snd] in *. split; cbn.
  - intros _. apply (Dt_ext _ _ (c_tm c)); auto. now apply Dt_lor.
  - split; [|split; [cbn; lia|auto]]. cbn. split; [|auto]. destruct hs; auto.
Qed.
Lemma nf_date_time_field md hs o t next c : field_ok hs t -> Inv2 hs c -> nf (Inv2 hs) (date_time_field md o t next c).
Proof.
  intros (Sh & Sn & Pl) IV. unfold date_time_field. destruct t as [[k|] field]; cbn [fst snd read_type bind] in *; [|cbn; discriminate].
  unfold shape in Sh. cbn [fst snd] in Sh. destruct k; try contradiction; try (match goal with |- nf _ (Err _) => exact I end).
  - apply then_merge, nf_decode_number_token; [exact Sn|apply IV].
  - eapply nf_bind; [apply (nf_decode_string_token hs field next c Pl), IV|]. intros [c'|] _ P; [now apply nf_merge2|exact IV].
  - now apply then_merge, nf_decode_date_token.
  - eapply (nf_bind (Inv hs)).
    { destruct (negb _); [|exact (proj1 IV)]. destruct (negb _); [exact I|]. destruct IV as [[D (R1 & R2 & R3 & R4)] _].
      cbn [nf]. split; [exact D|]. split; [exact R1|]. split; [exact R2|]. now split. }
    intros c' _ IV'. eapply nf_bind; [apply (nf_time_field md field (c_tm c', c_fsec c') Sn)|]. intros [tm fs] _ (A & B & C).
    destruct (_ || _) eqn:Q; [exact I|]. apply nf_merge2, Ck_time; auto. cbn [fst] in *. intros _.
    apply orb_false_elim in Q as [Q _]. change HOURS_PER_DAY with 24 in Q. lia.
  - eapply nf_bind; [apply (nf_decode_string_token hs field next c Pl), IV|]. intros [c'|] _ P; [now apply nf_merge2|exact IV].
Qed.
Lemma nf_date_time_fields md hs o ts : forall c, Forall (field_ok hs) ts -> Inv2 hs c -> nf (Inv2 hs) (date_time_fields md o ts c).
Proof.
  induction ts as [|t ts IH]; intros c F IV; [exact IV|]. cbn [date_time_fields]. inversion F; subst.
  eapply nf_bind; [now apply (nf_date_time_field md hs o t (hd_error ts) c)|]. intros c' _ IV'. now apply IH.
Qed.
Lemma nf_time_only_field md hs o id types t next c : hs = false -> field_ok hs t -> Inv2 hs c ->
  nf (Inv2 hs) (time_only_field md o id types t next c).
Proof.
  intros Hs (Sh & Sn & Pl) IV. unfold time_only_field. destruct t as [[k|] field]; cbn [fst snd read_type bind] in *; [|cbn; discriminate].
  unfold shape in Sh. cbn [fst snd] in Sh. destruct k; try contradiction; try (match goal with |- nf _ (Err _) => exact I end).
  - apply then_merge. unfold time_number_token. destruct (negb _); [apply nf_prefixed; [exact Sn|apply IV]|]. cbv zeta.
    destruct (negb _).
    + eapply (nf_bind (fun _ => True)).
      { destruct (_ && _); [|exact I]. destruct (nth _ types None); cbn; [exact I|discriminate]. }
      intros b _ _. destruct b; [apply nf_ctx_decode_date; [exact Sn|apply IV]|]. destruct (2 <? _); [|exact I].
      apply nf_ctx_number_field; [exact Sn|apply IV|right; apply full_or].
    + destruct (4 <? _); [apply nf_ctx_number_field|apply nf_ctx_decode_number]; try (exact Sn); try (apply IV); right; apply full_or.
  - eapply nf_bind; [apply (nf_time_string_token hs field next c Pl), IV|]. intros [c'|] _ P; [now apply nf_merge2|exact IV].
  - apply then_merge. unfold time_date_token. destruct (_ && _); [|exact I].
    eapply (nf_bind (fun _ => True)). { destruct (nth _ types None); cbn; [exact I|discriminate]. }
    intros k _ _. eapply (nf_bind (fun _ => True)).
    { destruct (tfeq k KDate); [exact I|]. destruct (nth 1 types None); cbn; [exact I|discriminate]. }
    intros b _ _. destruct b; [|exact I]. apply nf_ctx_decode_date; [exact Sn|apply IV].
  - eapply nf_bind; [apply (nf_time_field md field (c_tm c, c_fsec c) Sn)|]. intros [tm fs] _ (A & B & C).
    apply nf_merge2, Ck_time; auto; [|apply IV]. intros; congruence.
  - exact I.
  - eapply nf_bind; [apply (nf_time_string_token hs field next c Pl), IV|]. intros [c'|] _ P; [now apply nf_merge2|exact IV].
Qed.
Lemma nf_time_only_fields md hs o types ts : hs = false -> forall id c, Forall (field_ok hs) ts -> Inv2 hs c ->
  nf (Inv2 hs) (time_only_fields md o id types ts c).
Proof.
  intros Hs. induction ts as [|t ts IH]; intros id c F IV; [exact IV|]. cbn [time_only_fields]. inversion F; subst.
  eapply nf_bind; [now apply (nf_time_only_field md false o id types t (hd_error ts) c)|]. intros c' _ IV'. now apply IH.
Qed.

Definition same_clock (a b : pgtime) : Prop := tm_hour a = tm_hour b /\ tm_min a = tm_min b /\ tm_sec a = tm_sec b.
Lemma J_first_day y : 1 <= y <= 1010000 -> 1 <= J (y, 1, 1) <= 400000000.
Proof. intros H. unfold J, Cal.shift. change (2 <? 1) with false. cbv beta iota zeta. change (7834 * (1 + 13) / 256) with 428. lia. Qed.
Lemma nf_validate md fm jul d2 tm : Dt fm jul tm ->
  nf (fun tm' => same_clock tm' tm /\ (~ full fm -> Z.abs (tm_year tm') <= 1010000 /\ Z.abs (tm_mon tm') <= 12 /\ Z.abs (tm_mday tm') <= 1010000))
     (validate_date md fm jul d2 false tm).
Proof.
  intros (Y & Ju & Do & Yd & Mo & Da). unfold validate_date.
  eapply (nf_bind (fun tm1 => exists y, tm1 = set_year y tm /\ (jul = false -> Z.abs y <= 1001999) /\
    (has fm (mask YEAR) = true -> jul = false -> 1 <= y))).
  { destruct (has fm (mask YEAR)) eqn:HY.
    2: { exists (tm_year tm). split; [now destruct tm|]. split; [intros Q; specialize (Y Q); lia|easy]. }
    destruct jul; [exists (tm_year tm); split; [now destruct tm|easy]|]. specialize (Y eq_refl).
    destruct d2.
    - destruct (Z.ltb_spec (tm_year tm) 0); [exact I|].
      destruct (Z.ltb_spec (tm_year tm) 70); [eapply nf_bind; [nfa; lia|intros ? _ ->]; cbn; eexists; split; [reflexivity|]; lia|].
      destruct (Z.ltb_spec (tm_year tm) 100); [eapply nf_bind; [nfa; lia|intros ? _ ->]; cbn; eexists; split; [reflexivity|]; lia|].
      exists (tm_year tm). split; [now destruct tm|]. lia.
    - destruct (Z.leb_spec (tm_year tm) 0); [exact I|]. exists (tm_year tm). split; [now destruct tm|]. lia. }
  intros tm1 _ (y & -> & By & Py).
  eapply (nf_bind (fun tm2 => same_clock tm2 tm /\ (~ full fm -> tm2 = set_year y tm) /\ (has fm (mask MONTH) = true \/ tm2 = set_year y tm))).
  { destruct (has fm (mask DOY)) eqn:HD; [|cbn; repeat split; auto].
    specialize (Do eq_refl). assert (jul = false) as Q. { destruct jul; [|easy]. destruct (Ju eq_refl). congruence. }
    specialize (By Q). specialize (Py (full_year _ Do) Q). cbn [set_year tm_year tm_yday].
    rewrite date2julian_ok by lia. cbn [bind]. pose proof (J_first_day y ltac:(lia)) as B.
    set (j := J (y, 1, 1)) in *. clearbody j.
    eapply nf_bind; [nfa; lia|intros ? _ ->]. eapply nf_bind; [nfa; lia|intros ? _ ->].
    rewrite julian2date_ok by lia. cbn [bind]. destruct (day_of _) as [[y' m'] d']. cbn [nf].
    split; [now repeat split|]. split; [intros NF; now elim NF|left; now apply full_month]. }
  intros tm2 _ (SC & NF & MF).
  destruct (has fm (mask MONTH) && _) eqn:B1; [exact I|]. destruct (has fm (mask DAY) && _) eqn:B2; [exact I|].
  assert (~ full fm -> Z.abs (tm_year tm2) <= 1010000 /\ Z.abs (tm_mon tm2) <= 12 /\ Z.abs (tm_mday tm2) <= 1010000) as K.
  { intros NFm. specialize (NF NFm). subst tm2. assert (jul = false) as Q by (destruct jul; [now destruct (Ju eq_refl)|easy]).
    specialize (By Q). cbn. split; [lia|]. split; [|lia]. cbn in B1. change MONTHS_PER_YEAR with 12 in B1.
    destruct Mo as [Mo|]; [rewrite Mo in B1; cbn [andb] in B1; lia|assumption]. }
  destruct (Z.land fm DTK_DATE_M =? DTK_DATE_M) eqn:Fl; [|now split].
  apply Z.eqb_eq in Fl. rewrite (full_month fm Fl) in B1. cbn [andb] in B1. change MONTHS_PER_YEAR with 12 in B1.
  rewrite DateP.days_of_month_ok by lia. cbn [bind]. destruct (month_len _ _ <? _); [exact I|now split].
Qed.
Lemma nf_apply_mer md mer tm B : 0 <= B <= 2000000 -> Z.abs (tm_hour tm) <= B ->
  nf (fun tm' => same_date tm' tm /\ Z.abs (tm_hour tm') <= B + 12 /\ tm_min tm' = tm_min tm /\ tm_sec tm' = tm_sec tm) (apply_mer md mer tm).
Proof.
  intros HB H. unfold apply_mer. change (Z.quot HOURS_PER_DAY 2) with 12.
  destruct (_ && _); [exact I|]. destruct (_ && _); [cbn; unfold same_date; cbn; lia|].
  destruct (_ && _); [|cbn; unfold same_date; cbn; lia].
  eapply nf_bind; [nfa; lia|intros ? _ ->]. cbn; unfold same_date; cbn; lia.
Qed.
Lemma nf_date2julian_valid md y m d : is_valid_julian y m = true ->
  (valid_ymd (y, m, d) \/ Z.abs y <= 1010000 /\ Z.abs m <= 12 /\ Z.abs d <= 1010000) ->
  nf (fun j => -400000000 <= j <= i32_max) (date2julian md y m d).
Proof.
  intros V [[Hm Hd]|(A & B & C)].
  - pose proof (month_len_bounds y m Hm). unfold is_valid_julian, JULIAN_MIN_YEAR, JULIAN_MIN_MONTH, JULIAN_MAX_YEAR, JULIAN_MAX_MONTH in V.
    rewrite date2julian_ok by lia. cbn [nf]. unfold i32_max, J, Cal.shift. destruct (Z.ltb_spec 2 m); lia.
  - eapply nf_imp; [now apply nf_date2julian|]. cbn beta. unfold i32_max. lia.
Qed.

Lemma nf_time2t md h mi s us : Z.abs h <= 111 -> Z.abs mi <= 999999 -> Z.abs s <= 999999 -> Z.abs us <= 2000000 ->
  nf (fun t => Z.abs t <= 100000000000000) (time2t md h mi s us).
Proof.
  intros H M S U. unfold time2t, MINS_PER_HOUR, SECS_PER_MINUTE, USECS_PER_SEC. repeat nfs.
  eapply nf_imp; [nfa; lia|]. cbn beta. lia.
Qed.
Lemma nf_ok_or {A} (o : option A) e : nf (fun _ => True) (ok_or o e).
Proof. destruct o; exact I. Qed.
Lemma nf_round_scale md v p : 0 <= p <= 6 -> - (i64_max - 500000) <= v <= i64_max - 500000 -> nf (fun _ => True) (round_scale md v p).
Proof. intros P V. destruct (round_scale_ok md v p P V) as (r & -> & _). exact I. Qed.

Lemma validated md fm jul d2 tm tm' : full fm -> validate_date md fm jul d2 false tm = Ok tm' -> valid_ymd (tm_year tm', tm_mon tm', tm_mday tm').
Proof. intros F. now apply ParsedP.validate_complete. Qed.

Lemma nf_parse s : (sig s <= 128)%nat -> nf (fun _ => True) (parse_date_time s).
Proof. intros L. now apply nf_sf, sf_parse. Qed.

Definition ready (hs : bool) (x : pgtime * tfield * Z) : Prop :=
  let '(tm, k, fs) := x in
  (valid_ymd (tm_year tm, tm_mon tm, tm_mday tm) \/
    Z.abs (tm_year tm) <= 1010000 /\ Z.abs (tm_mon tm) <= 12 /\ Z.abs (tm_mday tm) <= 1010000) /\
  (hs = true -> Z.abs (tm_hour tm) <= 111) /\ Z.abs (tm_min tm) <= 999999 /\ Z.abs (tm_sec tm) <= 999999 /\ Z.abs fs <= 2000000.
Lemma nf_decode_date_time md hs o ts : Forall (field_ok hs) ts -> nf (ready hs) (decode_date_time md o ts).
Proof.
  intros F. unfold decode_date_time. eapply nf_bind; [apply (nf_date_time_fields md hs o ts ctx_new F), ctx_new_ok2|].
  intros c _ [[D ((C1 & C2 & C3) & R2 & R3 & R4)] _]. rewrite R3.
  eapply nf_bind; [apply (nf_validate md _ _ (c_2d c) _ D)|]. intros tm E ((S1 & S2 & S3) & V).
  eapply nf_bind; [apply (nf_apply_mer md (c_mer c) tm (if hs then 99 else 999999)); [destruct hs; lia|now rewrite S1]|].
  intros tm' _ ((A1 & A2 & A3 & A4) & B1 & B2 & B3).
  assert (ready hs (tm', c_dtype c, c_fsec c)) as K.
  { unfold ready. rewrite A1, A3, A4, B2, B3, S2, S3. split; [|split; [intros ->; lia|auto]].
    destruct (Z.eq_dec (Z.land (c_fmask c) DTK_DATE_M) DTK_DATE_M) as [Fl|Fl]; [left; eapply validated; eassumption|right; now apply V]. }
  destruct (_ && _); [|exact K]. destruct (_ =? DTK_TIME_M); [exact K|exact I].
Qed.
Lemma nf_decode_time_only md o ts : Forall (field_ok false) ts ->
  nf (fun x => 0 <= tm_hour (fst x) <= 24 /\ 0 <= tm_min (fst x) <= 59 /\ 0 <= tm_sec (fst x) <= 60 /\ 0 <= snd x <= 1000000)
     (decode_time_only md o ts).
Proof.
  intros F. unfold decode_time_only.
  eapply nf_bind; [apply (nf_time_only_fields md false o (List.map fst ts) ts eq_refl 0 ctx_new F), ctx_new_ok2|].
  intros c _ [[D ((C1 & C2 & C3) & R2 & R3 & R4)] _]. rewrite R3.
  eapply nf_bind; [apply (nf_validate md _ _ (c_2d c) _ D)|]. intros tm E ((S1 & S2 & S3) & V).
  eapply nf_bind; [apply (nf_apply_mer md (c_mer c) tm 999999); [lia|now rewrite S1]|].
  intros tm' _ _. destruct (_ || _) eqn:B; [exact I|]. cbn [nf fst snd].
  change MINS_PER_HOUR with 60 in B. change SECS_PER_MINUTE with 60 in B. change HOURS_PER_DAY with 24 in B.
  change USECS_PER_SEC with 1000000 in B. clear - B. lia.
Qed.

Section Texts.
Variables (s : bytes) (hs : bool).
Hypothesis Hl : (sig s <= 128)%nat.
Hypothesis Hs : short_numbers s.
Hypothesis Hb : ~ has_word (bs "bc") s.
Hypothesis Hh : hs = true -> ~ has_word (bs "h") s.

Lemma fields_ok ts : parse_date_time s = Ok ts -> Forall (field_ok hs) ts.
Proof.
  intros E. pose proof (parse_lexed s ts E) as L. pose proof (lexed_shape s ts L) as Sh. rewrite Forall_forall in *. intros t It.
  split; [now apply Sh|]. split; [now apply (field_short s ts)|]. split.
  - intros Q. apply Hb. apply (field_word s ts t (bs "bc") L It Q); [discriminate|reflexivity].
  - intros Q W. apply (Hh Q). apply (field_word s ts t (bs "h") L It W); [discriminate|reflexivity].
Qed.
Lemma nf_date md o : nf (fun _ => True) (date_try_from_str md s o).
Proof.
  unfold date_try_from_str. eapply nf_bind; [apply nf_parse, Hl|]. intros ts E _.
  eapply nf_bind; [apply (nf_decode_date_time md hs o ts), fields_ok, E|]. intros [[tm k] fs] _ (V & _).
  destruct k; try exact I. destruct (is_valid_julian _ _) eqn:Jv; cbn [negb]; [|exact I].
  eapply nf_bind; [apply (nf_date2julian_valid md _ _ _ Jv V)|]. intros j _ B. unfold POSTGRES_EPOCH_JDATE.
  eapply nf_bind; [nfa; unfold i32_max in B; lia|]. intros d _ _. destruct (negb _); exact I.
Qed.
Lemma nf_timestamp md p o : hs = true -> nf (fun _ => True) (timestamp_try_from_str md s p o).
Proof.
  intros Q. unfold timestamp_try_from_str. eapply nf_bind; [apply nf_parse, Hl|]. intros ts E _.
  eapply nf_bind; [apply (nf_decode_date_time md hs o ts), fields_ok, E|]. intros [[tm k] fs] _ (V & H & M & Se & U). specialize (H Q).
  eapply (nf_bind (fun v => valid_ts v \/ v = i64_max \/ v = i64_min)).
  { destruct k; try exact I; cbn [nf]; auto.
    destruct (to_timestamp md tm fs) as [v| |] eqn:T; cbn [nf]; [left; now apply ParsedP.to_timestamp_range in T|exact I|].
    intros ->. revert T. apply nf_true. unfold to_timestamp. destruct (is_valid_julian _ _) eqn:Jv; cbn [negb]; [|exact I].
    eapply nf_bind; [apply (nf_date2julian_valid md _ _ _ Jv V)|]. intros j _ B.
    rewrite date2julian_ok by lia. change (J (2000, 1, 1)) with 2451545. cbn [bind].
    eapply nf_bind; [nfa; unfold i32_max in B; lia|]. intros d _ _.
    eapply nf_bind; [now apply nf_time2t|]. intros t _ _.
    eapply nf_bind; [apply nf_ok_or|]. intros ? _ _. eapply nf_bind; [apply nf_ok_or|]. intros ? _ _. destruct (negb _); exact I. }
  intros v _ Hv. unfold timestamp_adjust_by_typmod. destruct (_ && _) eqn:B; [|exact I]. destruct (_ || _) eqn:P; [exact I|].
  apply nf_round_scale; [lia|]. destruct Hv as [Hv|[->| ->]]; [|discriminate B..]. unfold valid_ts in Hv. unfold i64_max. lia.
Qed.
Lemma nf_time md p o : hs = false -> nf (fun _ => True) (time_try_from_str md s p o).
Proof.
  intros Q. unfold time_try_from_str. eapply nf_bind; [apply nf_parse, Hl|]. intros ts E _.
  eapply nf_bind; [apply (nf_decode_time_only md o ts); rewrite <- Q; apply fields_ok, E|].
  intros [tm fs] _ (H & M & Se & U). cbn [fst snd] in *.
  eapply (nf_bind (fun t => 0 <= t <= 100000000000)).
  { unfold time_from_pgtime, MINS_PER_HOUR, SECS_PER_MINUTE, USECS_PER_SEC. repeat nfs.
    eapply nf_imp; [nfa; lia|]. cbn beta. lia. }
  intros t _ B. unfold time_adjust_by_typmod. destruct (_ && _) eqn:P; [|exact I]. apply nf_round_scale; [lia|unfold i64_max; lia].
Qed.
End Texts.
