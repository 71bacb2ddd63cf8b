(** Reading intervals: fields separated by blanks, numbers with units, clock fields. *)
From Verif Require Import Model.Parse Spec.Calendar Spec.Ranges Spec.Clock Spec.Text Spec.IntervalS
  Proofs.Arith Proofs.TsP Proofs.IntervalP Proofs.FloatP Proofs.IvTruncP Proofs.DigitsP Proofs.FormatP Proofs.ParseP
  Proofs.RoundTripP.
From Coq Require Import Reals.
Open Scope Z_scope.

(** ** Fields separated by blanks *)
Definition ends (rest : bytes) : Prop := rest = [] \/ exists r, rest = 32 :: r.
Definition piece (p : bytes) (t : token) : Prop :=
  p <> [] /\ forall fuel n room rest, ends rest -> n < 25 -> blen p <= room ->
  tokenize (S fuel) n room (p ++ rest) =
  let* ts := tokenize fuel (n + 1) (room - blen p) rest in Ok (t :: ts).
Definition spaced (ps : list bytes) : bytes := concat (List.map (cons 32) ps).

Lemma spaced_cons p ps : spaced (p :: ps) = 32 :: p ++ spaced ps.
Proof. reflexivity. Qed.
Lemma spaced_app a b : spaced (a ++ b) = spaced a ++ spaced b.
Proof. unfold spaced. now rewrite map_app, concat_app. Qed.
Lemma spaced_ends ps : ends (spaced ps).
Proof. destruct ps; [now left|right; eexists; reflexivity]. Qed.

Lemma tokenize_pieces ps ts : Forall2 piece ps ts -> forall fuel n room,
  n + Z.of_nat (length ps) <= 25 -> blen (spaced ps) <= room -> (length ps <= fuel)%nat ->
  tokenize (S fuel) n room (spaced ps) = Ok ts.
Proof.
  induction 1 as [|p t ps ts [Np P] _ IH]; intros fuel n room N R L; [reflexivity|].
  cbn [length] in *. destruct fuel as [|fuel]; [lia|].
  rewrite spaced_cons in *. unfold blen in R. cbn [length] in R. rewrite app_length in R.
  rewrite tokenize_space, P by (unfold blen; auto using spaced_ends; lia).
  rewrite IH by (unfold blen; lia). reflexivity.
Qed.

Lemma spaced_len ps ts : Forall2 piece ps ts -> (2 * length ps <= length (spaced ps))%nat.
Proof.
  induction 1 as [|p t ps ts [Np P] _ IH]; [cbn; lia|]. rewrite spaced_cons. cbn [length]. rewrite app_length.
  destruct p; [easy|cbn [length]; lia].
Qed.

Lemma parse_pieces txt ps ts : 32 :: txt = spaced ps -> Forall2 piece ps ts -> (length ps <= 25)%nat ->
  (length txt <= 127)%nat -> parse_date_time txt = Ok ts.
Proof.
  intros E F L B. pose proof (spaced_len _ _ F) as SL. rewrite <- E in SL. cbn [length] in SL.
  destruct ps as [|p ps]; [discriminate|]. cbn [length] in *.
  rewrite parse_date_time_cons by (destruct txt; [cbn in SL; lia|discriminate]).
  rewrite <- tokenize_space, E. apply tokenize_pieces; auto; rewrite <- ?E; unfold blen; cbn [length] in *; lia.
Qed.

Lemma ends_stops f rest : f 32 = false -> ends rest -> stops f rest.
Proof. intros H [->|[r ->]]; [exact I|exact H]. Qed.

Lemma piece_number ds : forallb is_digit ds = true -> ds <> [] -> piece ds (Some KNumber, ds).
Proof.
  intros F N. split; [easy|]. intros fuel n room rest R Bn B.
  rewrite (tokenize_digit fuel n room (ds ++ rest) (Some KNumber, ds) rest); [reflexivity| | |easy|exact B].
  - destruct ds as [|c r]; [easy|]. cbn in *. now apply andb_prop in F.
  - unfold digit_begin, eat_digits. rewrite eat_app by (auto; now apply ends_stops).
    destruct R as [->|[r ->]]; reflexivity.
Qed.
Lemma piece_decimal ds fr : forallb is_digit ds = true -> ds <> [] -> forallb is_digit fr = true -> fr <> [] ->
  piece (ds ++ 46 :: fr) (Some KNumber, ds ++ 46 :: fr).
Proof.
  intros F N F2 N2. split; [destruct ds; [easy|discriminate]|]. intros fuel n room rest R Bn B.
  rewrite (tokenize_digit fuel n room _ (Some KNumber, ds ++ 46 :: fr) rest); [reflexivity| | |easy|exact B].
  - destruct ds as [|c r]; [easy|]. cbn in *. now apply andb_prop in F.
  - unfold digit_begin, eat_digits. rewrite <- app_assoc. cbn [app]. rewrite eat_app by (auto; reflexivity).
    change (46 =? 58) with false. change ((46 =? 45) || (46 =? 47) || (46 =? 46)) with true. cbv iota.
    unfold digit_delim_begin. destruct fr as [|c r]; [easy|]. cbn [app].
    assert (is_digit c = true) as Dc by (cbn in F2; now apply andb_prop in F2). rewrite Dc.
    change (c :: r ++ rest) with ((c :: r) ++ rest). unfold eat_digits.
    rewrite eat_app by (auto; now apply ends_stops).
    destruct R as [->|[q ->]]; reflexivity.
Qed.
Lemma piece_pair ds es : forallb is_digit ds = true -> ds <> [] -> forallb is_digit es = true -> es <> [] ->
  piece (ds ++ 45 :: es) (Some KDate, ds ++ 45 :: es).
Proof.
  intros F N F2 N2. split; [destruct ds; [easy|discriminate]|]. intros fuel n room rest R Bn B.
  rewrite (tokenize_digit fuel n room _ (Some KDate, ds ++ 45 :: es) rest); [reflexivity| | |easy|exact B].
  - destruct ds as [|c r]; [easy|]. cbn in *. now apply andb_prop in F.
  - unfold digit_begin, eat_digits. rewrite <- app_assoc. cbn [app]. rewrite eat_app by (auto; reflexivity).
    change (45 =? 58) with false. change ((45 =? 45) || (45 =? 47) || (45 =? 46)) with true. cbv iota.
    unfold digit_delim_begin. destruct es as [|c r]; [easy|]. cbn [app].
    assert (is_digit c = true) as Dc by (cbn in F2; now apply andb_prop in F2). rewrite Dc.
    change (c :: r ++ rest) with ((c :: r) ++ rest). unfold eat_digits.
    rewrite eat_app by (auto; now apply ends_stops).
    destruct R as [->|[q ->]]; reflexivity.
Qed.
Lemma piece_clock w h mi s us t : clock_text w h mi s us t -> piece t (Some KTime, t).
Proof.
  intros C. split.
  - destruct (clock_cons _ _ _ _ _ _ C) as (c & r & -> & _). discriminate.
  - intros. eapply tokenize_time; eauto. now apply ends_stops.
Qed.
Lemma piece_word w : forallb is_alpha w = true -> w <> [] -> piece w (Some KString, lowers w).
Proof. intros F N. split; [easy|]. intros. now apply tokenize_word. Qed.

Definition signed_char (i : Z) : bool := is_digit i || (i =? 58) || (i =? 46) || (i =? 45).
Lemma piece_signed c b : c = 43 \/ c = 45 -> match b with d :: _ => is_digit d = true | [] => False end ->
  forallb signed_char b = true -> piece (c :: b) (Some KTz, c :: b).
Proof.
  intros Hc Hb F. split; [discriminate|]. intros fuel n room rest R Bn B.
  assert (is_digit c = false /\ (c =? 46) = false /\ is_alpha c = false /\ ((c =? 43) || (c =? 45)) = true /\ is_space c = false)
    as (E1 & E2 & E3 & E4 & E5) by (destruct Hc as [->| ->]; auto).
  cbn [app tokenize]. rewrite eat_ws_cons by easy. unfold MAX_DATE_FIELDS. destruct (Z.leb_spec 25 n); [lia|].
  rewrite E1, E2, E3, E4. unfold use_buf at 1. unfold blen in B. cbn [length] in B.
  change (blen [c]) with 1. destruct (Z.leb_spec 1 room); [|lia]. cbn [bind].
  unfold sign_begin. destruct b as [|d b]; [easy|]. cbn [app].
  rewrite eat_ws_cons by (apply digit_not_space; now apply is_digit_iff). rewrite Hb.
  change (fun i => is_digit i || (i =? 58) || (i =? 46) || (i =? 45)) with signed_char.
  change (d :: b ++ rest) with ((d :: b) ++ rest). rewrite eat_app by (auto; now apply ends_stops).
  cbn [bind snd]. unfold use_buf.
  destruct (Z.leb_spec (blen (c :: d :: b)) room); [reflexivity|unfold blen in *; cbn [length] in *; lia].
Qed.

(** ** Numbers with units *)
Definition num_token (v : Z) (t : token) : Prop :=
  (fst t = Some KNumber \/
   fst t = Some KTz /\ (exists c r, snd t = c :: r /\ (c = 45 \/ c = 43)) /\ existsb (fun b => b =? 58) (snd t) = false)
  /\ str2i32 (snd t) = Ok (v, []).

Definition num_step (md : mode) (range : Z) (field : bytes) (i : ist) (x : tmf) : tm_step ist :=
  step_bind (interval_number_field md field (i_ty i) range x)
    (fun x r => merge_i (snd r) (i_set_ty (fst r) i) x).

Lemma tz_field md range f i x : (exists c r, f = c :: r /\ (c = 45 \/ c = 43)) -> existsb (fun b => b =? 58) f = false ->
  interval_field md range (Some KTz, f) i x = num_step md range f i x.
Proof.
  intros (c & r & -> & Hc) E. unfold interval_field. cbn [fst snd].
  assert (debug_assert md ((c =? 45) || (c =? 43)) = Ok tt) as -> by (destruct md, Hc as [->| ->]; reflexivity).
  now rewrite E.
Qed.

Lemma num_field md range v t i x : num_token v t ->
  interval_field md range t i x = num_step md range (snd t) i x.
Proof.
  intros [H _]. destruct t as [k f]. cbn [fst snd] in *. destruct H as [->|(-> & H & E)]; [reflexivity|].
  now apply tz_field.
Qed.

Lemma interval_number_int md f v ty : str2i32 f = Ok (v, []) -> interval_number md f ty = Ok (ty, v, f0).
Proof. intros E. unfold interval_number. rewrite E. reflexivity. Qed.

(** The five units whose numbers are whole. *)
Inductive unit5 := UYear | UMon | UDay | UHour | UMin.
Definition ucode (u : unit5) : Z :=
  kcode (match u with UYear => KYear | UMon => KMonth | UDay => KDay | UHour => KHour | UMin => KMinute end).
Definition umask (u : unit5) : Z :=
  mask (match u with UYear => YEAR | UMon => MONTH | UDay => DAY | UHour => HOUR | UMin => MINUTE end).
Definition uget (u : unit5) (x : tmf) : Z :=
  match u with UYear => tm_year (fst x) | UMon => tm_mon (fst x) | UDay => tm_mday (fst x)
  | UHour => tm_hour (fst x) | UMin => tm_min (fst x) end.
Definition uset (u : unit5) (v : Z) (x : tmf) : tmf :=
  match u with UYear => s_year v x | UMon => s_mon v x | UDay => s_mday v x
  | UHour => s_hour v x | UMin => s_min v x end.
Definition unext (u : unit5) : Z := match u with UHour => kcode KDay | _ => ucode u end.

Lemma fnz_f0 : fnz f0 = false. Proof. reflexivity. Qed.

Lemma unit_number md u f v x : str2i32 f = Ok (v, []) -> in_i32 v -> uget u x = 0 ->
  interval_number_field md f (ucode u) INTERVAL_FULL_RANGE x = (uset u v x, Ok (unext u, umask u)).
Proof.
  intros E R Z0. unfold interval_number_field.
  assert (default_unit (ucode u) INTERVAL_FULL_RANGE = ucode u) as -> by (destruct u; reflexivity).
  rewrite (interval_number_int md f v _ E).
  assert (forall y, add32 md 0 y = ar32 md y) as A by reflexivity.
  assert (forall y z, mul32 md y z = ar32 md (y * z)) as M by reflexivity.
  destruct u; cbn [uget] in Z0; change (tfield_of _) with (Ok (A := tfield) KYear) || change (tfield_of _) with (Ok (A := tfield) KMonth)
    || change (tfield_of _) with (Ok (A := tfield) KDay) || change (tfield_of _) with (Ok (A := tfield) KHour) || change (tfield_of _) with (Ok (A := tfield) KMinute);
  cbv iota; unfold add_years, adjust_fract_days, adjust_fract_seconds; rewrite ?fnz_f0; cbn [negb]; rewrite Z0, ?M, ?Z.mul_1_r, ?A, ?(ar32_ok _ v R);
  cbn [bind step_set step_bind]; rewrite ?A, ?(ar32_ok _ v R); reflexivity.
Qed.

Lemma has_lor a b m : has (Z.lor a b) m = has a m || has b m.
Proof.
  unfold has. rewrite Z.land_lor_distr_l. rewrite <- negb_andb. f_equal.
  destruct (Z.eqb_spec (Z.land a m) 0) as [->|N]; [reflexivity|]. cbn [andb].
  apply Z.eqb_neq. intros E. apply N. apply Z.lor_eq_0_iff in E. apply E.
Qed.

Lemma unit_pair md u w f v rest i x : decode_units w = Ok (UNITS, ucode u) -> num_token v f -> in_i32 v ->
  uget u x = 0 -> has (i_fmask i) (umask u) = false ->
  interval_fields md INTERVAL_FULL_RANGE ((Some KString, w) :: f :: rest) i x =
  interval_fields md INTERVAL_FULL_RANGE rest
    (mkI (unext u) (Z.lor (i_fmask i) (umask u)) (i_before i) (i_dtype i)) (uset u v x).
Proof.
  intros D N R Z0 H. cbn [interval_fields]. unfold interval_field at 1. cbn [fst snd]. rewrite D.
  unfold merge_i. unfold has at 1. rewrite Z.land_0_r. cbn [Z.eqb negb step_bind].
  change (negb (0 =? 0)) with false. cbv iota. cbn [step_bind].
  rewrite (num_field _ _ v) by easy. unfold num_step. cbn [i_set_ty i_ty].
  rewrite (unit_number md u _ v) by (auto; apply N). cbn [step_bind fst snd]. unfold merge_i.
  cbn [i_set_ty i_fmask i_ty i_before i_dtype]. rewrite Z.lor_0_r, H. reflexivity.
Qed.

(** ** Clock fields *)
Definition put_clock (h mi s us : Z) (x : tmf) : tmf := (set_sec s (set_min mi (set_hour h (fst x))), us).

Lemma clock_field md w h mi s us t i x : (w <= 10)%nat -> clock_text w h mi s us t ->
  0 <= h <= i32_max -> 0 <= mi < 60 -> 0 <= s < 60 -> has (i_fmask i) DTK_TIME_M = false ->
  interval_field md INTERVAL_FULL_RANGE (Some KTime, t) i x =
  (put_clock h mi s us x, Ok (mkI (kcode KDay) (Z.lor (i_fmask i) DTK_TIME_M) (i_before i) (i_dtype i))).
Proof.
  intros W C Hh Hm Hs H. unfold interval_field. cbn [fst snd].
  rewrite (decode_time_ok md w h mi s us) by easy. cbn [step_bind]. unfold merge_i. cbn [i_set_ty i_fmask]. now rewrite H.
Qed.

Lemma clock_colon w h mi s us t : clock_text w h mi s us t -> existsb (fun b => b =? 58) t = true.
Proof.
  intros (th & tmi & ts & _ & _ & _ & ->). rewrite existsb_app. cbn. now rewrite orb_true_r.
Qed.
Lemma clock_chars w h mi s us t : clock_text w h mi s us t -> forallb signed_char t = true.
Proof.
  intros (th & tmi & ts & Ph & Pm & Ps & ->).
  assert (forall w n l, padded w n l -> forallb signed_char l = true) as K.
  { intros ? ? l P. apply (forallb_weaken is_digit); [|eauto using padded_digits].
    intros x E. unfold signed_char. now rewrite E. }
  rewrite forallb_app. cbn [forallb]. rewrite forallb_app. cbn [forallb].
  rewrite (K _ _ _ Ph), (K _ _ _ Pm). cbn [andb].
  rewrite (forallb_weaken time_char signed_char ts); [reflexivity| |eauto using time_chars].
  intros x E. unfold signed_char. apply orb_prop in E as [E|E]; [apply orb_prop in E as [E|E]|]; rewrite E, ?orb_true_r; reflexivity.
Qed.

Lemma negate_clock_ok md s mi h d mo y w yd dst us : Z.abs h <= i32_max -> Z.abs mi <= i32_max ->
  Z.abs s <= i32_max -> Z.abs us < 1000000 ->
  negate_clock md (mkTm s mi h d mo y w yd dst, us) = ((mkTm (- s) (- mi) (- h) d mo y w yd dst, - us), Ok tt).
Proof.
  intros Hh Hm Hs Hu. unfold negate_clock. cbn [fst snd tm_hour].
  assert (neg32 md h = Ok (- h)) as E1 by (ar; reflexivity).
  assert (neg32 md mi = Ok (- mi)) as E2 by (ar; reflexivity).
  assert (neg32 md s = Ok (- s)) as E3 by (ar; reflexivity).
  assert (neg64 md us = Ok (- us)) as E4 by (ar; reflexivity).
  repeat (rewrite ?E1, ?E2, ?E3, ?E4;
   cbv beta iota zeta delta [step_set step_bind s_hour s_min s_sec s_fsec fst snd set_hour set_min set_sec
    tm_sec tm_min tm_hour tm_mday tm_mon tm_year tm_wday tm_yday tm_isdst]). reflexivity.
Qed.

Lemma signed_clock_field md c w h mi s us t i x : (w <= 10)%nat -> clock_text w h mi s us t -> c = 43 \/ c = 45 ->
  0 <= h <= i32_max -> 0 <= mi < 60 -> 0 <= s < 60 -> 0 <= us < 1000000 -> has (i_fmask i) DTK_TIME_M = false ->
  interval_field md INTERVAL_FULL_RANGE (Some KTz, c :: t) i x =
  (put_clock (if c =? 45 then - h else h) (if c =? 45 then - mi else mi) (if c =? 45 then - s else s)
     (if c =? 45 then - us else us) x,
   Ok (mkI (kcode KDay) (Z.lor (i_fmask i) DTK_TIME_M) (i_before i) (i_dtype i))).
Proof.
  intros W C Hc Hh Hm Hs Hu H. unfold interval_field. cbn [fst snd].
  assert (debug_assert md ((c =? 45) || (c =? 43)) = Ok tt) as -> by (destruct md, Hc as [->| ->]; reflexivity).
  cbn [existsb]. rewrite (clock_colon _ _ _ _ _ _ C), orb_true_r.
  rewrite (decode_time_ok md w h mi s us) by easy. cbn [step_bind].
  destruct Hc as [->| ->].
  - change (43 =? 45) with false. cbv iota. cbn [step_bind]. unfold merge_i. cbn [i_set_ty i_fmask]. now rewrite H.
  - change (45 =? 45) with true. cbv iota. destruct x as [[s0 mi0 h0 d0 mo0 y0 w0 yd0 ds0] us0]. cbn [fst].
    unfold set_sec, set_min, set_hour. cbn [tm_sec tm_min tm_hour tm_mday tm_mon tm_year tm_wday tm_yday tm_isdst].
    rewrite negate_clock_ok by (unfold i32_max in *; lia). cbn [step_bind]. unfold merge_i. cbn [i_set_ty i_fmask]. rewrite H. reflexivity.
Qed.
