(** Reading numeric dates in any order, with short years and eras. *)
From Verif Require Import Model.Parse Spec.Calendar Spec.Ranges Spec.Clock Spec.Text Spec.DateText
  Proofs.Arith Proofs.Cal Proofs.DateP Proofs.TsP Proofs.DigitsP Proofs.ParseP Proofs.RoundTripP.
Open Scope Z_scope.

Section Numbers.
Variables (md : mode) (ds : bytes).
Hypothesis P : short_digits ds.
Let n := digits_value ds.

Lemma sd_value : 0 <= n <= 999999999.
Proof.
  destruct P as [F [_ L]]. pose proof (digits_value_bound _ F) as B.
  assert (10 ^ Z.of_nat (length ds) <= 10 ^ 9) by (apply Z.pow_le_mono_r; lia). change (10 ^ 9) with 1000000000 in *.
  unfold n. lia.
Qed.
Lemma sd_padded : padded (length ds) n ds.
Proof. destruct P as [F [L _]]. split; [|now left]. split; [exact F|]. split; [intros ->; cbn in L; lia|reflexivity]. Qed.
Lemma sd_nonempty : ds <> [].
Proof. destruct P as [_ [L _]]. intros ->. cbn in L. lia. Qed.
Lemma sd_i32 : n <= i32_max.
Proof. pose proof sd_value. rng. lia. Qed.
Lemma sd_w : (length ds <= 10)%nat.
Proof. destruct P. lia. Qed.

Ltac dn Hd := intros; unfold decode_number; rewrite (str_whole ds n (length ds) sd_padded sd_w sd_i32); cbn [bind];
  rewrite (beq_nil ds n (length ds) sd_padded);
  cbn [n_tm n_fsec n_2d]; rewrite Hd.

Lemma nd_year have fm tm fs d2 order : Z.land fm DTK_DATE_M = 0 -> (3 <=? blen ds) || is_ymd order = true ->
  decode_number md ds have fm (mkN 0 tm fs d2) order = Ok (mkN (mask YEAR) (set_year n tm) fs (blen ds <=? 2)).
Proof.
  intros Hd L. dn Hd. change (0 =? mask YEAR) with false. rewrite andb_false_r. cbn [andb].
  rewrite Z.eqb_refl, L. reflexivity.
Qed.
Lemma nd_day have fm tm fs d2 : Z.land fm DTK_DATE_M = 0 -> (3 <=? blen ds) = false ->
  decode_number md ds have fm (mkN 0 tm fs d2) DMY = Ok (mkN (mask DAY) (set_mday n tm) fs d2).
Proof. intros Hd L. dn Hd. change (0 =? mask YEAR) with false. rewrite andb_false_r. cbn [andb]. rewrite Z.eqb_refl, L. reflexivity. Qed.
Lemma nd_month have fm tm fs d2 : Z.land fm DTK_DATE_M = 0 -> (3 <=? blen ds) = false ->
  decode_number md ds have fm (mkN 0 tm fs d2) MDY = Ok (mkN (mask MONTH) (set_mon n tm) fs d2).
Proof. intros Hd L. dn Hd. change (0 =? mask YEAR) with false. rewrite andb_false_r. cbn [andb]. rewrite Z.eqb_refl, L. reflexivity. Qed.
Lemma nd_y_month have fm tm fs d2 order : Z.land fm DTK_DATE_M = mask YEAR -> blen ds <= 2 ->
  decode_number md ds have fm (mkN 0 tm fs d2) order = Ok (mkN (mask MONTH) (set_mon n tm) fs d2).
Proof. intros Hd L. dn Hd. replace (blen ds =? 3) with false by lia. reflexivity. Qed.
Lemma nd_ym_day fm tm fs d2 order : Z.land fm DTK_DATE_M = DTK_YEAR_MONTH_M ->
  decode_number md ds false fm (mkN 0 tm fs d2) order = Ok (mkN (mask DAY) (set_mday n tm) fs d2).
Proof. intros Hd. dn Hd. change (DTK_YEAR_MONTH_M =? mask YEAR) with false. rewrite andb_false_r. reflexivity. Qed.
Lemma nd_m_day fm tm fs d2 order : Z.land fm DTK_DATE_M = mask MONTH ->
  decode_number md ds false fm (mkN 0 tm fs d2) order = Ok (mkN (mask DAY) (set_mday n tm) fs d2).
Proof. intros Hd. dn Hd. change (mask MONTH =? mask YEAR) with false. rewrite andb_false_r. reflexivity. Qed.
Lemma nd_d_month have fm tm fs d2 order : Z.land fm DTK_DATE_M = mask DAY ->
  decode_number md ds have fm (mkN 0 tm fs d2) order = Ok (mkN (mask MONTH) (set_mon n tm) fs d2).
Proof. intros Hd. dn Hd. change (mask DAY =? mask YEAR) with false. rewrite andb_false_r. reflexivity. Qed.
Lemma nd_md_year have fm tm fs d2 order : Z.land fm DTK_DATE_M = DTK_MONTH_DAY_M ->
  decode_number md ds have fm (mkN 0 tm fs d2) order = Ok (mkN (mask YEAR) (set_year n tm) fs (blen ds <=? 2)).
Proof. intros Hd. dn Hd. change (DTK_MONTH_DAY_M =? mask YEAR) with false. rewrite andb_false_r. reflexivity. Qed.
End Numbers.

Section Date.
Variables (A B C : bytes) (sep : Z) (order : Base.date_order).
Hypotheses (PA : short_digits A) (PB : short_digits B) (PC : short_digits C).
Hypothesis LB : (length B <= 2)%nat.
Hypothesis Sep : separator sep.
Let text := A ++ sep :: B ++ sep :: C.
Let Y := fst (fst (reading order A B C)).
Let M := snd (fst (reading order A B C)).
Let D := snd (reading order A B C).

Lemma text_three : three (length A) (digits_value A) sep (length B) (digits_value B) sep (length C) (digits_value C) text.
Proof. exists A, B, C. split; [now apply sd_padded|]. split; [now apply sd_padded|]. split; [now apply sd_padded|reflexivity]. Qed.

Lemma sd_digits t : short_digits t -> forallb is_digit t = true.
Proof. intros [F _]. now apply digits_forallb. Qed.
Lemma text_parts k : date_parts (4 + k) 0 text = Ok [A; B; C].
Proof.
  assert (is_alnum sep = false) as As by (apply sep_alnum; unfold separator in Sep; tauto).
  assert (is_digit sep = false) as Ds by (unfold separator in Sep; destruct Sep as [->|[->| ->]]; reflexivity).
  unfold text. change (4 + k)%nat with (S (S (S (S k)))).
  change (A ++ sep :: B ++ sep :: C) with ([] ++ A ++ (sep :: B ++ sep :: C)).
  rewrite date_parts_step; [|easy|now apply sd_digits|now apply sd_nonempty|cbn; auto|lia].
  change (sep :: B ++ sep :: C) with ([sep] ++ B ++ (sep :: C)).
  rewrite date_parts_step; [|cbn; now rewrite As|now apply sd_digits|now apply sd_nonempty|cbn; auto|lia].
  change (sep :: C) with ([sep] ++ C). rewrite <- (app_nil_r C) at 1.
  rewrite date_parts_step; [|cbn; now rewrite As|now apply sd_digits|now apply sd_nonempty|exact I|lia].
  reflexivity.
Qed.

Lemma blen2 t : (blen t <=? 2) = (length t <=? 2)%nat.
Proof. unfold blen. destruct (Nat.leb_spec (length t) 2); lia. Qed.
Lemma blen3 t : (3 <=? blen t) = (3 <=? length t)%nat.
Proof. unfold blen. destruct (Nat.leb_spec 3 (length t)); lia. Qed.

Lemma numeric_decode md tm : decode_date md text 0 false tm order
  = Ok (DTK_DATE_M, set3 (digits_value Y) (digits_value M) (digits_value D) tm, (length Y <=? 2)%nat).
Proof.
  unfold decode_date.
  destruct (three_fuel _ _ _ _ _ _ _ _ _ text_three) as [k ->]. rewrite text_parts. cbn [bind].
  rewrite text_month_digits by (repeat constructor; now apply sd_digits). cbn [bind List.map].
  assert (blen B <= 2) as Lb by (unfold blen; lia).
  pose proof (sd_nonempty A PA). pose proof (sd_nonempty B PB). pose proof (sd_nonempty C PC).
  unfold Y, M, D, reading. destruct (3 <=? length A)%nat eqn:LA; [|destruct order].
  - erewrite number_parts_cons; [|auto|apply nd_year; [exact PA|reflexivity|now rewrite blen3, LA]|reflexivity].
    erewrite number_parts_cons; [|auto|apply nd_y_month; [exact PB|reflexivity|exact Lb]|reflexivity].
    erewrite number_parts_cons; [|auto|apply nd_ym_day; [exact PC|reflexivity]|reflexivity].
    cbn [number_parts bind]. mk. rewrite <- blen2. destruct tm; reflexivity.
  - erewrite number_parts_cons; [|auto|apply nd_year; [exact PA|reflexivity|now rewrite orb_true_r]|reflexivity].
    erewrite number_parts_cons; [|auto|apply nd_y_month; [exact PB|reflexivity|exact Lb]|reflexivity].
    erewrite number_parts_cons; [|auto|apply nd_ym_day; [exact PC|reflexivity]|reflexivity].
    cbn [number_parts bind]. mk. rewrite <- blen2. destruct tm; reflexivity.
  - erewrite number_parts_cons; [|auto|apply nd_day; [exact PA|reflexivity|now rewrite blen3]|reflexivity].
    erewrite number_parts_cons; [|auto|apply nd_d_month; [exact PB|reflexivity]|reflexivity].
    erewrite number_parts_cons; [|auto|apply nd_md_year; [exact PC|reflexivity]|reflexivity].
    cbn [number_parts bind]. mk. rewrite <- blen2. destruct tm; reflexivity.
  - erewrite number_parts_cons; [|auto|apply nd_month; [exact PA|reflexivity|now rewrite blen3]|reflexivity].
    erewrite number_parts_cons; [|auto|apply nd_m_day; [exact PB|reflexivity]|reflexivity].
    erewrite number_parts_cons; [|auto|apply nd_md_year; [exact PC|reflexivity]|reflexivity].
    cbn [number_parts bind]. mk. rewrite <- blen2. destruct tm; reflexivity.
Qed.

Definition num_ctx : ctx :=
  mkCtx (set3 (digits_value Y) (digits_value M) (digits_value D) tm_new) KDate 0 DTK_DATE_M DTK_DATE_M KNumber false
    (length Y <=? 2)%nat false HR24 false.

Lemma numeric_field md next : date_time_field md order (Some KDate, text) next ctx_new = Ok num_ctx.
Proof.
  unfold date_time_field, decode_date_token, ctx_decode_date. cbn [fst snd read_type bind].
  change (tfeq (c_ptype ctx_new) KJulian) with false. change (is_num (c_ptype ctx_new)) with true.
  cbn [negb orb]. change (c_fmask ctx_new) with 0. mk.
  change (c_tm ctx_new) with tm_new. change (c_2d ctx_new) with false.
  rewrite numeric_decode. cbn [bind]. reflexivity.
Qed.

(** The era *)
Definition mark_tokens (e : era) : list token :=
  match e with Unmarked => [] | MarkedAD => [(Some KString, [97; 100])] | MarkedBC => [(Some KString, [98; 99])] end.
Definition mark_ctx (e : era) (c : ctx) : ctx :=
  match e with
  | Unmarked => c
  | MarkedAD => c_set_fmask (Z.lor (c_fmask c) (mask ADBC)) (c_set_bc false (c_set_tmask (mask ADBC) c))
  | MarkedBC => bc_ctx c
  end.
Lemma tokenize_mark fuel n room e : n < 25 -> 2 <= room -> tokenize (S (S fuel)) n room (era_text e) = Ok (mark_tokens e).
Proof.
  intros N R. destruct e; [reflexivity| |]; unfold era_text, mark_tokens; rewrite tokenize_space.
  - change [65; 68] with ([65; 68] ++ []).
    rewrite tokenize_word; [reflexivity|reflexivity|easy|now left|easy|exact R].
  - change [66; 67] with ([66; 67] ++ []).
    rewrite tokenize_word; [reflexivity|reflexivity|easy|now left|easy|exact R].
Qed.
Lemma mark_fields md e c : has (c_fmask c) (mask ADBC) = false ->
  date_time_fields md order (mark_tokens e) c = Ok (mark_ctx e c).
Proof.
  intros H. destruct e; [reflexivity| |]; cbn [date_time_fields mark_tokens].
  - unfold date_time_field, decode_string_token. cbn [fst snd read_type bind hd_error].
    assert (decode_special [97; 100] = Ok (ADBC, 0)) as -> by (vm_compute; reflexivity).
    cbn [bind tteq]. change (tteq ADBC IgnoreDtf) with false. cbv iota. cbn [bind].
    change (0 =? BC) with false. unfold merge_mask.
    replace (has (c_fmask _) (c_tmask _)) with false by (symmetry; exact H). reflexivity.
  - cbn [hd_error]. now rewrite field_bc.
Qed.

Definition is_bc (e : era) : bool := match e with MarkedBC => true | _ => false end.

Lemma validate_reuse md (d2 bc : bool) tm y :
  (if bc then tm_year tm <=? 0 = false /\ y = 1 - tm_year tm else
   if d2 then 0 <= tm_year tm < 100 /\ y = (if tm_year tm <? 70 then 2000 + tm_year tm else 1900 + tm_year tm)
   else y = tm_year tm /\ tm_year tm <=? 0 = false) -> in_i32 (tm_year tm) ->
  validate_date md DTK_DATE_M false d2 bc tm
  = if validb y (tm_mon tm) (tm_mday tm) then Ok (set_year y tm) else Err EOverflow.
Proof.
  intros H R. destruct bc; [|destruct d2].
  - assert (validate_date md DTK_DATE_M false d2 true tm = validate_date md DTK_DATE_M false false true tm) as -> by reflexivity.
    rewrite validate_date_ymd by exact R. destruct H as [-> ->]. reflexivity.
  - assert (validate_date md DTK_DATE_M false true false tm = validate_date md DTK_DATE_M false false false (set_year y tm)) as ->.
    { destruct H as [Bh E]. unfold validate_date. mk.
      replace (tm_year tm <? 0) with false by lia.
      assert (tm_year (set_year y tm) = y) as -> by reflexivity.
      replace (y <=? 0) with false by (destruct (tm_year tm <? 70); lia).
      assert (forall z, set_year z (set_year y tm) = set_year z tm) as Ss by (destruct tm; reflexivity).
      destruct (Z.ltb_spec (tm_year tm) 70).
      - unfold add32. rewrite ar32_ok by (rng; lia). cbn [bind]. replace (tm_year tm + 2000) with y by lia. reflexivity.
      - replace (tm_year tm <? 100) with true by lia.
        unfold add32. rewrite ar32_ok by (rng; lia). cbn [bind]. replace (tm_year tm + 1900) with y by lia. reflexivity. }
    assert (tm_year (set_year y tm) = y) as Ty by reflexivity.
    rewrite validate_date_ymd by (rewrite Ty; destruct H as [Bh ->]; rng; destruct (tm_year tm <? 70); lia).
    rewrite Ty. cbv zeta. replace (y <=? 0) with false by (destruct H as [Bh ->]; destruct (tm_year tm <? 70); lia).
    destruct tm; reflexivity.
  - rewrite validate_date_ymd by exact R. destruct H as [-> ->]. reflexivity.
Qed.

Lemma digits_short t : Forall digit t -> (length t <= 2)%nat -> 0 <= digits_value t < 100.
Proof.
  intros F L. pose proof (digits_value_bound _ F) as Bd.
  assert (10 ^ Z.of_nat (length t) <= 10 ^ 2) by (apply Z.pow_le_mono_r; lia). change (10 ^ 2) with 100 in *. lia.
Qed.

Lemma short_Y : short_digits Y.
Proof. unfold Y, reading. destruct (3 <=? length A)%nat; [exact PA|]. destruct order; assumption. Qed.

Lemma validate_numeric md e tm : tm_year tm = digits_value Y ->
  validate_date md DTK_DATE_M false (length Y <=? 2)%nat (is_bc e) tm =
  match meant_year e Y with
  | Some y => if validb y (tm_mon tm) (tm_mday tm) then Ok (set_year y tm) else Err EOverflow
  | None => Err EOverflow
  end.
Proof.
  intros Ey. pose proof (sd_value Y short_Y) as Bv. assert (in_i32 (tm_year tm)) as R by (rewrite Ey; rng; lia).
  assert (is_bc e = true \/ is_bc e = false) as Be by (destruct e; auto).
  assert (meant_year e Y = if is_bc e then if digits_value Y =? 0 then None else Some (1 - digits_value Y)
    else if (length Y <=? 2)%nat then Some (if digits_value Y <? 70 then 2000 + digits_value Y else 1900 + digits_value Y)
      else if digits_value Y =? 0 then None else Some (digits_value Y)) as -> by (destruct e; reflexivity).
  destruct Be as [-> | ->].
  - destruct (Z.eqb_spec (digits_value Y) 0) as [Q|Q].
    + unfold validate_date. mk. now replace (tm_year tm <=? 0) with true by lia.
    + apply validate_reuse; [|exact R]. split; lia.
  - destruct (Nat.leb_spec (length Y) 2) as [L|L].
    + pose proof (digits_short Y (proj1 short_Y) L). apply validate_reuse; [|exact R]. rewrite Ey. split; [lia|reflexivity].
    + destruct (Z.eqb_spec (digits_value Y) 0) as [Q|Q].
      * unfold validate_date. mk. now replace (tm_year tm <=? 0) with true by lia.
      * apply validate_reuse; [|exact R]. split; lia.
Qed.

Lemma numeric_tokens e : parse_date_time (text ++ era_text e) = Ok ((Some KDate, text) :: mark_tokens e).
Proof.
  pose proof text_three as T.
  assert (3 <= length text <= 29)%nat as Lt.
  { destruct PA as [_ ?], PB as [_ ?], PC as [_ ?]. unfold text. rewrite app_length. cbn [length]. rewrite app_length. cbn [length]. lia. }
  rewrite parse_date_time_cons by (destruct text; [cbn in Lt; lia|discriminate]).
  destruct (length (text ++ era_text e)) as [|[|[|k]]] eqn:El; rewrite app_length in El; try lia.
  assert (sep = 45 \/ sep = 46 \/ sep = 47) as Sp by (unfold separator in Sep; tauto).
  rewrite (tokenize_digit _ _ _ (text ++ era_text e) (Some KDate, text) (era_text e)).
  - cbn [snd]. rewrite tokenize_mark by (unfold blen; lia). reflexivity.
  - pose proof (sd_digits A PA) as Da. pose proof (sd_nonempty A PA) as Na. unfold text. destruct A as [|c a]; [easy|].
    cbn in Da. now apply andb_prop in Da as [Da _].
  - eapply digit_begin_date; [exact T|tauto|]. destruct e; [exact I| |]; cbn; now apply date_char_space.
  - lia.
  - cbn [snd]. unfold blen. lia.
Qed.

Lemma numeric_finish md e : decode_date_time md order ((Some KDate, text) :: mark_tokens e) =
  match meant_year e Y with
  | Some y =>
      if validb y (digits_value M) (digits_value D)
      then Ok (set3 y (digits_value M) (digits_value D) tm_new, KDate, 0) else Err EOverflow
  | None => Err EOverflow
  end.
Proof.
  unfold decode_date_time. cbn [date_time_fields]. rewrite numeric_field. cbn [bind]. rewrite mark_fields by reflexivity.
  cbn [bind]. rewrite validate_full by (destruct e; reflexivity).
  assert (c_julian (mark_ctx e num_ctx) = false /\ c_2d (mark_ctx e num_ctx) = (length Y <=? 2)%nat
    /\ c_bc (mark_ctx e num_ctx) = is_bc e /\ c_tm (mark_ctx e num_ctx) = c_tm num_ctx
    /\ c_mer (mark_ctx e num_ctx) = HR24 /\ c_dtype (mark_ctx e num_ctx) = KDate /\ c_fsec (mark_ctx e num_ctx) = 0)
    as (-> & -> & -> & -> & -> & -> & ->) by (destruct e; repeat split).
  rewrite validate_numeric by reflexivity. destruct (meant_year e Y) as [y|]; [|reflexivity].
  change (tm_mon (c_tm num_ctx)) with (digits_value M). change (tm_mday (c_tm num_ctx)) with (digits_value D).
  destruct (validb _ _ _); [|reflexivity]. cbn [bind]. unfold apply_mer.
  change (HR24 =? HR24) with true. change (HR24 =? AM) with false. change (HR24 =? PM) with false.
  cbn [negb andb bind]. assert (Z.land (c_fmask (mark_ctx e num_ctx)) DTK_DATE_M =? DTK_DATE_M = true) as -> by (destruct e; reflexivity).
  reflexivity.
Qed.

Lemma finish_date md y m d : valid_ymd (y, m, d) ->
  (if negb (is_valid_julian y m) then Err EInvalid
   else
     let* j := date2julian md y m d in
     let* date := sub32 md j POSTGRES_EPOCH_JDATE in
     if negb (is_valid_date date) then Err EInvalid else Ok date)
  = if (0 <=? J (y, m, d)) && (J (y, m, d) <=? 2147483493) then Ok (J (y, m, d) - 2451545)
    else Err EInvalid.
Proof.
  intros V. pose proof (ymd_to_date md y m d V) as K.
  pose proof (month_len_bounds y m) as ML. destruct (is_valid_julian y m) eqn:E; cbn [negb] in *.
  - pose proof (is_valid_julian_bounds _ _ E) as Bj. destruct V as [Hm Hd].
    rewrite date2julian_ok in * by lia. cbn [bind] in *. unfold sub32, ar32 in *.
    destruct (in32b _); [|destruct md]; cbn [bind] in *; destruct (_ && _); try discriminate;
      destruct (negb (is_valid_date _)); try discriminate; auto.
  - destruct (_ && _); [discriminate|reflexivity].
Qed.

Lemma numeric_date md e : date_try_from_str md (text ++ era_text e) order =
  match meant_year e Y with
  | Some y =>
      if validb y (digits_value M) (digits_value D)
      then let j := J (y, digits_value M, digits_value D) in
           if (0 <=? j) && (j <=? 2147483493) then Ok (j - 2451545) else Err EInvalid
      else Err EOverflow
  | None => Err EOverflow
  end.
Proof.
  unfold date_try_from_str. rewrite numeric_tokens. cbn [bind]. rewrite numeric_finish.
  destruct (meant_year e Y) as [y|]; [|reflexivity]. destruct (validb y _ _) eqn:V; [|reflexivity].
  cbn [bind]. apply validb_spec in V. exact (finish_date md y _ _ V).
Qed.
End Date.
