(** Time zones are never accepted: C63. *)
From Verif Require Import Model.Parse Spec.Text Spec.DateText Spec.Lexing Spec.DateWords Spec.Zone Proofs.TokenP Proofs.OneWordP Proofs.ZoneP.
Import List ListNotations.
Open Scope Z_scope.

(** Dates, timestamps and times of day here have no zone. A text with an offset from UTC, wherever it
    stands, is never accepted with the offset ignored. *)
Theorem C63_offset : forall md order p a b n, field_at a b -> offset_text b ->
  date_try_from_str md (a ++ b) order <> Ok n
  /\ timestamp_try_from_str md (a ++ b) p order <> Ok n
  /\ time_try_from_str md (a ++ b) p order <> Ok n.
Proof. intros md order p a b n F O. exact (offset_never a b F O md order p n). Qed.
Print Assumptions C63_offset.

(** After white space this holds whatever comes before. *)
Theorem C63_offset_after_white : forall md order p a w b n, white w -> offset_text b ->
  date_try_from_str md (a ++ w :: b) order <> Ok n
  /\ timestamp_try_from_str md (a ++ w :: b) p order <> Ok n
  /\ time_try_from_str md (a ++ w :: b) p order <> Ok n.
Proof. intros md order p a w b n W O. exact (offset_white_never a w b W O md order p n). Qed.
Print Assumptions C63_offset_after_white.

(** No word outside [known_words] is ever accepted: zone names and abbreviations, "now", "today" and
    the like, and misspelt words. *)
Theorem C63_unknown_word : forall md order p a u r n, field_at a (u ++ r) -> unknown_word u ->
  match r with c :: _ => ~ letter c | [] => True end ->
  date_try_from_str md (a ++ u ++ r) order <> Ok n
  /\ timestamp_try_from_str md (a ++ u ++ r) p order <> Ok n
  /\ time_try_from_str md (a ++ u ++ r) p order <> Ok n.
Proof. intros md order p a u r n F U R. exact (unknown_never a u r F U R md order p n). Qed.
Print Assumptions C63_unknown_word.

Lemma unknown_check u : u <> [] -> forallb is_alpha u = true -> existsb (beq (lowers u)) known_words = false -> unknown_word u.
Proof.
  intros N L K. split; [exact N|]. split; [now apply FieldsP.forall_letter|]. intros k I C.
  enough (existsb (beq (lowers u)) known_words = true) by congruence. apply existsb_exists. exists k. split; [exact I|].
  apply beq_eq. now apply case_lowers.
Qed.
Ltac digs := match goal with |- Forall digit ?l => let l' := eval vm_compute in l in change (Forall digit l') end;
  repeat (apply Forall_cons; [unfold digit; lia|]); apply Forall_nil.
Lemma no_sign_after a c : c <> 43 -> c <> 45 -> ~ white c -> ~ ends_with_sign (a ++ [c]).
Proof.
  intros N1 N2 W (x & s & w & E & S & F). destruct w as [|z w] using rev_ind.
  - apply app_inj_tail in E as [_ ->]. lia.
  - rewrite app_comm_cons, app_assoc in E. apply app_inj_tail in E as [_ ->]. apply Forall_app in F as [_ F]. now inversion F.
Qed.
Example C63_case :
  field_at (bs "1999-01-08T10:20:30.5") (bs "+08") /\ offset_text (bs "+08") /\ offset_text (bs "- 5:30")
  /\ field_at (bs "1999-01-08 10:20 ") (bs "America/New_York") /\ unknown_word (bs "America")
  /\ unknown_word (bs "Z") /\ unknown_word (bs "utc") /\ unknown_word (bs "NOW") /\ unknown_word (bs "feb")
  /\ date_try_from_str Debug (bs "1999-01-08T10:20:30.5+08") YMD = Err EInvalid
  /\ timestamp_try_from_str Debug (bs "1999-01-08T10:20:30.5") (-1) YMD = Ok (-30893969500000)
  /\ time_try_from_str Debug (bs "10:20 America/New_York") (-1) YMD = Err EInvalid
  /\ time_try_from_str Debug (bs "10:20Z") (-1) YMD = Err EInvalid.
Proof.
  split.
  { change (bs "1999-01-08T10:20:30.5") with ((([] ++ bs "1999-01-08" ++ [84]) ++ bs "10:20:30.5") : list Z). apply FA_clock.
    - apply (FA_date [] (bs "1999-01-08") 84 49 (bs "0:20:30.5+08")); [constructor| |lia|unfold digit; lia].
      exists (bs "1999"), (bs "01"), (bs "08"), 45. repeat split; try discriminate; try digs. unfold separator. lia.
    - exists (bs "10"), (bs "20:30.5"). repeat split; try discriminate; [digs|].
      change (Forall (fun c => digit c \/ c = 58 \/ c = 46) [50; 48; 58; 51; 48; 46; 53]). repeat constructor; unfold digit; lia.
    - unfold digit. cbn. lia. }
  split. { exists 43, [], 48, [56]. repeat split; [lia|constructor|unfold digit; lia..]. }
  split. { exists 45, [32], 53, (bs ":30"). repeat split; [lia|repeat constructor; unfold white; lia|unfold digit; lia..]. }
  split. { change (bs "1999-01-08 10:20 ") with (bs "1999-01-08 10:20" ++ [32]). apply FA_white; [unfold white; lia|].
           change (bs "1999-01-08 10:20") with (bs "1999-01-08 10:2" ++ [48]). apply no_sign_after; unfold white; lia. }
  do 5 (split; [apply unknown_check; [discriminate|reflexivity|vm_compute; reflexivity]|]).
  vm_compute. auto.
Qed.
