(** Texts made of words: how many fields there are, and the limits on them. *)
From Verif Require Import Model.Parse Spec.Text Spec.Lexing Proofs.Arith Proofs.DigitsP Proofs.ParseP Proofs.TokenP Proofs.LexP.
From Coq Require Import Lia.
Open Scope Z_scope.

Lemma white_iff c : white c <-> is_space c = true.
Proof. unfold white, is_space. lia. Qed.
Lemma letter_iff c : letter c <-> is_alpha c = true.
Proof. unfold letter, is_alpha, is_upper, is_lower. lia. Qed.
Lemma forall_white b : Forall white b <-> forallb is_space b = true.
Proof. rewrite forallb_forall, Forall_forall. split; intros H c I; apply white_iff; auto. Qed.
Lemma forall_letter b : Forall letter b <-> forallb is_alpha b = true.
Proof. rewrite forallb_forall, Forall_forall. split; intros H c I; apply letter_iff; auto. Qed.
Lemma forall_digit b : Forall digit b <-> forallb is_digit b = true.
Proof. rewrite forallb_forall, Forall_forall. split; intros H c I; apply is_digit_iff; auto. Qed.

Lemma significant_iff s n : significant s n <-> sig s = n.
Proof.
  split.
  - induction 1 as [|c s n W S IH|c s n W S IH]; [easy| |]; rewrite sig_cons.
    + apply white_iff in W. rewrite W. exact IH.
    + destruct (is_space c) eqn:E; [now apply white_iff in E|]. rewrite IH. reflexivity.
  - revert n. induction s as [|c s IH]; intros n; [intros <-; constructor|]. rewrite sig_cons.
    destruct (is_space c) eqn:E; intros <-.
    + apply sg_white; [now apply white_iff|]. now apply IH.
    + apply sg_solid; [intros W; apply white_iff in W; congruence|]. now apply IH.
Qed.

Lemma to_lower_lower s : List.map to_lower s = lowers s.
Proof. reflexivity. Qed.

Lemma eat_ws_app b s : forallb is_space b = true -> eat_whitespaces (b ++ s) = eat_whitespaces s.
Proof.
  intros W. induction b as [|c b IH]; [easy|]. cbn [forallb app] in *. apply andb_prop in W as [C W].
  unfold eat_whitespaces in *. cbn [eat]. rewrite C. specialize (IH W). destruct (eat is_space (b ++ s)). exact IH.
Qed.

(** The field a word becomes *)
Definition word_field (w : bytes) : token :=
  match w with
  | c :: _ => if is_digit c then (Some KNumber, w) else (Some KString, List.map to_lower w)
  | [] => (Some KString, w)
  end.

Lemma word_field_len w : length (snd (word_field w)) = length w.
Proof. destruct w as [|c w]; [easy|]. cbn. destruct (is_digit c); cbn; [easy|]. now rewrite map_length. Qed.

Definition gap (s : bytes) : Prop := s = [] \/ exists c r, s = c :: r /\ is_space c = true.
Lemma gap_stops f s : (forall c, f c = true -> is_space c = false) -> gap s -> stops f s.
Proof.
  intros F [->|(c & r & -> & E)]; [exact I|]. cbn. destruct (f c) eqn:Q; [|easy]. apply F in Q. congruence.
Qed.

(** One word read off the front *)
Lemma tokenize_plain fuel n room b w s : forallb is_space b = true -> plain_word w -> gap s ->
  n < 25 -> blen w <= room ->
  tokenize (S fuel) n room (b ++ w ++ s) =
  let* ts := tokenize fuel (n + 1) (room - blen w) s in Ok (word_field w :: ts).
Proof.
  intros B [N P] G Ln Lr. cbn [tokenize]. rewrite (eat_ws_app b _ B).
  assert (MAX_DATE_FIELDS <=? n = false) as Mn by (unfold MAX_DATE_FIELDS; lia).
  destruct w as [|c w]; [easy|]. destruct P as [P|P].
  - apply forall_letter in P. pose proof P as P'. cbn [forallb] in P'. apply andb_prop in P' as [Pc _].
    cbn [app]. rewrite eat_ws_cons by now apply alpha_solid.
    rewrite Mn, (alpha_not_digit c Pc). destruct (Z.eqb_spec c 46) as [Q|_]; [subst; discriminate|]. rewrite Pc.
    unfold alpha_begin, eat_alphabetics. change (c :: w ++ s) with ((c :: w) ++ s).
    rewrite eat_app by (auto; now apply gap_stops; [apply alpha_solid|]).
    assert (match s with
      | c0 :: _ =>
          if (c0 =? 45) || (c0 =? 47) || (c0 =? 46) then Ok true
          else if (c0 =? 43) || is_digit c0 then
            let* t := search_date_token (lowers (c :: w)) in
            Ok (match t with None => true | Some _ => false end)
          else Ok false
      | [] => Ok false
      end = Ok false) as ->.
    { destruct G as [->|(d & r & -> & E)]; [easy|].
      assert ((d =? 45) || (d =? 47) || (d =? 46) = false) as -> by (unfold is_space in E; lia).
      assert ((d =? 43) || is_digit d = false) as -> by (unfold is_space, is_digit in *; lia). reflexivity. }
    cbn [bind snd]. unfold use_buf. unfold blen in *. rewrite lower_len.
    destruct (Z.leb_spec (Z.of_nat (length (c :: w))) room); [|lia]. cbn [bind].
    unfold word_field. rewrite (alpha_not_digit c Pc). reflexivity.
  - apply forall_digit in P. pose proof P as P'. cbn [forallb] in P'. apply andb_prop in P' as [Pc _].
    cbn [app]. rewrite eat_ws_cons by now apply digit_solid. rewrite Mn, Pc.
    assert (word_field (c :: w) = (Some KNumber, c :: w)) as -> by (cbn; now rewrite Pc).
    assert (digit_begin (c :: w ++ s) = ((Some KNumber, c :: w), s)) as ->.
    { unfold digit_begin, eat_digits. change (c :: w ++ s) with ((c :: w) ++ s).
      rewrite eat_app by (auto; now apply gap_stops; [apply digit_solid|]).
      destruct G as [->|(d & r & -> & E)]; [easy|].
      destruct (Z.eqb_spec d 58); [subst; discriminate|].
      assert ((d =? 45) || (d =? 47) || (d =? 46) = false) as -> by (unfold is_space in E; lia). reflexivity. }
    cbn [snd]. unfold use_buf. destruct (Z.leb_spec (blen (c :: w)) room); [|lia]. reflexivity.
Qed.

(** A word that does not fit into the work buffer *)
Lemma tokenize_overrun fuel n room b w s : forallb is_space b = true -> plain_word w -> gap s ->
  n < 25 -> room < blen w ->
  tokenize (S fuel) n room (b ++ w ++ s) = Fault FIndex.
Proof.
  intros B [N P] G Ln Lr. cbn [tokenize]. rewrite (eat_ws_app b _ B).
  assert (MAX_DATE_FIELDS <=? n = false) as Mn by (unfold MAX_DATE_FIELDS; lia).
  destruct w as [|c w]; [easy|]. destruct P as [P|P].
  - apply forall_letter in P. pose proof P as P'. cbn [forallb] in P'. apply andb_prop in P' as [Pc _].
    cbn [app]. rewrite eat_ws_cons by now apply alpha_solid.
    rewrite Mn, (alpha_not_digit c Pc). destruct (Z.eqb_spec c 46) as [Q|_]; [subst; discriminate|]. rewrite Pc.
    unfold alpha_begin, eat_alphabetics. change (c :: w ++ s) with ((c :: w) ++ s).
    rewrite eat_app by (auto; now apply gap_stops; [apply alpha_solid|]).
    assert (match s with
      | c0 :: _ =>
          if (c0 =? 45) || (c0 =? 47) || (c0 =? 46) then Ok true
          else if (c0 =? 43) || is_digit c0 then
            let* t := search_date_token (lowers (c :: w)) in
            Ok (match t with None => true | Some _ => false end)
          else Ok false
      | [] => Ok false
      end = Ok false) as ->.
    { destruct G as [->|(d & r & -> & E)]; [easy|].
      assert ((d =? 45) || (d =? 47) || (d =? 46) = false) as -> by (unfold is_space in E; lia).
      assert ((d =? 43) || is_digit d = false) as -> by (unfold is_space, is_digit in *; lia). reflexivity. }
    cbn [bind snd]. unfold use_buf. unfold blen in *. rewrite lower_len.
    destruct (Z.leb_spec (Z.of_nat (length (c :: w))) room); [lia|]. reflexivity.
  - apply forall_digit in P. pose proof P as P'. cbn [forallb] in P'. apply andb_prop in P' as [Pc _].
    cbn [app]. rewrite eat_ws_cons by now apply digit_solid. rewrite Mn, Pc.
    assert (digit_begin (c :: w ++ s) = ((Some KNumber, c :: w), s)) as ->.
    { unfold digit_begin, eat_digits. change (c :: w ++ s) with ((c :: w) ++ s).
      rewrite eat_app by (auto; now apply gap_stops; [apply digit_solid|]).
      destruct G as [->|(d & r & -> & E)]; [easy|].
      destruct (Z.eqb_spec d 58); [subst; discriminate|].
      assert ((d =? 45) || (d =? 47) || (d =? 46) = false) as -> by (unfold is_space in E; lia). reflexivity. }
    cbn [snd]. unfold use_buf. destruct (Z.leb_spec (blen (c :: w)) room); [lia|]. reflexivity.
Qed.

Lemma tokenize_white fuel n room b : forallb is_space b = true -> tokenize (S fuel) n room b = Ok [].
Proof. intros B. cbn [tokenize]. rewrite <- (app_nil_r b), eat_ws_app by easy. reflexivity. Qed.

Lemma tokenize_full fuel room b w s : forallb is_space b = true -> plain_word w ->
  tokenize (S fuel) 25 room (b ++ w ++ s) = Err EInvalid.
Proof.
  intros B [N P]. cbn [tokenize]. rewrite (eat_ws_app b _ B). destruct w as [|c w]; [easy|]. cbn [app].
  rewrite eat_ws_cons; [reflexivity|].
  destruct P as [P|P]; apply Forall_inv in P; [apply letter_iff in P; now apply alpha_solid|].
  apply is_digit_iff in P. now apply digit_solid.
Qed.

Lemma spaced_gap ws s : (ws = [] \/ exists c r, s = c :: r /\ white c) -> spaced ws s -> gap s.
Proof.
  intros [->|(c & r & -> & W)] S; [|right; exists c, r; split; [easy|now apply white_iff]].
  inversion S as [b B|]; subst. destruct s as [|c s]; [now left|right]. exists c, s. split; [easy|].
  apply Forall_inv in B. now apply white_iff.
Qed.

Lemma tokenize_spaced ws : forall fuel n room s, spaced ws s -> (length s < fuel)%nat -> n <= 25 ->
  (n + Z.of_nat (length ws) <= 25 -> Z.of_nat (total_length ws) <= room ->
   tokenize fuel n room s = Ok (List.map word_field ws))
  /\ (25 < n + Z.of_nat (length ws) ->
      Z.of_nat (total_length (firstn (Z.to_nat (25 - n)) ws)) <= room ->
      tokenize fuel n room s = Err EInvalid).
Proof.
  induction ws as [|w ws IH]; intros fuel n room s S L N; (destruct fuel as [|fuel]; [lia|]).
  - inversion S as [b B|]; subst. cbn [length]. split; [|lia]. intros _ _.
    apply tokenize_white. now apply forall_white.
  - inversion S as [|b w' ws' s' B P S' G]; subst. pose proof (spaced_gap ws s' G S') as G'.
    apply forall_white in B. rewrite !app_length in L.
    assert (w <> []) as Nw by apply P. destruct w as [|c w]; [easy|]. cbn [length] in L |- *.
    split.
    + intros Ln Lr. change (total_length ((c :: w) :: ws)) with (length (c :: w) + total_length ws)%nat in Lr.
      rewrite tokenize_plain by (auto; unfold blen; lia).
      destruct (IH fuel (n + 1) (room - blen (c :: w)) s' S') as [I _]; [lia|lia|].
      rewrite I; [reflexivity|lia|unfold blen; lia].
    + intros Ln Lr. destruct (Z.eq_dec n 25) as [->|Nn]; [now apply tokenize_full|].
      replace (Z.to_nat (25 - n)) with (Datatypes.S (Z.to_nat (25 - (n + 1)))) in Lr by lia.
      cbn [firstn] in Lr. set (k := firstn _ ws) in Lr.
      change (total_length ((c :: w) :: k)) with (length (c :: w) + total_length k)%nat in Lr.
      rewrite tokenize_plain by (auto; unfold blen; lia).
      destruct (IH fuel (n + 1) (room - blen (c :: w)) s' S') as [_ I]; [lia|lia|].
      rewrite I; [reflexivity|lia|unfold blen; subst k; lia].
Qed.

Lemma parse_spaced ws s : s <> [] -> spaced ws s -> (length ws <= 25)%nat -> (total_length ws <= 128)%nat ->
  parse_date_time s = Ok (List.map word_field ws).
Proof.
  intros N S L T. unfold parse_date_time. destruct s as [|c s]; [easy|].
  apply (tokenize_spaced ws); [easy|lia|lia|lia|unfold MAX_DATE_LEN; lia].
Qed.

Lemma parse_too_many ws s : spaced ws s -> (25 < length ws)%nat -> (total_length (firstn 25 ws) <= 128)%nat ->
  parse_date_time s = Err EInvalid.
Proof.
  intros S L T. unfold parse_date_time. destruct s as [|c s].
  - inversion S as [|b w ws' s' B [Nw _] S' G Q Q']; subst; cbn in L; [lia|].
    destruct b, w; try easy. now rewrite Q' in Nw.
  - apply (tokenize_spaced ws); [easy|lia|lia|lia|unfold MAX_DATE_LEN]. change (Z.to_nat (25 - 0)) with 25%nat. lia.
Qed.

(** Whatever is accepted fits the buffers. *)
Lemma tokenize_room fuel : forall n room s ts, 0 <= room -> tokenize fuel n room s = Ok ts ->
  Z.of_nat (total_len ts) <= room.
Proof.
  induction fuel as [|fuel IH]; intros n room s ts R; cbn [tokenize]; [discriminate|].
  destruct (eat_whitespaces s) as [|c r]; [intros E; injection E as <-; cbn; lia|].
  destruct (_ <=? n); [discriminate|].
  assert (forall (t : token) rest, (let* room' := use_buf room (snd t) in
      let* ts := tokenize fuel (n + 1) room' rest in Ok (t :: ts)) = Ok ts -> Z.of_nat (total_len ts) <= room) as Add.
  { intros t rest. unfold use_buf. destruct (Z.leb_spec (blen (snd t)) room); [|discriminate]. cbn [bind].
    destruct (tokenize fuel (n + 1) (room - blen (snd t)) rest) as [ts'| |] eqn:E; try discriminate. cbn [bind].
    intros Q. injection Q as <-. apply IH in E; [|lia].
    change (total_len (t :: ts')) with (length (snd t) + total_len ts')%nat. unfold blen in *. lia. }
  destruct (is_digit c); [destruct (digit_begin _); apply Add|].
  destruct (c =? 46); [destruct (dot_begin _); apply Add|].
  destruct (is_alpha c); [destruct (alpha_begin _) as [[t rest]| |]; try discriminate; apply Add|].
  destruct (_ || _).
  { destruct (use_buf room [c]); try discriminate. cbn [bind].
    destruct (sign_begin c r) as [[t rest]| |]; try discriminate; apply Add. }
  destruct (is_punct c); [|discriminate]. now apply IH.
Qed.
Lemma parse_room s ts : parse_date_time s = Ok ts -> (total_len ts <= 128)%nat.
Proof.
  unfold parse_date_time. destruct s; [discriminate|]. intros E. apply tokenize_room in E; unfold MAX_DATE_LEN in *; lia.
Qed.

(** ** How a text ends *)
Lemma sign_end s : ~ ends_with_sign s ->
  forall a c w, s = a ++ c :: w -> forallb is_space w = true -> c <> 43 /\ c <> 45.
Proof.
  intros N a c w E W. split; intros ->; apply N; exists a; eexists; exists w; split; [exact E| |exact E|];
    (split; [|now apply forall_white]); lia.
Qed.
Lemma blank_iff c : white c \/ punctuation c <-> blank c = true.
Proof.
  unfold blank. rewrite orb_true_iff, white_iff. unfold punctuation, is_punct. split; (intros [H|H]; [now left|right; lia]).
Qed.
Lemma t_end s : ~ ends_with_t s -> forall a c w, s = a ++ c :: w -> forallb blank w = true ->
  (a = [] \/ is_alpha (last a 0) = false) -> c <> 84 /\ c <> 116.
Proof.
  intros N a c w E W A.
  assert (Forall (fun z => white z \/ punctuation z) w) as W'.
  { apply Forall_forall. intros z I. apply blank_iff. rewrite forallb_forall in W. auto. }
  assert (a = [] \/ ~ letter (last a 0)) as A' by (destruct A; [now left|right; rewrite letter_iff; congruence]).
  split; intros ->; apply N; exists a; eexists; exists w; (split; [exact E|]); (split; [|now split]); auto.
Qed.

(** More letters and digits than the work buffer holds *)
Lemma tokenize_spaced_long ws : forall fuel n room s, spaced ws s -> (length s < fuel)%nat -> 0 <= n <= 25 ->
  room < Z.of_nat (total_length (firstn (Z.to_nat (25 - n)) ws)) -> 0 <= room -> tokenize fuel n room s = Fault FIndex.
Proof.
  induction ws as [|w ws IH]; intros fuel n room s S L B R R0.
  { rewrite firstn_nil in R. cbn in R. lia. }
  destruct (Z.eq_dec n 25) as [->|Nn]; [change (Z.to_nat (25 - 25)) with 0%nat in R; cbn in R; lia|].
  replace (Z.to_nat (25 - n)) with (Datatypes.S (Z.to_nat (25 - (n + 1)))) in R by lia. cbn [firstn] in R.
  unfold total_length in R. cbn [List.map list_sum fold_right] in R.
  inversion S as [|b w' ws' s' Bl P S' G]; subst.
  pose proof (spaced_gap _ _ G S') as Gp. apply forall_white in Bl.
  destruct fuel as [|fuel]; [lia|]. destruct (Z_lt_le_dec room (blen w)) as [O|O].
  - apply tokenize_overrun; auto; lia.
  - rewrite tokenize_plain by (auto; lia). rewrite (IH fuel (n + 1) (room - blen w) s'); auto; try lia.
    + rewrite !app_length in L. destruct P as [P _]. destruct w; [easy|]. cbn [length] in L. lia.
    + unfold total_length, blen in *. fold (list_sum (List.map (@length Z) (firstn (Z.to_nat (25 - (n + 1))) ws))) in R. lia.
Qed.
Lemma parse_overrun ws s : spaced ws s -> (128 < total_length (firstn 25 ws))%nat -> parse_date_time s = Fault FIndex.
Proof.
  intros S T. unfold parse_date_time. destruct s as [|c s].
  - inversion S as [|b w ws' s' B [Nw _] S' G Q Q']; subst; [cbn in T; lia|].
    destruct b, w; try easy. now rewrite Q' in Nw.
  - apply (tokenize_spaced_long ws); [easy|lia|lia| |]; unfold MAX_DATE_LEN; [|lia].
    change (Z.to_nat (25 - 0)) with 25%nat. lia.
Qed.
