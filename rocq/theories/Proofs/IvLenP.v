(** Formatting intervals never fails on in-range fields and its text stays short. *)
From Verif Require Import Model.Parse Spec.Calendar Spec.Ranges Spec.Clock Spec.Text Spec.IntervalS
  Proofs.Arith Proofs.TsP Proofs.IntervalP Proofs.IvTruncP Proofs.DigitsP Proofs.FormatP Proofs.ParseP
  Proofs.RoundTripP Proofs.IvParseP Proofs.IvReadP Proofs.IvPostgresP.
Open Scope Z_scope.

Definition short (n : nat) (r : res bytes) : Prop := exists t, r = Ok t /\ (length t <= n)%nat.
Definition short2 {A} (n : nat) (r : res (bytes * A)) : Prop := exists t a, r = Ok (t, a) /\ (length t <= n)%nat.

Lemma len_if (b : bool) (x y : bytes) n : (length x <= n)%nat -> (length y <= n)%nat -> (length (if b then x else y) <= n)%nat.
Proof. now destruct b. Qed.

Lemma short_ltostr v : in_i32 v -> short 11 (pg_ltostr v).
Proof. intros H. destruct (pg_ltostr_ok v H) as (t & E & _ & L). exists t. auto. Qed.
Lemma short_pad md v : 0 <= v <= i32_max -> short 10 (pg_ltostr_zeropad md v 2).
Proof. intros H. destruct (zeropad_ok md 2 v ltac:(lia) H) as (t & E & _ & L). exists t. auto. Qed.
Lemma short_seconds md s us fill : Z.abs s < 60 -> Z.abs us < 1000000 -> short 9 (append_seconds md s us MAX_PRECISION fill).
Proof.
  intros Hs Hu. destruct (append_seconds_ok md s us fill) as (t & E & ds & P & H); [lia..|]. exists t. split; [exact E|].
  assert (length ds <= 2)%nat as L.
  { apply (padded_len _ _ _ _ P); [|destruct fill; lia]. change (10 ^ Z.of_nat 2) with 100. lia. }
  destruct H as [[_ ->]|[_ (fr & F & ->)]]; [lia|]. apply fraction_facts in F as (_ & F & _). unfold blen in F.
  rewrite app_length. cbn [length]. lia.
Qed.

Record bounded (tm : pgtime) (us : Z) : Prop := {
  b_year : Z.abs (tm_year tm) <= i32_max; b_mon : Z.abs (tm_mon tm) <= i32_max;
  b_day : Z.abs (tm_mday tm) <= i32_max; b_hour : Z.abs (tm_hour tm) <= i32_max;
  b_min : Z.abs (tm_min tm) < 60; b_sec : Z.abs (tm_sec tm) < 60; b_us : Z.abs us < 1000000 }.

Lemma abs32_ok md v : Z.abs v <= i32_max -> abs32 md v = Ok (Z.abs v).
Proof. intros H. unfold abs32. apply ar32_ok. rng. unfold i32_max in *. lia. Qed.
Lemma neg32_ok md v : Z.abs v <= i32_max -> neg32 md v = Ok (- v).
Proof. intros H. unfold neg32. apply ar32_ok. rng. unfold i32_max in *. lia. Qed.
Lemma in_abs v : Z.abs v <= i32_max -> in_i32 v.
Proof. rng. unfold i32_max. lia. Qed.

Ltac lens := repeat (first [rewrite app_length | progress (cbn [length])]).
Ltac ifs := repeat match goal with |- context [length (if ?x then _ else _)] => destruct x end; lens; cbn; lia.
Ltac use L := let t := fresh "t" in let E := fresh "E" in let H := fresh "L" in
  destruct L as (t & E & H); rewrite E; cbn [bind]; clear E.
Ltac use2 L := let t := fresh "t" in let a := fresh "zb" in let E := fresh "E" in let H := fresh "L" in
  destruct L as (t & a & E & H); rewrite E; cbn [bind]; clear E; destruct a as [? ?].

(** ** Parts *)
Lemma short_iso v u : Z.abs v <= i32_max -> short 12 (add_iso8601_int_part v u).
Proof.
  intros H. unfold add_iso8601_int_part. destruct (v =? 0); [exists []; cbn; split; [easy|lia]|].
  use (short_ltostr v (in_abs _ H)). eexists. split; [reflexivity|]. rewrite app_length. cbn [length]. lia.
Qed.
Lemma short_pg v w zb : Z.abs v <= i32_max -> (length w <= 5)%nat -> short2 20 (add_postgres_int_part v w zb).
Proof.
  intros H Lw. unfold add_postgres_int_part. destruct zb as [z b].
  destruct (v =? 0); [exists [], (z, b); cbn; split; [easy|lia]|].
  use (short_ltostr v (in_abs _ H)). eexists _, _. split; [reflexivity|]. lens. ifs.
Qed.
Lemma short_vb md v w zb : Z.abs v <= i32_max -> (length w <= 5)%nat -> short2 19 (add_verbose_int_part md v w zb).
Proof.
  intros H Lw. unfold add_verbose_int_part. destruct zb as [z b].
  destruct (v =? 0); [exists [], (z, b); cbn; split; [easy|lia]|].
  rewrite abs32_ok, neg32_ok by easy.
  assert (exists x, (if z then Ok (Z.abs v) else if b then Ok (- v) else Ok v) = Ok (A := Z) x /\ Z.abs x <= i32_max) as (x & -> & Hx).
  { destruct z; [|destruct b]; eexists; (split; [reflexivity|lia]). }
  cbn [bind]. use (short_ltostr x (in_abs _ Hx)). eexists _, _. split; [reflexivity|].
  lens. ifs.
Qed.
Lemma short_hms md h mi s us : Z.abs h <= i32_max -> 0 <= mi < 60 -> Z.abs s < 60 -> Z.abs us < 1000000 ->
  short 32 (iv_hms md h mi s us).
Proof.
  intros Hh Hm Hs Hu. unfold iv_hms. use (short_ltostr h (in_abs _ Hh)).
  use (short_pad md mi ltac:(unfold i32_max; lia)). use (short_seconds md s us true Hs Hu).
  eexists. split; [reflexivity|]. lens. lia.
Qed.

(** ** Styles *)
Lemma len_postgres md tm us : bounded tm us -> short 127 (format_postgres md tm us).
Proof.
  intros [By Bmo Bd Bh Bmi Bs Bu]. unfold format_postgres. cbv zeta.
  use2 (short_pg (tm_year tm) (bs "year") (true, false) By ltac:(cbn; lia)).
  use2 (short_pg (tm_mon tm) (bs "mon") (b, b0) Bmo ltac:(cbn; lia)).
  use2 (short_pg (tm_mday tm) (bs "day") (b1, b2) Bd ltac:(cbn; lia)).
  destruct (_ || _ || _ || _ || _).
  - rewrite !abs32_ok by (easy || (unfold i32_max; lia)). cbn [bind].
    use (short_pad md (Z.abs (tm_hour tm)) ltac:(lia)).
    use (short_pad md (Z.abs (tm_min tm)) ltac:(unfold i32_max; lia)).
    use (short_seconds md (tm_sec tm) us true Bs Bu).
    eexists. split; [reflexivity|]. lens. ifs.
  - cbn [bind]. eexists. split; [reflexivity|]. rewrite !app_length. cbn [length]. lia.
Qed.

Lemma len_iso md tm us : bounded tm us -> short 127 (format_iso8601 md tm us).
Proof.
  intros [By Bmo Bd Bh Bmi Bs Bu]. unfold format_iso8601. cbv zeta.
  destruct (negb _); [eexists; split; [reflexivity|cbn; lia]|].
  use (short_iso (tm_year tm) 89 By). use (short_iso (tm_mon tm) 77 Bmo). use (short_iso (tm_mday tm) 68 Bd).
  use (short_iso (tm_hour tm) 72 Bh). use (short_iso (tm_min tm) 77 ltac:(unfold i32_max; lia)).
  match goal with |- short _ (bind ?q _) => assert (short 11 q) as S end.
  { destruct (nz (tm_sec tm) || nz us); [|exists []; cbn; split; [easy|lia]].
    use (short_seconds md (tm_sec tm) us false Bs Bu). eexists. split; [reflexivity|]. lens. ifs. }
  use S. eexists. split; [reflexivity|]. lens. ifs.
Qed.

Lemma len_verbose md tm us : bounded tm us -> short 127 (format_verbose md tm us).
Proof.
  intros [By Bmo Bd Bh Bmi Bs Bu]. unfold format_verbose. cbv zeta.
  use2 (short_vb md (tm_year tm) (bs "year") (true, false) By ltac:(cbn; lia)).
  use2 (short_vb md (tm_mon tm) (bs "mon") (b, b0) Bmo ltac:(cbn; lia)).
  use2 (short_vb md (tm_mday tm) (bs "day") (b1, b2) Bd ltac:(cbn; lia)).
  use2 (short_vb md (tm_hour tm) (bs "hour") (b3, b4) Bh ltac:(cbn; lia)).
  use2 (short_vb md (tm_min tm) (bs "min") (b5, b6) ltac:(unfold i32_max; lia) ltac:(cbn; lia)).
  match goal with |- short _ (bind ?q _) => assert (short2 16 q) as S end.
  { destruct (nz (tm_sec tm) || nz us); [|exists [], (b7, b8); split; [reflexivity|cbn; lia]].
    use (short_seconds md (tm_sec tm) us false Bs Bu). rewrite abs32_ok by (unfold i32_max; lia). cbn [bind].
    eexists _, _. split; [reflexivity|]. lens. ifs. }
  use2 S. eexists. split; [reflexivity|]. lens. ifs.
Qed.

Lemma len_sql md tm us : bounded tm us -> short 127 (format_sql md tm us).
Proof.
  intros [By Bmo Bd Bh Bmi Bs Bu]. unfold format_sql. cbv zeta.
  set (y := tm_year tm) in *. set (mo := tm_mon tm) in *. set (d := tm_mday tm) in *.
  set (h := tm_hour tm) in *. set (mi := tm_min tm) in *. set (s := tm_sec tm) in *. clearbody y mo d h mi s.
  set (neg := (y <? 0) || (mo <? 0) || (d <? 0) || (h <? 0) || (mi <? 0) || (s <? 0) || (us <? 0)).
  set (pos := (0 <? y) || (0 <? mo) || (0 <? d) || (0 <? h) || (0 <? mi) || (0 <? s) || (0 <? us)).
  set (std := negb (neg && pos || (nz y || nz mo) && (nz d || nz h || nz mi || nz s || nz us))).
  assert (exists fl, neg && std = fl) as (fl & Efl) by eauto. rewrite Efl.
  assert (forall v, Z.abs v <= i32_max -> (if fl then neg32 md v else Ok v) = Ok (sg fl v)) as N.
  { intros v V. destruct fl; [now apply neg32_ok|reflexivity]. }
  assert (forall v, Z.abs (sg fl v) = Z.abs v) as A by (intros v; destruct fl; cbn [sg]; lia).
  rewrite !N by (easy || unfold i32_max; lia). cbn [bind].
  assert ((if fl then neg64 md us else Ok us) = Ok (sg fl us)) as -> by (destruct fl; [unfold neg64; apply ar64_ok; clear - Bu; cbn [sg]; rng; lia|reflexivity]).
  cbn [bind].
  match goal with |- short _ (bind ?q _) => assert (short 80 q) as S end.
  { destruct (negb neg && negb pos) eqn:Z0; [exists [48]; cbn; split; [easy|lia]|].
    destruct std eqn:Sd; cbn [negb].
    - assert (0 <= sg fl mi) as Pm.
      { unfold std in Sd. destruct neg eqn:En.
        - cbn [andb] in Efl. subst fl. cbn [sg]. destruct pos eqn:Ep; [discriminate Sd|]. unfold pos in Ep. lia.
        - cbn [andb] in Efl. subst fl. cbn [sg]. unfold neg in En. lia. }
      destruct (nz y || nz mo).
      + use (short_ltostr (sg fl y) ltac:(apply in_abs; rewrite A; easy)).
        use (short_ltostr (sg fl mo) ltac:(apply in_abs; rewrite A; easy)). eexists. split; [reflexivity|]. lens. lia.
      + assert (short 32 (iv_hms md (sg fl h) (sg fl mi) (sg fl s) (sg fl us))) as Q.
        { apply short_hms; rewrite ?A; try easy. specialize (A mi). lia. }
        destruct (nz d).
        * use (short_ltostr (sg fl d) ltac:(apply in_abs; rewrite A; easy)). use Q. eexists. split; [reflexivity|]. lens. lia.
        * use Q. eexists. split; [reflexivity|]. lens. lia.
    - rewrite !abs32_ok by (rewrite A; easy || unfold i32_max; lia). cbn [bind]. rewrite !A.
      use (short_ltostr (Z.abs y) ltac:(apply in_abs; lia)). use (short_ltostr (Z.abs mo) ltac:(apply in_abs; lia)).
      use (short_ltostr (Z.abs d) ltac:(apply in_abs; lia)).
      assert (short 32 (iv_hms md (Z.abs h) (Z.abs mi) (sg fl s) (sg fl us))) as Q by (apply short_hms; rewrite ?A; lia).
      use Q. eexists. split; [reflexivity|]. lens. lia. }
  use S. eexists. split; [reflexivity|]. lens. ifs.
Qed.

Lemma format_len md tm us style : bounded tm us -> exists t, format_interval md tm us style = Ok t /\ (length t <= 127)%nat.
Proof.
  intros B. destruct style; cbn [format_interval]; [apply len_postgres|apply len_verbose|apply len_sql|apply len_iso]; exact B.
Qed.

(** Hours beyond i32 are reported; everything else, except the two i32::MIN fields, formats. *)
Theorem interval_format_total md a style : fields_ok a -> iv_day a <> -2147483648 ->
  Z.quot (iv_time a) 3600000000 <> -2147483648 ->
  interval_format md a style = Err EOverflow /\ ~ in_i32 (Z.quot (iv_time a) 3600000000)
  \/ exists t, interval_format md a style = Ok t /\ (length t <= 127)%nat.
Proof.
  intros F D H. unfold interval_format. rewrite iv_to_pgtime_ok by easy.
  destruct (in32b (Z.quot (iv_time a) 3600000000)) eqn:I.
  - right. cbn [bind fst snd]. assert (in_i32 (Z.quot (iv_time a) 3600000000)) as I' by (unfold in32b in I; rng; lia). clear I. rename I' into I.
    destruct (format_len md (iv_tm a) (iv_us a) style) as (t & E & L).
    + destruct F as (Fm & Fd & Ft). unfold iv_tm, iv_us. split; cbn.
      * clear - Fm. rng. unfold i32_max. lia.
      * clear - Fm. rng. unfold i32_max. lia.
      * clear - Fd D. rng. unfold i32_max. lia.
      * clear - I H. set (z := Z.quot _ _) in *. clearbody z. rng. unfold i32_max. lia.
      * clear. set (t := iv_time a). clearbody t. pose proof (Z.rem_bound_abs t 3600000000 ltac:(lia)).
        set (r := Z.rem t 3600000000) in *. clearbody r. clear t. lia.
      * clear. set (t := iv_time a). clearbody t. pose proof (Z.rem_bound_abs t 60000000 ltac:(lia)).
        set (r := Z.rem t 60000000) in *. clearbody r. clear t. lia.
      * pose proof (Z.rem_bound_abs (iv_time a) 1000000 ltac:(lia)). lia.
    + exists t. rewrite E. cbn [bind]. split; [apply fits_ok; lia|exact L].
  - left. split; [reflexivity|]. intros Q. apply in32b_true in Q. congruence.
Qed.
