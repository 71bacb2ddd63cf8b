(** Intervals written with units: C58. *)
From Verif Require Import Model.Parse Spec.Calendar Spec.Ranges Spec.Clock Spec.Text Spec.DateText Spec.TimeText Spec.IntervalS Spec.Keywords
  Spec.DateWords Spec.IntervalWords Proofs.IvWordsP.
Import List ListNotations.
Open Scope Z_scope.

(** Every text of numbers with units (fractions, signs, any letter case and any spelling of the
    units), an optional clock and an optional "ago" means the sum of its parts; months outside i32
    are refused. The type modifier is applied last. *)
Theorem C58_words : forall md st r p w,
  wordy_ok r w -> qualified r p -> (st = ISQLStandard -> lone_minus w = false) -> NoDup (wordy_takes w) ->
  interval_try_from_str md (wordy_text w) p st =
  if (i32_min <=? wordy_months w) && (wordy_months w <=? i32_max)
  then interval_adjust_by_typmod md (from_mdt (wordy_months w) (wordy_days w) (wordy_time w)) p else Err EOverflow.
Proof.
  intros md st r p w W [(prec & B & E)|E] S N.
  - apply (wordy_accepted md st r p prec w W B); auto.
  - apply (wordy_accepted md st r p 0 w W); auto. lia.
Qed.
Print Assumptions C58_words.

(** A text that gives the same part twice is refused. *)
Theorem C58_twice : forall md st r p w,
  wordy_ok r w -> qualified r p -> (length (wordy_pieces w) <= 25)%nat -> ~ NoDup (wordy_takes w) ->
  interval_try_from_str md (wordy_text w) p st = Err EInvalid.
Proof.
  intros md st r p w W [(prec & B & E)|E] L N.
  - apply (wordy_refused md st r p prec w W B); auto.
  - apply (wordy_refused md st r p 0 w W); auto. lia.
Qed.
Print Assumptions C58_twice.

(** One number with one unit *)
Theorem C58_single : forall md st ds word u,
  short_digits ds -> unit_name word u -> span_unit u -> digits_value ds * weight u <= 100000000 -> (length word <= 100)%nat ->
  digits_value ds * unit_months u <= i32_max ->
  interval_try_from_str md (ds ++ 32 :: word) (-1) st =
  Ok (from_mdt (digits_value ds * unit_months u) (digits_value ds * unit_days u) (digits_value ds * unit_micros u)).
Proof.
  intros md st ds word u D U S B L M.
  set (w := mkW [mkQ Unsigned ds None (Some word) u] None false).
  assert (wordy_text w = ds ++ 32 :: word) as Et by (unfold wordy_text; cbn; now rewrite app_nil_r).
  assert (Forall (fun c => 48 <= c <= 57) ds) as Dg by apply D.
  assert (0 <= digits_value ds) as Nn by (apply DigitsP.digits_value_bound; exact Dg).
  assert (part_months u 0 1 = 0 /\ part_days u 0 1 = 0 /\ part_micros u 0 1 = 0) as (P1 & P2 & P3) by (destruct u; repeat split; reflexivity).
  assert (wordy_months w = digits_value ds * unit_months u) as E1 by (unfold wordy_months, total, q_months, q_val, q_num, q_len; cbn; unfold pow10; cbn; rewrite P1; lia).
  assert (wordy_days w = digits_value ds * unit_days u) as E2 by (unfold wordy_days, total, q_days, q_val, q_num, q_len; cbn; unfold pow10; cbn; rewrite P2; lia).
  assert (wordy_time w = digits_value ds * unit_micros u) as E3 by (unfold wordy_time, total, q_micros, q_val, q_num, q_len; cbn; unfold pow10; cbn; rewrite P3; lia).
  assert (0 <= unit_months u) as Um by (destruct u; cbn; lia).
  rewrite <- Et, (C58_words md st RFull (-1) w), E1, E2, E3.
  - destruct (Z.leb_spec i32_min (digits_value ds * unit_months u)); [|unfold i32_min in *; nia].
    destruct (Z.leb_spec (digits_value ds * unit_months u) i32_max); [|lia]. reflexivity.
  - unfold wordy_ok. rewrite Et. cbn [w w_qs w_clock w_ago]. split; [|split; [easy|split; [now left|split]]].
    + constructor; [|constructor]. repeat split; auto; apply D.
    + rewrite app_length. cbn [length]. destruct D. lia.
    + split; [discriminate|exact I].
  - right. split; [lia|reflexivity].
  - intros _. unfold lone_minus, w. cbn. destruct ds as [|c t]; [reflexivity|]. cbn. inversion Dg; subst.
    destruct c as [|z|z]; try reflexivity. repeat (destruct z as [z|z|]; try reflexivity); lia.
  - unfold w. cbn. rewrite app_nil_r. unfold takes. cbn. destruct u; repeat constructor; easy.
Qed.
Print Assumptions C58_single.

(** A long text: "1 YEAR -2.5 Mons +3 w 1.25 hours .. ago" with every kind of part *)
Definition case_text : wordy :=
  mkW [mkQ Unsigned [49] None (Some (bs "YEAR")) UYear; mkQ Minus [50] (Some [53]) (Some (bs "Mons")) UMonth;
       mkQ Plus [51] None (Some (bs "w")) UWeek; mkQ Unsigned [55] None None UDay]
      (Some (mkC Minus (bs "04:05:06.5") 4 5 6 500000)) true.
Ltac dg := split; [repeat constructor; unfold digit; lia|cbn; lia].
Ltac name s := exists s; split; [vm_compute; repeat ((left; reflexivity) || right)|unfold any_case;
  match goal with |- Forall2 _ ?a ?b => let a' := eval vm_compute in a in let b' := eval vm_compute in b in change a with a'; change b with b' end;
  repeat (apply Forall2_cons; [lia|]); apply Forall2_nil].

Example C58_case :
  wordy_text case_text = bs "1 YEAR -2.5 Mons +3 w 7 -04:05:06.5 ago"
  /\ wordy_ok RFull case_text /\ NoDup (wordy_takes case_text) /\ qualified RFull (-1)
  /\ interval_try_from_str Debug (wordy_text case_text) (-1) IPostgres = Ok (from_mdt (-10) (-13) 14706500000).
Proof.
  split; [reflexivity|]. split; [|split; [|split]].
  - split; [|split; [|split; [now left|split; [cbn; lia|]]]].
    + repeat (apply Forall_cons || apply Forall_nil); unfold quantity_ok; cbn [q_int q_word q_unit q_frac]; (split; [dg|]).
      * split; [name (bs "year")|]. split; [exact I|]. split; [cbn; lia|exact I].
      * split; [name (bs "mons")|]. split; [exact I|]. split; [cbn; lia|]. split; [repeat constructor; unfold digit; lia|]. split; [discriminate|cbn; lia].
      * split; [name (bs "w")|]. split; [exact I|]. split; [cbn; lia|exact I].
      * split; [exact I|]. split; [exact I|]. split; [cbn; lia|exact I].
    + intros k E. injection E as <-. split; [|cbn; lia]. apply (TW_hmsf [48; 52] [48; 53] [48; 54] [53]); dg.
    + cbn. repeat split; discriminate || reflexivity.
  - vm_compute. repeat constructor; cbn; intuition discriminate.
  - right. split; [lia|reflexivity].
  - vm_compute. reflexivity.
Qed.

(** A bare number has the unit the column type implies. *)
Example C58_case_bare :
  let w := mkW [mkQ Minus [49; 50] None None UMinute] None false in
  wordy_ok RHourMinute w /\ qualified RHourMinute (3072 * 65536 + 65535) /\ wordy_text w = bs "-12"
  /\ interval_try_from_str Debug (bs "-12") (3072 * 65536 + 65535) IPostgres = Ok (from_mdt 0 0 (-720000000)).
Proof.
  split; [|split; [|split; [reflexivity|vm_compute; reflexivity]]].
  - split; [|split; [easy|split; [now left|split; [cbn; lia|]]]].
    + constructor; [|constructor]. split; [dg|]. repeat split. cbn. lia.
    + cbn. repeat split.
  - left. exists 65535. split; [lia|reflexivity].
Qed.

(** Under MINUTE TO SECOND "4:05" is four minutes. *)
Example C58_case_minutes :
  clock_ok RMinuteSecond (mkC Unsigned (bs "4:05") 0 4 5 0)
  /\ interval_try_from_str Debug (bs "4:05") (6144 * 65536 + 65535) IPostgres = Ok (from_mdt 0 0 245000000)
  /\ interval_try_from_str Debug (bs "4:05") (-1) IPostgres = Ok (from_mdt 0 0 14700000000).
Proof.
  split; [|vm_compute; auto]. split; [|cbn; lia]. left. exists [52], [48; 53]. repeat split; cbn; try lia; repeat constructor; unfold digit; lia.
Qed.

(** "3 days 4 d" gives the days twice, "1.5 s 1 ms" the milliseconds. *)
Example C58_case_twice :
  let w := mkW [mkQ Unsigned [51] None (Some (bs "days")) UDay; mkQ Unsigned [52] None (Some (bs "d")) UDay] None false in
  wordy_ok RFull w /\ ~ NoDup (wordy_takes w) /\ wordy_text w = bs "3 days 4 d"
  /\ interval_try_from_str Debug (bs "3 days 4 d") (-1) IPostgres = Err EInvalid
  /\ interval_try_from_str Debug (bs "1.5 s 1 ms") (-1) IPostgres = Err EInvalid
  /\ interval_try_from_str Debug (bs "1.0 s 1 ms") (-1) IPostgres = Ok (from_mdt 0 0 1001000).
Proof.
  split; [|split; [|split; [reflexivity|vm_compute; auto]]].
  - split; [|split; [easy|split; [now left|split; [cbn; lia|]]]].
    + repeat (apply Forall_cons || apply Forall_nil); (split; [dg|]).
      * split; [name (bs "days")|]. split; [exact I|]. split; [cbn; lia|exact I].
      * split; [name (bs "d")|]. split; [exact I|]. split; [cbn; lia|exact I].
    + cbn. repeat split; discriminate.
  - cbn. intros N. inversion N as [|? ? NI _]. apply NI. now left.
Qed.

(** Fractions of a decade, a century or a millennium are not exact: 0.7 decades are 84 months. *)
Theorem C58_decades_refuted : exists s,
  s = bs "0.7 decades" /\ forall md st, interval_try_from_str md s (-1) st = Ok (from_mdt 83 0 0).
Proof. exists (bs "0.7 decades"). split; [reflexivity|]. intros [|] [| | |]; vm_compute; reflexivity. Qed.
Print Assumptions C58_decades_refuted.

(** The order of the parts matters: a clock before a fractional quantity swallows the fraction. *)
Theorem C58_order_refuted : exists s t, s = bs "1.5 days 04:05:06" /\ t = bs "04:05:06 1.5 days" /\ forall md st,
  interval_try_from_str md s (-1) st = Ok (from_mdt 0 1 57906000000) /\
  interval_try_from_str md t (-1) st = Ok (from_mdt 0 1 14706000000).
Proof.
  exists (bs "1.5 days 04:05:06"), (bs "04:05:06 1.5 days"). split; [reflexivity|]. split; [reflexivity|].
  intros [|] [| | |]; vm_compute; auto.
Qed.
Print Assumptions C58_order_refuted.

(** In the SQL standard's style a lone leading minus is meant for every part. It is applied to sums:
    days after weeks keep their sign, hours after days do not. *)
Theorem C58_sql_minus_refuted : exists s t, s = bs "-1 week 2 days" /\ t = bs "-1 day 2 hours" /\ forall md,
  interval_try_from_str md s (-1) ISQLStandard = Ok (from_mdt 0 (-5) 0) /\
  interval_try_from_str md t (-1) ISQLStandard = Ok (from_mdt 0 (-1) (-7200000000)).
Proof.
  exists (bs "-1 week 2 days"), (bs "-1 day 2 hours"). split; [reflexivity|]. split; [reflexivity|].
  intros [|]; vm_compute; auto.
Qed.
Print Assumptions C58_sql_minus_refuted.
