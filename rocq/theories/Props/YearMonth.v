(** Intervals with years and months written "y-m": C65. *)
From Verif Require Import Model.Parse Spec.Calendar Spec.Ranges Spec.Clock Spec.Text Spec.DateText Spec.TimeText Spec.IntervalS Spec.Keywords
  Spec.DateWords Spec.IntervalWords Spec.SqlInterval Proofs.IvWordsP Proofs.YearMonthP.
From Verif Require Import Spec.IntervalWords Spec.SqlInterval.
Import List ListNotations.
Open Scope Z_scope.

(** "y-m" with a sign for both, then any quantities, a clock and "ago": the sum of the parts. In the
    SQL standard's style this holds unless a leading minus is the only sign. *)
Theorem C65_year_month : forall md st r p y w,
  ym_ok y -> dated_rest r y w -> qualified r p -> (st = ISQLStandard -> only_minus (dated_pieces y w) = false) -> NoDup (dated_takes w) ->
  interval_try_from_str md (dated_text y w) p st =
  if (i32_min <=? dated_months y w) && (dated_months y w <=? i32_max)
  then interval_adjust_by_typmod md (from_mdt (dated_months y w) (wordy_days w) (wordy_time w)) p else Err EOverflow.
Proof.
  intros md st r p y w Y W Q S N. destruct Q as [(prec & B & E)|E].
  - apply (dated_accepted md st r p prec y w B); auto. apply Y.
  - apply (dated_accepted md st r p 0 y w); auto; [lia|apply Y].
Qed.
Print Assumptions C65_year_month.

(** There, the minus is meant for every part of "y-m d h:m:s". *)
Theorem C65_sql_minus : forall md r p s, SqlInterval.sql_ok r s -> qualified r p ->
  interval_try_from_str md (45 :: joined_text (sql_pieces s)) p ISQLStandard =
  interval_adjust_by_typmod md (from_mdt (- sql_months s) (- sql_days s) (- sql_time s)) p.
Proof.
  intros md r p s S [(prec & B & E)|E].
  - apply (sql_minus md r p prec s B); auto.
  - apply (sql_minus md r p 0 s); auto. lia.
Qed.
Print Assumptions C65_sql_minus.

(** Months beyond 11 and parts given twice are refused. *)
Theorem C65_refused : forall md st r p y w,
  ym_shape y -> dated_rest r y w -> qualified r p ->
  (12 <= digits_value (m_month y) -> NoDup (dated_takes w) -> interval_try_from_str md (dated_text y w) p st = Err EOverflow)
  /\ (ym_ok y -> (length (dated_pieces y w) <= 25)%nat -> ~ NoDup (dated_takes w) -> interval_try_from_str md (dated_text y w) p st = Err EInvalid).
Proof.
  intros md st r p y w Y W [(prec & B & E)|E]; (split; [intros M N|intros O L N]).
  - apply (dated_month md st r p prec y w B); auto.
  - apply (dated_twice md st r p prec y w B); auto.
  - apply (dated_month md st r p 0 y w); auto. lia.
  - apply (dated_twice md st r p 0 y w); auto. lia.
Qed.
Print Assumptions C65_refused.

Ltac dg := split; [repeat constructor; unfold digit; lia|cbn; lia].
Definition case_ym : yearmonth := mkYM Minus [49] [48; 50].
Definition case_clock : clockpart := mkC Unsigned (bs "4:05:06.5") 4 5 6 500000.
Definition case_rest : wordy := mkW [mkQ Plus [51] None None UDay] (Some case_clock) false.
Example C65_case :
  dated_text case_ym case_rest = bs "-1-02 +3 4:05:06.5" /\ ym_ok case_ym /\ dated_rest RFull case_ym case_rest
  /\ NoDup (dated_takes case_rest) /\ only_minus (dated_pieces case_ym case_rest) = false
  /\ interval_try_from_str Debug (dated_text case_ym case_rest) (-1) ISQLStandard = Ok (from_mdt (-14) 3 14706500000).
Proof.
  assert (clock_ok RFull case_clock) as C.
  { split; [|vm_compute; intuition discriminate]. apply (TW_hmsf [52] [48; 53] [48; 54] [53]); dg. }
  split; [reflexivity|]. split; [|split; [|split; [|split; [reflexivity|vm_compute; reflexivity]]]].
  - split; [split; dg|]. vm_compute. intuition discriminate.
  - split; [|split; [|split; [cbn; lia|]]].
    + constructor; [|constructor]. split; [dg|]. repeat split. cbn. lia.
    + intros k E. injection E as <-. exact C.
    + cbn. repeat split; reflexivity.
  - vm_compute. repeat constructor; cbn; intuition discriminate.
Qed.

(** "-1-2 3 4:05:06" is wholly negative in the SQL standard's style only. *)
Definition case_sql : sqlspan := mkSql (Some ([49], [50])) (Some [51]) (Some (mkC Unsigned (bs "4:05:06") 4 5 6 0)).
Example C65_case_sql :
  45 :: joined_text (sql_pieces case_sql) = bs "-1-2 3 4:05:06" /\ SqlInterval.sql_ok RFull case_sql
  /\ interval_try_from_str Debug (bs "-1-2 3 4:05:06") (-1) ISQLStandard = Ok (from_mdt (-14) (-3) (-14706000000))
  /\ interval_try_from_str Debug (bs "-1-2 3 4:05:06") (-1) IPostgres = Ok (from_mdt (-14) 3 14706000000).
Proof.
  split; [reflexivity|]. split; [|vm_compute; auto]. split; [|split; [|split; [|split; [discriminate|cbn; lia]]]].
  - intros q E. injection E as <-. split; [split; dg|]. vm_compute. intuition discriminate.
  - intros d E. injection E as <-. split; [dg|]. split; [cbn; lia|discriminate].
  - intros k E. injection E as <-. split; [|reflexivity]. split; [|vm_compute; intuition discriminate]. apply (TW_hms [52] [48; 53] [48; 54]); dg.
Qed.
Example C65_case_refused :
  ym_shape (mkYM Unsigned [49] [49; 50]) /\ dated_rest RFull (mkYM Unsigned [49] [49; 50]) (mkW [] None false)
  /\ interval_try_from_str Debug (bs "1-12") (-1) IPostgres = Err EOverflow
  /\ interval_try_from_str Debug (bs "1-2 3 months") (-1) IPostgres = Err EInvalid.
Proof.
  split; [split; dg|]. split; [|vm_compute; auto]. split; [constructor|]. split; [discriminate|]. split; [cbn; lia|exact I].
Qed.
