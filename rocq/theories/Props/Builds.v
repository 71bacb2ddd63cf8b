(** Debug and release builds: C66. *)
From Verif Require Import Model.Parse Model.Serde Model.Format Model.Common Model.DateTime Spec.Builds Proofs.ModesP.
From Coq Require Import ZArith List.
Import List ListNotations.
Open Scope Z_scope.

(** Reading a text. *)
Theorem C66_parse :
  (forall s o, agree (date_try_from_str Debug s o) (date_try_from_str Release s o))
  /\ (forall s a o, agree (time_try_from_str Debug s a o) (time_try_from_str Release s a o))
  /\ (forall s a o, agree (timestamp_try_from_str Debug s a o) (timestamp_try_from_str Release s a o))
  /\ (forall s a st, agree (interval_try_from_str Debug s a st) (interval_try_from_str Release s a st)).
Proof. repeat split; first [exact date_try_from_str_agr | exact time_try_from_str_agr | exact timestamp_try_from_str_agr | exact interval_try_from_str_agr].
Qed.
Print Assumptions C66_parse.

(** Writing a value, in every style. *)
Theorem C66_format :
  (forall a st o, agree (date_format Debug a st o) (date_format Release a st o))
  /\ (forall a, agree (time_format Debug a) (time_format Release a))
  /\ (forall a st o, agree (timestamp_format Debug a st o) (timestamp_format Release a st o))
  /\ (forall i st, agree (interval_format Debug i st) (interval_format Release i st)).
Proof. repeat split; first [exact date_format_agr | exact time_format_agr | exact timestamp_format_agr | exact interval_format_agr].
Qed.
Print Assumptions C66_format.

(** Building a value from its parts. *)
Theorem C66_construct :
  (forall a b c, agree (date_try_from_ymd Debug a b c) (date_try_from_ymd Release a b c))
  /\ (forall a b x, agree (time_try_from_hms Debug a b x) (time_try_from_hms Release a b x))
  /\ (forall a b c d e x, agree (timestamp_try_from_ymd_hms Debug a b c d e x) (timestamp_try_from_ymd_hms Release a b c d e x))
  /\ (forall a b, agree (time_adjust_by_typmod Debug a b) (time_adjust_by_typmod Release a b))
  /\ (forall a b, agree (timestamp_adjust_by_typmod Debug a b) (timestamp_adjust_by_typmod Release a b))
  /\ (forall i a, agree (interval_adjust_by_typmod Debug i a) (interval_adjust_by_typmod Release i a)).
Proof. repeat split; first [exact date_try_from_ymd_agr | exact time_try_from_hms_agr | exact timestamp_try_from_ymd_hms_agr | exact time_adjust_by_typmod_agr | exact timestamp_adjust_by_typmod_agr | exact interval_adjust_by_typmod_agr].
Qed.
Print Assumptions C66_construct.

(** Conversions between the types. *)
Theorem C66_convert :
  (forall a, agree (date_of_timestamp Debug a) (date_of_timestamp Release a))
  /\ (forall a, agree (timestamp_of_date Debug a) (timestamp_of_date Release a))
  /\ (forall a, agree (time_of_timestamp Debug a) (time_of_timestamp Release a))
  /\ (forall i, agree (time_of_interval Debug i) (time_of_interval Release i)).
Proof. repeat split; first [exact date_of_timestamp_agr | exact timestamp_of_date_agr | exact time_of_timestamp_agr | exact time_of_interval_agr].
Qed.
Print Assumptions C66_convert.

(** Arithmetic, parts and truncation of dates. *)
Theorem C66_date :
  (forall a b, agree (date_sub_date Debug a b) (date_sub_date Release a b))
  /\ (forall a i, agree (date_add_interval Debug a i) (date_add_interval Release a i))
  /\ (forall a i, agree (date_sub_interval Debug a i) (date_sub_interval Release a i))
  /\ (forall a b, agree (date_add_time Debug a b) (date_add_time Release a b))
  /\ (forall a ty u, agree (date_date_part Debug a ty u) (date_date_part Release a ty u))
  /\ (forall a ty u, agree (date_truncate Debug a ty u) (date_truncate Release a ty u)).
Proof. repeat split; first [exact date_sub_date_agr | exact date_add_interval_agr | exact date_sub_interval_agr | exact date_add_time_agr | exact date_date_part_agr | exact date_truncate_agr].
Qed.
Print Assumptions C66_date.

(** The same of times of day. *)
Theorem C66_time :
  (forall a i, agree (time_add_interval Debug a i) (time_add_interval Release a i))
  /\ (forall a i, agree (time_sub_interval Debug a i) (time_sub_interval Release a i))
  /\ (forall a ty u, agree (time_date_part Debug a ty u) (time_date_part Release a ty u))
  /\ (forall a ty u, agree (time_truncate Debug a ty u) (time_truncate Release a ty u)).
Proof. repeat split; first [exact time_add_interval_agr | exact time_sub_interval_agr | exact time_date_part_agr | exact time_truncate_agr].
Qed.
Print Assumptions C66_time.

(** The same of timestamps. *)
Theorem C66_timestamp :
  (forall a i, agree (timestamp_add_interval Debug a i) (timestamp_add_interval Release a i))
  /\ (forall a i, agree (timestamp_sub_interval Debug a i) (timestamp_sub_interval Release a i))
  /\ (forall a b, agree (timestamp_add_time Debug a b) (timestamp_add_time Release a b))
  /\ (forall a b, agree (timestamp_sub_time Debug a b) (timestamp_sub_time Release a b))
  /\ (forall a b, agree (timestamp_sub_timestamp Debug a b) (timestamp_sub_timestamp Release a b))
  /\ (forall a b, agree (timestamp_sub_date Debug a b) (timestamp_sub_date Release a b))
  /\ (forall a b, agree (timestamp_age Debug a b) (timestamp_age Release a b))
  /\ (forall a ty u, agree (timestamp_date_part Debug a ty u) (timestamp_date_part Release a ty u))
  /\ (forall a ty u, agree (timestamp_truncate Debug a ty u) (timestamp_truncate Release a ty u)).
Proof. repeat split; first [exact timestamp_add_interval_agr | exact timestamp_sub_interval_agr | exact timestamp_add_time_agr | exact timestamp_sub_time_agr | exact timestamp_sub_timestamp_agr | exact timestamp_sub_date_agr | exact timestamp_age_agr | exact timestamp_date_part_agr | exact timestamp_truncate_agr].
Qed.
Print Assumptions C66_timestamp.

(** The same of intervals, and their normal forms and multiples. *)
Theorem C66_interval :
  (forall i, agree (justify_hours Debug i) (justify_hours Release i))
  /\ (forall i, agree (justify_days Debug i) (justify_days Release i))
  /\ (forall i, agree (justify_interval Debug i) (justify_interval Release i))
  /\ (forall i x, agree (interval_mul_f64 Debug i x) (interval_mul_f64 Release i x))
  /\ (forall i x, agree (interval_div_f64 Debug i x) (interval_div_f64 Release i x))
  /\ (forall i ty u, agree (interval_date_part Debug i ty u) (interval_date_part Release i ty u))
  /\ (forall i ty u, agree (interval_truncate Debug i ty u) (interval_truncate Release i ty u)).
Proof. repeat split; first [exact justify_hours_agr | exact justify_days_agr | exact justify_interval_agr | exact interval_mul_f64_agr | exact interval_div_f64_agr | exact interval_date_part_agr | exact interval_truncate_agr].
Qed.
Print Assumptions C66_interval.

(** Serialization and its inverse. *)
Theorem C66_serde :
  (forall human a, agree (date_ser Debug human a) (date_ser Release human a))
  /\ (forall v, agree (date_de Debug v) (date_de Release v))
  /\ (forall human a, agree (time_ser Debug human a) (time_ser Release human a))
  /\ (forall v, agree (time_de Debug v) (time_de Release v))
  /\ (forall human a, agree (timestamp_ser Debug human a) (timestamp_ser Release human a))
  /\ (forall v, agree (timestamp_de Debug v) (timestamp_de Release v))
  /\ (forall human i, agree (interval_ser Debug human i) (interval_ser Release human i))
  /\ (forall v, agree (interval_de Debug v) (interval_de Release v)).
Proof. repeat split; first [exact date_ser_agr | exact date_de_agr | exact time_ser_agr | exact time_de_agr | exact timestamp_ser_agr | exact timestamp_de_agr | exact interval_ser_agr | exact interval_de_agr].
Qed.
Print Assumptions C66_serde.

(** The builds agree on a value, on a refusal, and where only the checked build stops the other may
    return a wrong value. *)
Example C66_case :
  timestamp_try_from_str Debug (bs "2000-01-01 12:00") (-1) YMD = Ok 43200000000
  /\ timestamp_try_from_str Release (bs "2000-01-01 12:00") (-1) YMD = Ok 43200000000
  /\ date_try_from_ymd Debug 2001 2 29 = Err EOverflow /\ date_try_from_ymd Release 2001 2 29 = Err EOverflow
  /\ date_sub_date Debug 2147483493 (-2451545) = Fault FArith /\ date_sub_date Release 2147483493 (-2451545) = Ok (-2145032258).
Proof. repeat split; vm_compute; reflexivity. Qed.
