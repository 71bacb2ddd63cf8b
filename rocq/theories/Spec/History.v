(** Every value that a sequence of calls can produce, starting from nothing. The conversions from raw
    integers and binary deserialisation, which take any number, are left out.
    Integer arguments are not limited to their types here, which can only add values. *)
From Coq Require Import ZArith List Floats.SpecFloat.
From Verif Require Import Model.F64 Model.Parse Model.DateTime Spec.Ranges Spec.IntervalS.
Open Scope Z_scope.

Inductive value := VDate (d : Z) | VTime (t : Z) | VTs (t : Z) | VIv (a : interval).

Inductive made (md : mode) : value -> Prop :=
(* dates *)
| M_ymd y m d r : date_try_from_ymd md y m d = Ok r -> made md (VDate r)
| M_date_str s o r : date_try_from_str md s o = Ok r -> made md (VDate r)
| M_add_days d n r : made md (VDate d) -> date_add_days d n = Ok r -> made md (VDate r)
| M_sub_days d n r : made md (VDate d) -> date_sub_days d n = Ok r -> made md (VDate r)
| M_date_of_ts t r : made md (VTs t) -> date_of_timestamp md t = Ok r -> made md (VDate r)
| M_date_trunc d ty u r : made md (VDate d) -> date_truncate md d ty u = Ok r -> made md (VDate r)
(* times of day *)
| M_hms h m s r : valid_binary 53 1024 s = true -> time_try_from_hms md h m s = Ok r -> made md (VTime r)
| M_time_str s p o r : time_try_from_str md s p o = Ok r -> made md (VTime r)
| M_time_add t a r : made md (VTime t) -> made md (VIv a) -> time_add_interval md t a = Ok r -> made md (VTime r)
| M_time_sub t a r : made md (VTime t) -> made md (VIv a) -> time_sub_interval md t a = Ok r -> made md (VTime r)
| M_time_of_ts t r : made md (VTs t) -> time_of_timestamp md t = Ok (Some r) -> made md (VTime r)
| M_time_of_iv a r : made md (VIv a) -> time_of_interval md a = Ok r -> made md (VTime r)
| M_time_trunc t ty u r : made md (VTime t) -> time_truncate md t ty u = Ok r -> made md (VTime r)
(* timestamps *)
| M_ymd_hms y m d h mi s r : timestamp_try_from_ymd_hms md y m d h mi s = Ok r -> made md (VTs r)
| M_ts_str s p o r : timestamp_try_from_str md s p o = Ok r -> made md (VTs r)
| M_ts_of_date d r : made md (VDate d) -> timestamp_of_date md d = Ok r -> made md (VTs r)
| M_ts_add t a r : made md (VTs t) -> made md (VIv a) -> timestamp_add_interval md t a = Ok r -> made md (VTs r)
| M_ts_sub t a r : made md (VTs t) -> made md (VIv a) -> timestamp_sub_interval md t a = Ok r -> made md (VTs r)
| M_ts_add_time t c r : made md (VTs t) -> made md (VTime c) -> timestamp_add_time md t c = Ok r -> made md (VTs r)
| M_ts_sub_time t c r : made md (VTs t) -> made md (VTime c) -> timestamp_sub_time md t c = Ok r -> made md (VTs r)
| M_date_add d a r : made md (VDate d) -> made md (VIv a) -> date_add_interval md d a = Ok r -> made md (VTs r)
| M_date_sub d a r : made md (VDate d) -> made md (VIv a) -> date_sub_interval md d a = Ok r -> made md (VTs r)
| M_date_add_time d c r : made md (VDate d) -> made md (VTime c) -> date_add_time md d c = Ok r -> made md (VTs r)
| M_ts_trunc t ty u r : made md (VTs t) -> timestamp_truncate md t ty u = Ok r -> made md (VTs r)
(* intervals *)
| M_ymwd_hms y mo w d h mi s r : interval_try_from_ymwd_hms y mo w d h mi s = Ok r -> made md (VIv r)
| M_iv_str s p st r : interval_try_from_str md s p st = Ok r -> made md (VIv r)
| M_iv_add a b r : made md (VIv a) -> made md (VIv b) -> interval_add a b = Ok r -> made md (VIv r)
| M_iv_plus a b r : made md (VIv a) -> made md (VIv b) -> interval_op_add a b = Ok r -> made md (VIv r)
| M_iv_sub a b r : made md (VIv a) -> made md (VIv b) -> interval_sub a b = Ok r -> made md (VIv r)
| M_iv_negate a r : made md (VIv a) -> interval_negate a = Ok r -> made md (VIv r)
| M_hours a r : made md (VIv a) -> justify_hours md a = Ok r -> made md (VIv r)
| M_days a r : made md (VIv a) -> justify_days md a = Ok r -> made md (VIv r)
| M_justify a r : made md (VIv a) -> justify_interval md a = Ok r -> made md (VIv r)
| M_mul a f r : made md (VIv a) -> interval_mul_f64 md a f = Ok r -> made md (VIv r)
| M_div a f r : made md (VIv a) -> interval_div_f64 md a f = Ok r -> made md (VIv r)
| M_iv_trunc a ty u r : made md (VIv a) -> interval_truncate md a ty u = Ok r -> made md (VIv r)
| M_ts_diff t u r : made md (VTs t) -> made md (VTs u) -> timestamp_sub_timestamp md t u = Ok r -> made md (VIv r)
| M_ts_diff_date t d r : made md (VTs t) -> made md (VDate d) -> timestamp_sub_date md t d = Ok r -> made md (VIv r)
| M_age t u r : made md (VTs t) -> made md (VTs u) -> timestamp_age md t u = Ok r -> made md (VIv r)
| M_iv_of_time t : made md (VTime t) -> made md (VIv (interval_of_time t))
| M_time_diff t u : made md (VTime t) -> made md (VTime u) -> made md (VIv (time_sub_time t u)).

(** The moment after the last of the range, 1 January 294277. *)
Definition after_last : Z := 9223371331200000000.
(** The latest time of day. *)
Definition last_time (md : mode) : Z := match md with Debug => 86401000000 | Release => 172799999998 end.

Definition in_range (md : mode) (v : value) : Prop :=
  match v with
  | VDate d => valid_date d \/ d = neg_inf_date \/ d = pos_inf_date
  | VTime t => 0 <= t <= last_time md
  | VTs t => valid_ts t \/ t = neg_inf_ts \/ t = pos_inf_ts \/ t = after_last
  | VIv a => fields_ok a
  end.
