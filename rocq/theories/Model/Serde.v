(** Model of src/serde.rs against the serde data model: a serialized value is what the
    implementation hands to the Serializer, and a deserializer is what it presents to the
    visitor. Not modelled: the encodings of concrete formats. *)
From Verif Require Export Model.Parse.

(** What reaches the serializer: `serialize_str`, `serialize_i32`, `serialize_i64` or
    `serialize_struct` with named i64/i32 fields. *)
Inductive sval :=
| SStr (s : bytes)
| SI32 (v : Z)
| SI64 (v : Z)
| SStruct (name : bytes) (fields : list (bytes * Z)).

(** src/serde.rs:23-38 *)
Definition date_ser (md : mode) (human : bool) (d : Z) : res sval :=
  if human then let* s := date_format md d SISO YMD in Ok (SStr s) else Ok (SI32 d).

(** What a deserializer may present. Everything not listed makes serde's default visitor method
    fail. *)
Inductive dval_in :=
| DStr (s : bytes)
| DI32 (v : Z)
| DI64 (v : Z)
| DSeq (vs : list Z)
| DMap (fs : list (bytes * Z)).

(** src/serde.rs:40-79: visit_str and visit_i32 *)
Definition date_de (md : mode) (i : dval_in) : res Z :=
  match i with
  | DStr s => date_try_from_str md s YMD
  | DI32 v => Ok v
  | _ => Err EInvalid
  end.

(** src/serde.rs:81-94; the style argument of Time::format is not used *)
Definition time_ser (md : mode) (human : bool) (t : Z) : res sval :=
  if human then let* s := time_format md t in Ok (SStr s) else Ok (SI64 t).

(** src/serde.rs:96-135 *)
Definition time_de (md : mode) (i : dval_in) : res Z :=
  match i with
  | DStr s => time_try_from_str md s (-1) YMD
  | DI64 v => Ok v
  | _ => Err EInvalid
  end.

(** src/serde.rs:137-152 *)
Definition timestamp_ser (md : mode) (human : bool) (t : Z) : res sval :=
  if human then let* s := timestamp_format md t SISO YMD in Ok (SStr s) else Ok (SI64 t).

(** src/serde.rs:154-193 *)
Definition timestamp_de (md : mode) (i : dval_in) : res Z :=
  match i with
  | DStr s => timestamp_try_from_str md s (-1) YMD
  | DI64 v => Ok v
  | _ => Err EInvalid
  end.

(** src/serde.rs:195-214 *)
Definition interval_ser (md : mode) (human : bool) (a : interval) : res sval :=
  if human then let* s := interval_format md a ISQLStandard in Ok (SStr s)
  else Ok (SStruct (bs "Interval")
             [(bs "time", iv_time a); (bs "day", iv_day a); (bs "month", iv_month a)]).

(** Elements are asked for as i64 (time) or i32 (day, month), the parameter types of
    [Interval::from_mdt] at src/serde.rs:296, 326; serde's integer visitors refuse other numbers. *)
Definition val64 (v : Z) : res Z := if in64b v then Ok v else Err EInvalid.
Definition val32 (v : Z) : res Z := if in32b v then Ok v else Err EInvalid.

(** src/serde.rs:283-297 visit_seq *)
Definition visit_seq (vs : list Z) : res interval :=
  match vs with
  | t :: d :: m :: _ =>
      let* t := val64 t in let* d := val32 d in let* m := val32 m in Ok (from_mdt m d t)
  | _ => Err EInvalid
  end.

(** src/serde.rs:300-327 visit_map; keys outside FIELDS fail in the key visitor (247-257) *)
Fixpoint visit_map (fs : list (bytes * Z)) (time day month : option Z) : res interval :=
  match fs with
  | [] =>
      match time, day, month with
      | Some t, Some d, Some m => Ok (from_mdt m d t)
      | _, _, _ => Err EInvalid
      end
  | (key, v) :: rest =>
      if beq key (bs "time") then
        match time with None => let* v := val64 v in visit_map rest (Some v) day month | Some _ => Err EInvalid end
      else if beq key (bs "day") then
        match day with None => let* v := val32 v in visit_map rest time (Some v) month | Some _ => Err EInvalid end
      else if beq key (bs "month") then
        match month with None => let* v := val32 v in visit_map rest time day (Some v) | Some _ => Err EInvalid end
      else Err EInvalid
  end.

(** src/serde.rs:216-336 *)
Definition interval_de (md : mode) (i : dval_in) : res interval :=
  match i with
  | DStr s => interval_try_from_str md s (-1) ISQLStandard
  | DSeq vs => visit_seq vs
  | DMap fs => visit_map fs None None None
  | _ => Err EInvalid
  end.
