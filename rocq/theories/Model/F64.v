(** IEEE binary64 arithmetic as used through Rust's `f64`, on the standard library's
    executable [spec_float] (precision 53, maximal exponent 1024). *)
From Coq Require Export Floats.SpecFloat.
From Verif Require Export Model.Base.

Definition f64 := spec_float.
Definition f64_prec := 53.
Definition f64_emax := 1024.

(** Operators + - * /, round to nearest, ties to even. *)
Definition fadd : f64 -> f64 -> f64 := SFadd f64_prec f64_emax.
Definition fsub : f64 -> f64 -> f64 := SFsub f64_prec f64_emax.
Definition fmul : f64 -> f64 -> f64 := SFmul f64_prec f64_emax.
Definition fdiv : f64 -> f64 -> f64 := SFdiv f64_prec f64_emax.
Definition fneg : f64 -> f64 := SFopp.
Definition fabs : f64 -> f64 := SFabs.

(** Comparisons: false when an operand is NaN. *)
Definition flt : f64 -> f64 -> bool := SFltb.
Definition fle : f64 -> f64 -> bool := SFleb.
Definition feq : f64 -> f64 -> bool := SFeqb.
Definition fgt a b := flt b a.
Definition fge a b := fle b a.

(** `as f64` from an integer type: correctly rounded. *)
Definition f64_of_Z (z : Z) : f64 := binary_normalize f64_prec f64_emax z 0 false.

Definition is_nan (x : f64) : bool := match x with S754_nan => true | _ => false end.
Definition is_inf (x : f64) : bool := match x with S754_infinity _ => true | _ => false end.

(** Integer nearest to m*2^e, halves away from zero; m is a magnitude. *)
Definition round_mag (m : positive) (e : Z) : Z :=
  if 0 <=? e then Z.pos m * 2 ^ e
  else (2 * Z.pos m + 2 ^ (- e)) / (2 * 2 ^ (- e)).
(** Integer part of m*2^e. *)
Definition trunc_mag (m : positive) (e : Z) : Z :=
  if 0 <=? e then Z.pos m * 2 ^ e else Z.pos m / 2 ^ (- e).

Definition fsign (s : bool) (z : Z) : Z := if s then - z else z.

(** `f64::round`: nearest integer, halves away from zero; keeps zeros' sign, infinities and
    NaN. The integral result of magnitude below 2^53 (or the unchanged argument when e >= 0)
    is representable, so [f64_of_Z] is exact here. *)
Definition fround (x : f64) : f64 :=
  match x with
  | S754_finite s m e =>
      if 0 <=? e then x
      else let z := round_mag m e in
           if z =? 0 then S754_zero s else f64_of_Z (fsign s z)
  | _ => x
  end.

(** `f64::floor`. *)
Definition ffloor (x : f64) : f64 :=
  match x with
  | S754_finite s m e =>
      if 0 <=? e then x
      else let z := (fsign s (Z.pos m)) / 2 ^ (- e) in
           if z =? 0 then S754_zero s else f64_of_Z z
  | _ => x
  end.

(** Saturating `as iN` with bounds [lo],[hi]: truncation toward zero, NaN gives 0. *)
Definition f64_to_int (lo hi : Z) (x : f64) : Z :=
  match x with
  | S754_nan => 0
  | S754_zero _ => 0
  | S754_infinity s => if s then lo else hi
  | S754_finite s m e => Z.max lo (Z.min hi (fsign s (trunc_mag m e)))
  end.
Definition f64_to_i32 := f64_to_int i32_min i32_max.
Definition f64_to_i64 := f64_to_int i64_min i64_max.

Definition f64_inf : f64 := S754_infinity false.
Definition f64_neg_inf : f64 := S754_infinity true.
Definition f0 : f64 := S754_zero false.
