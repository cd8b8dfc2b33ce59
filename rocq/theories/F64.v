(** IEEE-754 binary64 as used by the C++ [double] type, through Flocq.
    Definitions only.  Every operation rounds once, to nearest even. *)
From Coq Require Export ZArith Bool.
From Flocq Require Export IEEE754.BinarySingleNaN.

Global Open Scope Z_scope.

Definition f64 := binary_float 53 1024.

Global Instance prec53 : FLX.Prec_gt_0 53 := eq_refl.
Global Instance emax1024 : Prec_lt_emax 53 1024 := eq_refl.

(** Conversion of an integer to [double] (round to nearest even). *)
Definition f_of_Z (z : Z) : f64 :=
  binary_normalize 53 1024 prec53 emax1024 mode_NE z 0 false.

Definition fadd (x y : f64) : f64 := Bplus mode_NE x y.
Definition fsub (x y : f64) : f64 := Bminus mode_NE x y.
Definition fmul (x y : f64) : f64 := Bmult mode_NE x y.
Definition fdiv (x y : f64) : f64 := Bdiv mode_NE x y.
Definition fabs (x : f64) : f64 := Babs x.

(** C++ comparisons; any comparison with a NaN is false. *)
Definition flt (x y : f64) : bool := Bltb x y.
Definition fle (x y : f64) : bool := Bleb x y.
Definition fgt (x y : f64) : bool := Bltb y x.
Definition fge (x y : f64) : bool := Bleb y x.

Definition f_isnan (x : f64) : bool := is_nan x.
Definition f_isinf (x : f64) : bool :=
  match x with B754_infinity _ => true | _ => false end.

(** A decimal literal [n/d] with [n], [d] below 2^53: both are exact and the
    quotient is rounded once, which is the correctly rounded literal. *)
Definition f_lit (n d : Z) : f64 := fdiv (f_of_Z n) (f_of_Z d).

(** [std::round]: nearest integer, halves away from zero. *)
Definition fround (x : f64) : f64 := Bnearbyint mode_NA x.

(** Conversion of a [double] to an integer type with range [lo..hi]:
    truncation; undefined ([None]) when the value is not finite or the
    truncated value is not representable. *)
Definition f_to_int (lo hi : Z) (x : f64) : option Z :=
  if is_finite x then
    let z := Btrunc x in
    if (lo <=? z) && (z <=? hi) then Some z else None
  else None.

Definition int_min : Z := - 2 ^ 31.
Definition int_max : Z := 2 ^ 31 - 1.
Definition f_to_i32 : f64 -> option Z := f_to_int int_min int_max.
Definition f_to_u64 : f64 -> option Z := f_to_int 0 (2 ^ 64 - 1).
