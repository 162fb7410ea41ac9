(** IEEE-754 arithmetic of the target (x86-64, FLT_EVAL_METHOD = 0, round to nearest even), by Flocq's executable
    operations.  Only the operations used by the modelled C code. *)
From Coq Require Import ZArith Bool.
From Flocq Require Import IEEE754.BinarySingleNaN.
From Verif Require Import CLib.
Open Scope Z_scope.

(** C [double]. *)
#[global] Instance prec64_gt0 : FLX.Prec_gt_0 53 := eq_refl.
#[global] Instance prec64_lt : Prec_lt_emax 53 1024 := eq_refl.
Definition b64 : Set := binary_float 53 1024.

Definition fadd (x y : b64) : b64 := Bplus mode_NE x y.
Definition fsub (x y : b64) : b64 := Bminus mode_NE x y.
Definition fmul (x y : b64) : b64 := Bmult mode_NE x y.
Definition fdiv (x y : b64) : b64 := Bdiv mode_NE x y.
Definition fsqrt (x : b64) : b64 := Bsqrt mode_NE x.
Definition flt (x y : b64) : bool := Bltb x y.
Definition fle (x y : b64) : bool := Bleb x y.
Definition feq (x y : b64) : bool := Beqb x y.
(** [floor] and [trunc] of <math.h>. *)
Definition ffloor (x : b64) : b64 := Bnearbyint mode_DN x.
Definition ftrunc (x : b64) : b64 := Bnearbyint mode_ZR x.
(** [fmod( x, 1.)]: x minus its integer part (the difference is a double; only the sign of a zero
    result is not modelled). *)
Definition fmod1 (x : b64) : b64 := fsub x (ftrunc x).
(** Conversion of an integer to double. *)
Definition of_int (z : Z) : b64 := binary_normalize 53 1024 prec64_gt0 prec64_lt mode_NE z 0 false.
(** The decimal literal n / d, with n and d exactly representable (so the division is the correctly
    rounded literal). *)
Definition lit (n d : Z) : b64 := fdiv (of_int n) (of_int d).
(** [(long) x] and [(int) x]: truncation, undefined out of range. *)
Definition long_max : Z := 9223372036854775807.
Definition to_long (x : b64) : res Z :=
  if is_finite x then
    let z := Btrunc x in if (- long_max - 1 <=? z) && (z <=? long_max) then Ok z else UB Overflow
  else UB Overflow.
Definition to_int (x : b64) : res Z :=
  if is_finite x then chk_int (Btrunc x) else UB Overflow.

(** C [float]. *)
#[global] Instance prec32_gt0 : FLX.Prec_gt_0 24 := eq_refl.
#[global] Instance prec32_lt : Prec_lt_emax 24 128 := eq_refl.
Definition b32 : Set := binary_float 24 128.
Definition narrow (x : b64) : b32 :=
  match x with
  | B754_zero s => B754_zero s
  | B754_infinity s => B754_infinity s
  | B754_nan => B754_nan
  | B754_finite s m e _ =>
      binary_normalize 24 128 prec32_gt0 prec32_lt mode_NE (if s then Zneg m else Zpos m) e s
  end.
Definition widen (x : b32) : b64 :=
  match x with
  | B754_zero s => B754_zero s
  | B754_infinity s => B754_infinity s
  | B754_nan => B754_nan
  | B754_finite s m e _ =>
      binary_normalize 53 1024 prec64_gt0 prec64_lt mode_NE (if s then Zneg m else Zpos m) e s
  end.
Definition of_int32 (z : Z) : b32 := binary_normalize 24 128 prec32_gt0 prec32_lt mode_NE z 0 false.
Definition fdiv32 (x y : b32) : b32 := Bdiv mode_NE x y.
(** [roundf]: nearest integer, halfway away from zero. *)
Definition froundf (x : b32) : b32 := Bnearbyint mode_NA x.
