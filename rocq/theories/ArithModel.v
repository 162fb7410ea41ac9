(** The arithmetic that the numerical functions of the program use: the operations on [double] and the functions of
    <math.h>.  The numerical models are written once over such a record; [ideal] is its reading in the real numbers,
    [machine] its reading in IEEE-754 binary64 (with the functions of <math.h> that IEEE-754 does not fix as parameters).
    In [ideal] the constants PI, TWOPI, DEG2RAD, RAD2DEG and RAD2HRS of const_def.h:16-28 are the numbers they approximate;
    that, and the absence of rounding, overflow, infinities, NaN and signed zeros, is the simplification of [ideal]. *)
From Coq Require Import ZArith QArith Reals Bool.
From Flocq Require Import Core.Zaux IEEE754.BinarySingleNaN.
From Verif Require Import CLib FloatModel.
Open Scope Z_scope.

Record arith := mk_arith {
  num : Type;
  add : num -> num -> num;
  sub : num -> num -> num;
  mul : num -> num -> num;
  div : num -> num -> num;
  opp : num -> num;
  ltn : num -> num -> bool;       (* < *)
  len : num -> num -> bool;       (* <= *)
  eqn : num -> num -> bool;       (* == *)
  cst : Z -> positive -> num;     (* a decimal literal: numerator, denominator *)
  c_pi : num;                     (* PI, M_PI *)
  c_2pi : num;                    (* TWOPI *)
  c_deg : num;                    (* DEG2RAD *)
  c_rad : num;                    (* RAD2DEG *)
  c_hrs : num;                    (* RAD2HRS *)
  c_sqrt : num -> num;
  c_fabs : num -> num;
  c_fmod : num -> num -> num;
  c_sin : num -> num;
  c_cos : num -> num;
  c_tan : num -> num;
  c_asin : num -> num;
  c_atan : num -> num;
  c_atan2 : num -> num -> num;
  c_pow : num -> num -> num;
  c_floor : num -> num;
  c_long : num -> res Z;          (* the conversion to long *)
  c_real : Z -> num }.            (* the conversion of a long *)

(** A literal that is an integer. *)
Definition int (A : arith) (z : Z) : num A := cst A z 1.

(** ** In the real numbers *)
Definition Rltb (x y : R) : bool := if Rlt_dec x y then true else false.
Definition Rleb (x y : R) : bool := if Rle_dec x y then true else false.
Definition Reqb (x y : R) : bool := if Req_EM_T x y then true else false.
(** atan2(y, x) of <math.h>. *)
Definition Ratan2 (y x : R) : R :=
  (if Rlt_dec 0 x then atan (y / x)
   else if Rlt_dec x 0 then (if Rle_dec 0 y then atan (y / x) + PI else atan (y / x) - PI)
   else if Rlt_dec 0 y then PI / 2
   else if Rlt_dec y 0 then - (PI / 2)
   else 0)%R.
(** pow(x, y): for x <= 0 only whole exponents have a value (elsewhere C gives a NaN or an infinity; here 0). *)
Definition Rcpow (x y : R) : R :=
  if Rlt_dec 0 x then Rpower x y else if Req_EM_T y (IZR (Int_part y)) then powerRZ x (Int_part y) else 0%R.
(** fmod(x, y): x less the multiple of y nearest to it towards 0. *)
Definition Rtrunc (x : R) : Z := (if Rle_dec 0 x then Int_part x else - Int_part (- x))%Z.
Definition Rfmod (x y : R) : R := (x - IZR (Rtrunc (x / y)) * y)%R.

(** The conversion to [long] (64 bits); outside its range the behaviour is undefined. *)
Definition Rlong (x : R) : res Z := let z := Rtrunc x in if (- long_max - 1 <=? z) && (z <=? long_max) then Ok z else UB Overflow.

Definition ideal : arith :=
  mk_arith R Rplus Rminus Rmult Rdiv Ropp Rltb Rleb Reqb (fun n d => (IZR n / IZR (Zpos d))%R)
    PI (2 * PI)%R (PI / 180)%R (180 / PI)%R (12 / PI)%R
    sqrt Rabs Rfmod sin cos tan asin atan Ratan2 Rcpow (fun x => IZR (Int_part x)) Rlong IZR.

(** ** In binary64 *)
Record libm := mk_libm {
  m_sin : b64 -> b64;
  m_cos : b64 -> b64;
  m_tan : b64 -> b64;
  m_asin : b64 -> b64;
  m_atan : b64 -> b64;
  m_atan2 : b64 -> b64 -> b64;
  m_pow : b64 -> b64 -> b64 }.

Definition fopp (x : b64) : b64 := Bopp x.
Definition fabs (x : b64) : b64 := Babs x.

(** fmod(x, y) of IEEE-754 / <math.h>: exact. *)
Definition ffmod (x y : b64) : b64 :=
  match x, y with
  | B754_nan, _ | _, B754_nan | B754_infinity _, _ | _, B754_zero _ => B754_nan
  | B754_zero _, _ => x
  | _, B754_infinity _ => x
  | B754_finite sx mx ex _, B754_finite _ my ey _ =>
      let e := Z.min ex ey in
      let r := Z.rem (cond_Zopp sx (Zpos mx) * 2 ^ (ex - e)) (Zpos my * 2 ^ (ey - e)) in
      binary_normalize 53 1024 prec64_gt0 prec64_lt mode_NE r e sx
  end.

(** The correctly rounded value of a literal: quotients of integers below 2^53 are one division; other literals are
    rounded by division of scaled integers (round to nearest, ties to even, on 53 bits; normal range). *)
Definition round_ratio (n : Z) (d : positive) : b64 :=
  match n with
  | 0 => B754_zero false
  | _ =>
      let e := Z.log2 (Z.abs n) - Z.log2 (Zpos d) - 54 in
      let a := if 0 <=? e then n else n * 2 ^ (- e) in
      let b := if 0 <=? e then Zpos d * 2 ^ e else Zpos d in
      let q := Z.quot a b in
      let q2 := 2 * q + (if Z.rem a b =? 0 then 0 else Z.sgn n) in   (* a sticky bit below the guard bits *)
      binary_normalize 53 1024 prec64_gt0 prec64_lt mode_NE q2 (e - 1) false
  end.

(** const_def.h:16-28 *)
Definition PI64 : b64 := round_ratio 3141592653589793238462643383279 1000000000000000000000000000000.
Definition TWOPI64 : b64 := round_ratio 62831853071795864769252867665590057683943387987502 10000000000000000000000000000000000000000000000000.
Definition DEG64 : b64 := round_ratio 17453292519943295769236907684886127134428718885417 1000000000000000000000000000000000000000000000000000.
Definition RAD64 : b64 := round_ratio 57295779513082320876798155 1000000000000000000000000.
Definition HRS64 : b64 := round_ratio 38197186342054880584532103209403446888270314977709 10000000000000000000000000000000000000000000000000.

Definition machine (m : libm) : arith :=
  mk_arith b64 fadd fsub fmul fdiv fopp flt fle feq round_ratio
    PI64 TWOPI64 DEG64 RAD64 HRS64
    fsqrt fabs ffmod (m_sin m) (m_cos m) (m_tan m) (m_asin m) (m_atan m) (m_atan2 m) (m_pow m) ffloor to_long of_int.
