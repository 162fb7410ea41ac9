(** Model of /repo/src/get_el.c (TLE text decoding).

    Doubles are modelled by exact rationals [Q] (simplification: the rounding
    of the products with the constants is not modelled); integers, pointers
    and reads are modelled exactly, with undefined behaviour as an outcome. *)
From Coq Require Import ZArith List Bool QArith.
From Verif Require Import CLib.
Import ListNotations.
Open Scope Z_scope.

(** get_el.c:22-35 [get_angle].  First loop: skip blanks; second loop: until a
    blank, '.' ignored, [rval * 10 + (c - '0')] in [int].  There is no test for NUL. *)
Fixpoint get_angle_acc (rval : Z) (p : list Z) : res Z :=
  match p with
  | [] => UB OutOfBounds
  | c :: p' =>
      if c =? 32 then Ok rval
      else if c =? 46 then get_angle_acc rval p'
      else r1 <- chk_int (rval * 10) ;;
           r2 <- chk_int (r1 + (c - 48)) ;;
           get_angle_acc r2 p'
  end.

Fixpoint get_angle (p : list Z) : res Z :=
  match p with
  | [] => UB OutOfBounds
  | c :: p' => if c =? 32 then get_angle p' else get_angle_acc 0 p
  end.

(** get_el.c:58-66: [while( exponent--) rval *= f]; a negative [exponent] is
    decremented through [INT_MIN], which overflows. *)
Fixpoint q_scale (n : nat) (f : Q) (v : Q) : Q :=
  match n with O => v | S n' => q_scale n' f (v * f)%Q end.

Definition sci_loop (e : Z) (f : Q) (v : Q) : res Q :=
  if e <? 0 then UB Overflow else Ok (q_scale (Z.to_nat e) f v).

(** get_el.c:46-71 [sci]. *)
Definition sci (p : list Z) : res Q :=
  c1 <- rd p 1 ;;
  if c1 =? 32 then Ok 0%Q
  else
    ival <- c_atoi p ;;
    if ival =? 0 then Ok 0%Q
    else
      let rval := (inject_Z ival * (1 # 100000))%Q in
      c7 <- rd p 7 ;;
      if c7 =? 48 then Ok rval
      else
        c6 <- rd p 6 ;;
        if c6 =? 45 then sci_loop (c7 - 48) (1 # 10) rval
        else sci_loop (c7 - 48) (10 # 1) rval.

(** get_el.c:87-96, the loop [while( --count)]; [None] = [return( -2)]. *)
Fixpoint checksum_loop (count : nat) (rval : Z) (p : list Z)
  : res (option (Z * list Z)) :=
  match count with
  | O => Ok (Some (rval, p))
  | S count' =>
      c <- rd p 0 ;;
      let rval' := if (48 <? c) && (c <=? 57) then rval + (c - 48)
                   else if c =? 45 then rval + 1 else rval in
      if (c <? 32) || (122 <? c) then Ok None
      else checksum_loop count' rval' (adv p 1)
  end.

(** get_el.c:80-107 [tle_checksum].  [count = 69; while( --count)] runs the
    body 68 times. *)
Definition tle_checksum (p : list Z) : res Z :=
  c0 <- rd p 0 ;;
  if negb (c0 =? 49) && negb (c0 =? 50) then Ok (-1)
  else
    c1 <- rd p 1 ;;
    if negb (c1 =? 32) then Ok (-1)
    else
      r <- checksum_loop 68 0 p ;;
      match r with
      | None => Ok (-2)
      | Some (rval, q) =>
          c68 <- rd q 0 ;;
          let rval := rval - (c68 - 48) in
          c69 <- rd (adv q 1) 0 ;;
          let rval :=
            if 32 <? c69 then -3
            else let m := Z.rem rval 10 in if m <? 0 then m + 10 else m in
          Ok (Z.rem rval 10)
      end.

(** get_el.c:109-120 [mutant_dehex]. *)
Definition mutant_dehex (c : Z) : Z :=
  if (c <=? 57) && (48 <=? c) then c - 48
  else if (65 <=? c) && (c <=? 90) then c + 10 - 65
  else -1.

(** get_el.c:153-158, the loop [for( i = 1; i < 9; i++)]. *)
Fixpoint high_loop (n : nat) (rval : Z) (p : list Z) : res Z :=
  match n with
  | O => Ok rval
  | S n' =>
      c <- rd p 0 ;;
      let digit := mutant_dehex c in
      if digit <? 0 then UB AssertFail
      else high_loop n' (rval * 36 + digit) (adv p 1)
  end.

(** get_el.c:144-163 [get_high_value] (the cast to double is exact below 2^53). *)
Definition get_high_value (p : list Z) : res Z :=
  s <- rd p 0 ;;
  if (s =? 43) || (s =? 45) then
    v <- high_loop 8 0 (adv p 1) ;;
    Ok (if s =? 45 then - v else v)
  else UB AssertFail.

(** get_el.c:209-226 [base34_to_int]. *)
Definition base34_to_int (c : Z) : Z :=
  if c =? 32 then 0
  else if (48 <=? c) && (c <=? 57) then c - 48
  else if (65 <=? c) && (c <=? 72) then c - (65 - 10)
  else if (74 <=? c) && (c <=? 78) then c - (74 - 18)
  else if (80 <=? c) && (c <=? 90) then c - (80 - 23)
  else -1.

(** get_el.c:228-256 [get_norad_number]. *)
Definition get_norad_number (p : list Z) : res Z :=
  c0 <- rd p 0 ;; let d0 := base34_to_int c0 in
  if d0 =? -1 then Ok 0 else
  c1 <- rd p 1 ;; let d1 := base34_to_int c1 in
  if d1 =? -1 then Ok 0 else
  c2 <- rd p 2 ;; let d2 := base34_to_int c2 in
  if d2 =? -1 then Ok 0 else
  c3 <- rd p 3 ;; let d3 := base34_to_int c3 in
  if d3 =? -1 then Ok 0 else
  c4 <- rd p 4 ;; let d4 := base34_to_int c4 in
  if d4 =? -1 then Ok 0 else
  if 9 <? d4 then
    Ok (340000 + (d4 - 10) + 24 * (d3 + d2 * 34 + d1 * 34 * 34 + d0 * 34 * 34 * 34))
  else if 9 <? d3 then
    Ok (340000 + 32072064 + d4 + (d3 - 10) * 10
        + 10 * 24 * (d2 + d1 * 34 + d0 * 34 * 34))
  else if 9 <? d2 then
    Ok (340000 + 32072064 + 9432960 + d4 + d3 * 10 + (d2 - 10) * 100
        + 2400 * (d1 + d0 * 34))
  else if 9 <? d1 then
    Ok (340000 + 32072064 + 9432960 + 2774400 + d4 + d3 * 10 + d2 * 100
        + (d1 - 10) * 1000 + d0 * 24000)
  else
    v <- c_atoi (adv p 1) ;; chk_int (d0 * 10000 + v).

(** get_el.c:258-261 [get_eight_places]. *)
Definition get_eight_places (p : list Z) : res Q :=
  a <- c_atoi p ;;
  b <- c_atoi (adv p 4) ;;
  Ok (inject_Z a + inject_Z b * (1 # 100000000))%Q.

(** norad.h:30-38 [tle_t]. *)
Record tle_t : Type := mk_tle {
  epoch : Q; xndt2o : Q; xndd6o : Q; bstar : Q;
  xincl : Q; xnodeo : Q; eo : Q; omegao : Q; xmo : Q; xno : Q;
  norad_number : Z; bulletin_number : Z; revolution_number : Z;
  classification : Z; ephemeris_type : Z;
  tle_intl_desig : list Z (* 8 bytes, NUL follows *)
}.

(** get_el.c:10-14 constants; the literal for PI has 39 decimals. *)
Definition PI_lit : Q :=
  3141592653589793238462643383279502884197 # 1000000000000000000000000000000000000000.
Definition TWOPI_lit : Q := (2 * PI_lit)%Q.

(** get_el.c:267-268: J2000 = 2451545.5, J1900 = J2000 - 36525 - 1. *)
Definition J1900 : Q := ((24515455 # 10) - 36525 - 1)%Q.

(** get_el.c:308-326: fields common to all ephemeris types. *)
Definition parse_common (l1 l2 : list Z) (sat : tle_t) : res tle_t :=
  c19 <- rd l1 19 ;;
  c18 <- rd l1 18 ;;
  let year := c19 - 48 in
  let year := if 48 <=? c18 then year + (c18 - 48) * 10 else year in
  let year := if year <? 57 then year + 100 else year in
  d <- get_eight_places (adv l1 20) ;;
  let ep := (d + J1900 + inject_Z (year * 365 + Z.quot (year - 1) 4))%Q in
  nn <- get_norad_number (adv l1 2) ;;
  t1 <- c_take (adv l1 64) 4 ;;
  bn <- c_atoi (t1 ++ [0]) ;;
  cl <- rd l1 7 ;;
  ds <- c_take (adv l1 9) 8 ;;
  t2 <- c_take (adv l2 63) 5 ;;
  rn <- c_atoi (t2 ++ [0]) ;;
  ty <- rd l1 62 ;;
  Ok (mk_tle ep (xndt2o sat) (xndd6o sat) (bstar sat)
        (xincl sat) (xnodeo sat) (eo sat) (omegao sat) (xmo sat) (xno sat)
        nn bn rn cl ty ds).

(** get_el.c:327-338: ephemeris type 'H', state vector stored over
    xincl, xnodeo, eo, omegao, xmo, xno (consecutive doubles of [tle_t]). *)
Definition parse_high (l1 l2 : list Z) (s : tle_t) : res tle_t :=
  x <- get_high_value (adv l1 33) ;;
  vx <- get_high_value (adv l2 33) ;;
  y <- get_high_value (adv l1 43) ;;
  vy <- get_high_value (adv l2 43) ;;
  z <- get_high_value (adv l1 53) ;;
  vz <- get_high_value (adv l2 53) ;;
  Ok (mk_tle (epoch s) (xndt2o s) (xndd6o s) (bstar s)
        (inject_Z x) (inject_Z y) (inject_Z z)
        (inject_Z vx * (1 # 10000))%Q (inject_Z vy * (1 # 10000))%Q
        (inject_Z vz * (1 # 10000))%Q
        (norad_number s) (bulletin_number s) (revolution_number s)
        (classification s) (ephemeris_type s) (tle_intl_desig s)).

(** get_el.c:340-360: ordinary mean elements. *)
Definition parse_mean (l1 l2 : list Z) (s : tle_t) : res tle_t :=
  let rad := (PI_lit / 1800000)%Q in
  ma <- get_angle (adv l2 43) ;;
  nd <- get_angle (adv l2 17) ;;
  ap <- get_angle (adv l2 34) ;;
  inc <- get_angle (adv l2 8) ;;
  ec <- c_atoi (adv l2 26) ;;
  t <- c_take (adv l2 51) 12 ;;
  mm <- get_eight_places (t ++ [0]) ;;
  n1 <- c_atoi (adv l1 35) ;;
  sg <- rd l1 33 ;;
  let dt := (inject_Z n1 * (1 # 100000000) * TWOPI_lit / (1440 * 1440))%Q in
  let dt := if sg =? 45 then (dt * (-1 # 1))%Q else dt in
  n2 <- sci (adv l1 44) ;;
  bs <- sci (adv l1 53) ;;
  Ok (mk_tle (epoch s) dt (n2 * TWOPI_lit / (1440 * (1440 * 1440)))%Q (bs * 1)%Q
        (inject_Z inc * rad)%Q (inject_Z nd * rad)%Q
        (inject_Z ec * (1 # 10000000))%Q
        (inject_Z ap * rad)%Q (inject_Z ma * rad)%Q
        (mm * TWOPI_lit / 1440)%Q
        (norad_number s) (bulletin_number s) (revolution_number s)
        (classification s) (ephemeris_type s) (tle_intl_desig s)).

(** get_el.c:277-363 [parse_elements]; returns the return code and [*sat]. *)
Definition parse_elements (l1 l2 : list Z) (sat : tle_t) : res (Z * tle_t) :=
  a <- rd l1 0 ;;
  b <- (if a =? 49 then rd l2 0 else Ok 0) ;;
  k1 <- (if negb (a =? 49) || negb (b =? 50) then Ok (-4) else tle_checksum l1) ;;
  let problem1 := if 0 <? k1 then 1 else 0 in
  let rval := if 0 <? k1 then 0 else k1 in
  if negb (rval =? 0) then Ok (rval - 100, sat)
  else
    k2 <- tle_checksum l2 ;;
    let problem := if 0 <? k2 then Z.lor problem1 2 else problem1 in
    let rval := if 0 <? k2 then 0 else k2 in
    if negb (rval =? 0) then Ok (rval, sat)
    else
      s <- parse_common l1 l2 sat ;;
      if ephemeris_type s =? 72 then
        s' <- parse_high l1 l2 s ;; Ok (0, s')
      else
        s' <- parse_mean l1 l2 s ;; Ok (problem, s').

(** basics.c:48-75 [select_ephemeris].  [deep] stands for the test
    [twopi / deep_arg.xnodp >= 225.] on the output of [sxpall_common_init]
    (not modelled here; universally quantified in the theorems). *)
Definition select_ephemeris (deep : tle_t -> bool) (t : tle_t) : Z :=
  let ty := ephemeris_type t in
  if ty =? 104 (* 'h' *) then 1
  else if Qle_bool (xno t) 0 || negb (Qle_bool (eo t) 1) || negb (Qle_bool 0 (eo t)) then -1
  else if (ty =? 50) || (ty =? 52) then 0
  else if (ty =? 51) || (ty =? 53) then 1
  else if deep t then 1 else 0.

(** sat_skymap.c:763-779 and sat_visibility.c:811, 860-866 (same test): [if( is_deep )] selects SDP4.  SDP4 itself
    (sdp4.c:287-290) integrates the state vector when [ephemeris_type == 'H']. *)
Inductive propagator := Near | Deep | StateVector.
Definition chosen_propagator (deep : tle_t -> bool) (t : tle_t) : propagator :=
  if select_ephemeris deep t =? 0 then Near
  else if ephemeris_type t =? 72 then StateVector else Deep.
