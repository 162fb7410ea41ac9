(** The deep-space propagator: deep.c and sdp4.c.  The variables dpsec_integration_step, dpsec_integration_order and
    is_dundee_compliant (deep.c:96-98) are set only by functions that neither program calls; they are the constants 720, 2 and 0.
    The macros USE_ACCURATE_ANOMALISTICS, RETAIN_PERTURBATION_VALUES_AT_EPOCH, SPACETRACK_3 and KEEP_INCLINATION_POSITIVE are
    not defined.  A loop that has not ended after n turns is [None]. *)
From Coq Require Import ZArith List Bool.
From Verif Require Import CLib ArithModel OrbModel.
Import ListNotations.
Open Scope Z_scope.

Section Deep.
Context (A : arith).
Let D := num A.
Local Infix "+." := (add A) (at level 50, left associativity).
Local Infix "-." := (sub A) (at level 50, left associativity).
Local Infix "*." := (mul A) (at level 40, left associativity).
Local Infix "/." := (div A) (at level 40, left associativity).
Local Infix "<." := (ltn A) (at level 70).
Local Infix "<=." := (len A) (at level 70).
Local Notation "# n" := (int A n) (at level 1).
Local Notation "- x" := (opp A x).
Local Notation pi := (o_pi A).
Local Notation twopi := (o_twopi A).

(** deep.c:23, 51-60; norad_in.h (minutes_per_day) *)
Definition omega_E : D := (cst A 100273790934 100000000000).
Definition zns_per_min : D := (cst A 119459 10000000000).
Definition zns_per_day : D := (cst A 17201977 1000000000).
Definition znl_per_day : D := (cst A 228027132 1000000000).
Definition znl_per_min : D := (cst A 15835218 100000000000).
Definition thdt : D := (cst A 437526908801129966 100000000000000000000).
Definition zes : D := (cst A 1675 100000).
Definition zel : D := (cst A 5490 100000).
Definition minutes_per_day : D := #1440.

(** An element set with its epoch (norad.h (struct tle_t)). *)
Record dorb := mk_dorb { d_orb : orb A; d_epoch : D }.

(** deep.c:65-83 *)
Definition ThetaG (jd : D) : D :=
  let UT := c_fmod A (jd +. (cst A 5 10)) #1 in
  let t_cen := (jd -. UT -. #2451545) /. #36525 in
  let GMST := (cst A 2411054841 100000) +. t_cen *. ((cst A 8640184812866 1000000) +. t_cen *. ((cst A 93104 1000000) -. t_cen *. (cst A 62 10000000))) in
  let GMST := c_fmod A (GMST /. #86400 +. omega_E *. UT) #1 in
  let GMST := if GMST <. #0 then GMST +. #1 else GMST in
  twopi *. GMST.

(** deep.c:119-124 *)
Definition eval_cubic_poly (x constant linear quadratic_term cubic_term : D) : D :=
  constant +. x *. (linear +. x *. (quadratic_term +. x *. cubic_term)).

(** deep.c:160-180: zmol, zmos, and zcosgl, zsingl, zcosil, zsinil, zcoshl, zsinhl *)
Record moon_t := mk_moon { b_zmol : D; b_zmos : D; b_cosg : D; b_sing : D; b_cosi : D; b_sini : D; b_cosh : D; b_sinh : D }.
Definition zcosi0 : D := (cst A 91744867 100000000).
Definition zsini0 : D := (cst A 39785416 100000000).
Definition lunar_orbit (days_since_1900 : D) : moon_t :=
  let lunar_asc_node := (cst A 45236020 10000000) -. (cst A 92422029 100000000000) *. days_since_1900 in
  let sin_asc_node := c_sin A lunar_asc_node in
  let cos_asc_node := c_cos A lunar_asc_node in
  let c_minus_gam := znl_per_day *. days_since_1900 -. (cst A 11151842 10000000) in
  let gam := (cst A 58351514 10000000) +. (cst A 19443680 10000000000) *. days_since_1900 in
  let zcosil := (cst A 91375164 100000000) -. (cst A 3568096 100000000) *. cos_asc_node in
  let zsinil := c_sqrt A (#1 -. zcosil *. zcosil) in
  let zsinhl := (cst A 89683511 1000000000) *. sin_asc_node /. zsinil in
  let zcoshl := c_sqrt A (#1 -. zsinhl *. zsinhl) in
  let zmol := FMod2p A c_minus_gam in
  let zx := zsini0 *. sin_asc_node /. zsinil in
  let zy := zcoshl *. cos_asc_node +. zcosi0 *. zsinhl *. sin_asc_node in
  let zx := c_atan2 A zx zy +. gam -. lunar_asc_node in
  let zcosgl := c_cos A zx in
  let zsingl := c_sin A zx in
  mk_moon zmol (FMod2p A ((cst A 62565837 10000000) +. zns_per_day *. days_since_1900)) zcosgl zsingl zcosil zsinil zcoshl zsinhl.

(** One turn of the loop deep.c:190-286: se, si, sl, sgh, sh and the twelve amplitudes ee2 ... xh3.  [e], [incl] are eo and xincl
    of the element set; cosio, sinio, cosg, sing, eosq, betao, betao2 and xnq are the fields of deep_arg. *)
Record amps := mk_amps { q_e2 : D; q_e3 : D; q_i2 : D; q_i3 : D; q_l2 : D; q_l3 : D; q_l4 : D; q_gh2 : D; q_gh3 : D; q_gh4 : D; q_h2 : D; q_h3 : D }.
Record rates := mk_rates { w_se : D; w_si : D; w_sl : D; w_sgh : D; w_sh : D; w_amps : amps }.
Definition third_body (e incl cosio sinio cosg sing eosq betao betao2 xnq : D)
    (zcosg zsing zcosi zsini zcosh zsinh zn cc ze : D) : rates :=
  let a1 := zcosg *. zcosh +. zsing *. zcosi *. zsinh in
  let a3 := - zsing *. zcosh +. zcosg *. zcosi *. zsinh in
  let a7 := - zcosg *. zsinh +. zsing *. zcosi *. zcosh in
  let a8 := zsing *. zsini in
  let a9 := zsing *. zsinh +. zcosg *. zcosi *. zcosh in
  let a10 := zcosg *. zsini in
  let a2 := cosio *. a7 +. sinio *. a8 in
  let a4 := cosio *. a9 +. sinio *. a10 in
  let a5 := - sinio *. a7 +. cosio *. a8 in
  let a6 := - sinio *. a9 +. cosio *. a10 in
  let x1 := a1 *. cosg +. a2 *. sing in
  let x2 := a3 *. cosg +. a4 *. sing in
  let x3 := - a1 *. sing +. a2 *. cosg in
  let x4 := - a3 *. sing +. a4 *. cosg in
  let x5 := a5 *. sing in
  let x6 := a6 *. sing in
  let x7 := a5 *. cosg in
  let x8 := a6 *. cosg in
  let z31 := #12 *. x1 *. x1 -. #3 *. x3 *. x3 in
  let z32 := #24 *. x1 *. x2 -. #6 *. x3 *. x4 in
  let z33 := #12 *. x2 *. x2 -. #3 *. x4 *. x4 in
  let z11 := #(-6) *. a1 *. a5 +. eosq *. (#(-24) *. x1 *. x7 -. #6 *. x3 *. x5) in
  let z12 := #(-6) *. (a1 *. a6 +. a3 *. a5) +. eosq *.
            (#(-24) *. (x2 *. x7 +. x1 *. x8) -. #6 *. (x3 *. x6 +. x4 *. x5)) in
  let z13 := #(-6) *. a3 *. a6 +. eosq *. (#(-24) *. x2 *. x8 -. #6 *. x4 *. x6) in
  let z21 := #6 *. a2 *. a5 +. eosq *. (#24 *. x1 *. x5 -. #6 *. x3 *. x7) in
  let z22 := #6 *. (a4 *. a5 +. a2 *. a6) +. eosq *.
            (#24 *. (x2 *. x5 +. x1 *. x6) -. #6 *. (x4 *. x7 +. x3 *. x8)) in
  let z23 := #6 *. a4 *. a6 +. eosq *. (#24 *. x2 *. x6 -. #6 *. x4 *. x8) in
  let s3 := cc /. xnq in
  let s2 := - (cst A 5 10) *. s3 /. betao in
  let s4 := s3 *. betao in
  let s1 := #(-15) *. e *. s4 in
  let s5 := x1 *. x3 +. x2 *. x4 in
  let s6 := x2 *. x3 +. x1 *. x4 in
  let s7 := x2 *. x4 -. x1 *. x3 in
  let z1 := #3 *. (a1 *. a1 +. a2 *. a2) +. z31 *. eosq in
  let z2 := #6 *. (a1 *. a3 +. a2 *. a4) +. z32 *. eosq in
  let z3 := #3 *. (a3 *. a3 +. a4 *. a4) +. z33 *. eosq in
  let z1 := z1 +. z1 +. betao2 *. z31 in
  let z2 := z2 +. z2 +. betao2 *. z32 in
  let z3 := z3 +. z3 +. betao2 *. z33 in
  let se := s1 *. zn *. s5 in
  let si := s2 *. zn *. (z11 +. z13) in
  let sl := - zn *. s3 *. (z1 +. z3 -. #14 -. #6 *. eosq) in
  let sgh := s4 *. zn *. (z31 +. z33 -. #6) in
  let sh := if incl <. pi /. #60 then #0 else - zn *. s2 *. (z21 +. z23) in
  mk_rates se si sl sgh sh
    (mk_amps (#2 *. s1 *. s6) (#2 *. s1 *. s7) (#2 *. s2 *. z12) (#2 *. s2 *. (z13 -. z11))
       (#(-2) *. s3 *. z2) (#(-2) *. s3 *. (z3 -. z1)) (#(-2) *. s3 *. (#(-21) -. #9 *. eosq) *. ze)
       (#2 *. s4 *. z32) (#2 *. s4 *. (z33 -. z31)) (#(-18) *. s4 *. ze)
       (#(-2) *. s2 *. z22) (#(-2) *. s2 *. (z23 -. z21))).

(** What Deep_dpinit leaves in deep_arg: the secular rates sse, ssi, ssl, ssg, ssh, the amplitudes, the phases, and for resonant
    orbits the coefficients, xlamo and xfact. *)
Inductive coefs :=
| Half (d2201 d2211 d3210 d3222 d4410 d4422 d5220 d5232 d5421 d5433 : D)   (* resonance_flag 1, synchronous_flag 0 *)
| Synchronous (del1 del2 del3 : D).                                        (* resonance_flag 1, synchronous_flag 1 *)
Record resonance := mk_resonance { r_coefs : coefs; r_xlamo : D; r_xfact : D }.
Record deep := mk_deep {
  g_com : common_t A; g_thgr : D; g_omegaq : D; g_zmol : D; g_zmos : D;
  g_sse : D; g_ssi : D; g_ssl : D; g_ssg : D; g_ssh : D; g_sun : amps; g_moon : amps; g_res : option resonance }.

(** deep.c:127-296: everything before the resonance terms *)
Definition secular (t : dorb) (k : common_t A) : deep :=
  let o := d_orb t in
  let d := k_start A k in
  let sinq := c_sin A (o_xnodeo A o) in
  let cosq := c_cos A (o_xnodeo A o) in
  let days_since_1900 := d_epoch t -. #2415020 in
  let b := lunar_orbit days_since_1900 in
  let cosio := i_cosio A d in
  let sinio := k_sinio A k in
  let pass := third_body (o_eo A o) (o_xincl A o) cosio sinio (c_cos A (o_omegao A o)) (c_sin A (o_omegao A o))
                (i_eosq A d) (i_betao A d) (i_betao2 A d) (i_xnodp A d) in
  let sun := pass (cst A 1945905 10000000) ( - (cst A 98088458 100000000)) zcosi0 zsini0 cosq sinq zns_per_min (cst A 29864797 10000000000000) zes in
  let ssh := if negb (eqn A sinio #0) then w_sh sun /. sinio else #0 in
  let ssg := w_sgh sun -. cosio *. ssh in
  let moon := pass (b_cosg b) (b_sing b) (b_cosi b) (b_sini b)
                (b_cosh b *. cosq +. b_sinh b *. sinq) (sinq *. b_cosh b -. cosq *. b_sinh b) znl_per_min (cst A 47968065 100000000000000) zel in
  let ssg := ssg +. w_sgh moon in
  let '(ssg, ssh) :=
    if negb (eqn A sinio #0) then (ssg -. w_sh moon *. cosio /. sinio, ssh +. w_sh moon /. sinio) else (ssg, ssh) in
  mk_deep k (ThetaG (d_epoch t)) (o_omegao A o) (b_zmol b) (b_zmos b)
    (w_se sun +. w_se moon) (w_si sun +. w_si moon) (w_sl sun +. w_sl moon) ssg ssh (w_amps sun) (w_amps moon) None.

(** deep.c:304-396: the half-day resonance *)
Definition half_day (t : dorb) (g : deep) : resonance :=
  let o := d_orb t in
  let k := g_com g in
  let d := k_start A k in
  let eo := o_eo A o in
  let eosq := i_eosq A d in
  let cosio := i_cosio A d in
  let cosio2 := i_cosio2 A d in
  let sinio := k_sinio A k in
  let aqnv := #1 /. i_aodp A d in
  let xnq := i_xnodp A d in
  let g201 := - (cst A 306 1000) -. (eo -. (cst A 64 100)) *. (cst A 440 1000) in
  let sini2 := sinio *. sinio in
  let f220 := (cst A 75 100) *. (#1 +. #2 *. cosio +. cosio2) in
  let f221 := (cst A 15 10) *. sini2 in
  let f321 := (cst A 1875 1000) *. sinio *. (#1 -. #2 *. cosio -. #3 *. cosio2) in
  let f322 := - (cst A 1875 1000) *. sinio *. (#1 +. #2 *. cosio -. #3 *. cosio2) in
  let f441 := #35 *. sini2 *. f220 in
  let f442 := (cst A 393750 10000) *. sini2 *. sini2 in
  let f522 := (cst A 984375 100000) *. sinio *. (sini2 *. (#1 -. #2 *. cosio -. #5 *. cosio2)
              +. (cst A 33333333 100000000) *. (#(-2) +. #4 *. cosio +. #6 *. cosio2)) in
  let f523 := sinio *. ((cst A 492187512 100000000) *. sini2 *. (#(-2) -. #4 *. cosio +. #10 *. cosio2)
              +. (cst A 656250012 100000000) *. (#1 +. #2 *. cosio -. #3 *. cosio2)) in
  let f542 := (cst A 2953125 100000) *. sinio *. (#2 -. #8 *. cosio +. cosio2 *. (#(-12) +. #8 *. cosio +. #10 *. cosio2)) in
  let f543 := (cst A 2953125 100000) *. sinio *. (#(-2) -. #8 *. cosio +. cosio2 *. (#12 +. #8 *. cosio -. #10 *. cosio2)) in
  let '(g211, g310, g322, g410, g422, g520) :=
    if eo <=. (cst A 65 100) then
      ((cst A 3616 1000) -. (cst A 13247 1000) *. eo +. (cst A 16290 1000) *. eosq,
       eval_cubic_poly eo ( - (cst A 19302 1000)) (cst A 117390 1000) ( - (cst A 228419 1000)) (cst A 156591 1000),
       eval_cubic_poly eo ( - (cst A 189068 10000)) (cst A 1097927 10000) ( - (cst A 2146334 10000)) (cst A 1465816 10000),
       eval_cubic_poly eo ( - (cst A 41122 1000)) (cst A 242694 1000) ( - (cst A 471094 1000)) (cst A 313953 1000),
       eval_cubic_poly eo ( - (cst A 146407 1000)) (cst A 841880 1000) ( - (cst A 1629014 1000)) (cst A 1083435 1000),
       eval_cubic_poly eo ( - (cst A 532114 1000)) (cst A 3017977 1000) ( - (cst A 5740032 1000)) (cst A 3708276 1000))
    else
      (eval_cubic_poly eo ( - (cst A 72099 1000)) (cst A 331819 1000) ( - (cst A 508738 1000)) (cst A 266724 1000),
       eval_cubic_poly eo ( - (cst A 346844 1000)) (cst A 1582851 1000) ( - (cst A 2415925 1000)) (cst A 1246113 1000),
       eval_cubic_poly eo ( - (cst A 342585 1000)) (cst A 1554908 1000) ( - (cst A 2366899 1000)) (cst A 1215972 1000),
       eval_cubic_poly eo ( - (cst A 1052797 1000)) (cst A 4758686 1000) ( - (cst A 7193992 1000)) (cst A 3651957 1000),
       eval_cubic_poly eo ( - (cst A 358169 100)) (cst A 1617811 100) ( - (cst A 2446277 100)) (cst A 1242252 100),
       if eo <=. (cst A 715 1000) then eval_cubic_poly eo (cst A 146474 100) ( - (cst A 466475 100)) (cst A 376364 100) #0
       else eval_cubic_poly eo ( - (cst A 514966 100)) (cst A 2993692 100) ( - (cst A 5408736 100)) (cst A 3132456 100)) in
  let '(g533, g521, g532) :=
    if eo <. (cst A 7 10) then
      (eval_cubic_poly eo ( - (cst A 9192277 10000)) (cst A 498861 100) ( - (cst A 906477 100)) (cst A 554221 100),
       eval_cubic_poly eo ( - (cst A 82271072 100000)) (cst A 45686173 10000) ( - (cst A 84914146 10000)) (cst A 5337524 1000),
       eval_cubic_poly eo ( - (cst A 853666 1000)) (cst A 469025 100) ( - (cst A 862477 100)) (cst A 53414 10))
    else
      (eval_cubic_poly eo ( - (cst A 3799578 100)) (cst A 16161652 100) ( - (cst A 2298382 10)) (cst A 10937794 100),
       eval_cubic_poly eo ( - (cst A 51752104 1000)) (cst A 21891395 100) ( - (cst A 30946816 100)) (cst A 14634942 100),
       eval_cubic_poly eo ( - (cst A 4002388 100)) (cst A 17047089 100) ( - (cst A 24269948 100)) (cst A 11560582 100)) in
  let temp1 := #3 *. xnq *. xnq *. aqnv *. aqnv in
  let temp := temp1 *. (cst A 17891679 10000000000000) in
  let d2201 := temp *. f220 *. g201 in
  let d2211 := temp *. f221 *. g211 in
  let temp1 := temp1 *. aqnv in
  let temp := temp1 *. (cst A 37393792 100000000000000) in
  let d3210 := temp *. f321 *. g310 in
  let d3222 := temp *. f322 *. g322 in
  let temp1 := temp1 *. aqnv in
  let temp := #2 *. temp1 *. (cst A 73636953 10000000000000000) in
  let d4410 := temp *. f441 *. g410 in
  let d4422 := temp *. f442 *. g422 in
  let temp1 := temp1 *. aqnv in
  let temp := temp1 *. (cst A 11428639 100000000000000) in
  let d5220 := temp *. f522 *. g520 in
  let d5232 := temp *. f523 *. g532 in
  let temp := #2 *. temp1 *. (cst A 21765803 10000000000000000) in
  let d5421 := temp *. f542 *. g521 in
  let d5433 := temp *. f543 *. g533 in
  let xlamo := o_xmo A o +. o_xnodeo A o +. o_xnodeo A o -. g_thgr g -. g_thgr g in
  let bfact := k_xmdot A k +. k_xnodot A k +. k_xnodot A k -. thdt -. thdt in
  let bfact := bfact +. (g_ssl g +. g_ssh g +. g_ssh g) in
  mk_resonance (Half d2201 d2211 d3210 d3222 d4410 d4422 d5220 d5232 d5421 d5433) xlamo (bfact -. xnq).

(** deep.c:401-421: the one-day resonance *)
Definition one_day (t : dorb) (g : deep) : resonance :=
  let o := d_orb t in
  let k := g_com g in
  let d := k_start A k in
  let eosq := i_eosq A d in
  let cosio := i_cosio A d in
  let sinio := k_sinio A k in
  let aqnv := #1 /. i_aodp A d in
  let xnq := i_xnodp A d in
  let cosio_plus_1 := #1 +. cosio in
  let g200 := #1 +. eosq *. ( - (cst A 25 10) +. (cst A 8125 10000) *. eosq) in
  let g300 := #1 +. eosq *. (#(-6) +. (cst A 660937 100000) *. eosq) in
  let f311 := (cst A 9375 10000) *. sinio *. sinio *. (#1 +. #3 *. cosio) -. (cst A 75 100) *. cosio_plus_1 in
  let g310 := #1 +. #2 *. eosq in
  let f220 := (cst A 75 100) *. cosio_plus_1 *. cosio_plus_1 in
  let f330 := (cst A 25 10) *. f220 *. cosio_plus_1 in
  let del1 := #3 *. xnq *. xnq *. aqnv *. aqnv in
  let del2 := #2 *. del1 *. f220 *. g200 *. (cst A 17891679 10000000000000) in
  let del3 := #3 *. del1 *. f330 *. g300 *. (cst A 22123015 100000000000000) *. aqnv in
  let del1 := del1 *. (f311 *. g310 *. (cst A 21460748 10000000000000) *. aqnv) in
  let xlamo := o_xmo A o +. o_xnodeo A o +. o_omegao A o -. g_thgr g in
  let bfact := k_xmdot A k +. k_omgdot A k +. k_xnodot A k -. thdt in
  let bfact := bfact +. g_ssl g +. g_ssg g +. g_ssh g in
  mk_resonance (Synchronous del1 del2 del3) xlamo (bfact -. xnq).

(** deep.c:298-299, 398-399, 423-424: which resonance *)
Definition resonant (t : dorb) (g : deep) : option resonance :=
  let xnq := i_xnodp A (k_start A (g_com g)) in
  if ((cst A 826 100000) <=. xnq) && (xnq <=. (cst A 924 100000)) && ((cst A 5 10) <=. o_eo A (d_orb t)) then Some (half_day t g)
  else if (xnq <. (cst A 12 10) *. twopi /. minutes_per_day) && ((cst A 8 10) *. twopi /. minutes_per_day <. xnq) then Some (one_day t g)
  else None.
(** deep.c:127-436 *)
Definition Deep_dpinit (t : dorb) (k : common_t A) : deep :=
  let g := secular t k in
  mk_deep (g_com g) (g_thgr g) (g_omegaq g) (g_zmol g) (g_zmos g) (g_sse g) (g_ssi g) (g_ssl g) (g_ssg g) (g_ssh g) (g_sun g) (g_moon g)
    (resonant t g).

(** The fields of deep_arg that keep a value from one call of SDP4 to the next: atime, xni, xli, savtsn, and pe, pinc, pl, pgh, ph
    ([None] before they are first written). *)
Record perts := mk_perts { e_pe : D; e_pinc : D; e_pl : D; e_pgh : D; e_ph : D }.
Record dstate := mk_dstate { v_atime : D; v_xni : D; v_xli : D; v_savtsn : D; v_perts : option perts }.
(** deep.c:184, 431-433 (atime, xni and xli are not used when there is no resonance) *)
Definition fresh (g : deep) : dstate :=
  mk_dstate #0 (i_xnodp A (k_start A (g_com g)))
    (match g_res g with Some r => r_xlamo r | None => #0 end) (cst A 100000000000000000000 1) None.

(** deep.c:441-561, derivs[0] and derivs[1] *)
Definition compute_dpsec_derivs (omegaq omgdot : D) (c : coefs) (xli atime : D) : D * D :=
  let sin_li := c_sin A xli in
  let cos_li := c_cos A xli in
  let sin_2li := #2 *. sin_li *. cos_li in
  let cos_2li := #2 *. cos_li *. cos_li -. #1 in
  match c with
  | Synchronous del1 del2 del3 =>
      let c_fasx2 := (cst A 99139134268488593 100000000000000000) in
      let s_fasx2 := (cst A 13093206501640101 100000000000000000) in
      let c_2fasx4 := (cst A 87051638752972937 100000000000000000) in
      let s_2fasx4 := - (cst A 49213943048915526 100000000000000000) in
      let c_3fasx6 := (cst A 43258117585763334 100000000000000000) in
      let s_3fasx6 := (cst A 90159499016666422 100000000000000000) in
      let sin_3li := sin_2li *. cos_li +. cos_2li *. sin_li in
      let cos_3li := cos_2li *. cos_li -. sin_2li *. sin_li in
      let term1a := del1 *. (sin_li *. c_fasx2 -. cos_li *. s_fasx2) in
      let term2a := del2 *. (sin_2li *. c_2fasx4 -. cos_2li *. s_2fasx4) in
      let term3a := del3 *. (sin_3li *. c_3fasx6 -. cos_3li *. s_3fasx6) in
      let term1b := del1 *. (cos_li *. c_fasx2 +. sin_li *. s_fasx2) in
      let term2b := #2 *. del2 *. (cos_2li *. c_2fasx4 +. sin_2li *. s_2fasx4) in
      let term3b := #3 *. del3 *. (cos_3li *. c_3fasx6 +. sin_3li *. s_3fasx6) in
      (term1a +. term2a +. term3a, term1b +. term2b +. term3b)
  | Half d2201 d2211 d3210 d3222 d4410 d4422 d5220 d5232 d5421 d5433 =>
      let c_g22 := (cst A 87051638752972937 100000000000000000) in
      let s_g22 := - (cst A 49213943048915526 100000000000000000) in
      let c_g32 := (cst A 57972190187001149 100000000000000000) in
      let s_g32 := (cst A 81481440616389245 100000000000000000) in
      let c_g44 := - (cst A 22866241528815548 100000000000000000) in
      let s_g44 := (cst A 97350577801807991 100000000000000000) in
      let c_g52 := (cst A 49684831179884198 100000000000000000) in
      let s_g52 := (cst A 86783740128127729 100000000000000000) in
      let c_g54 := - (cst A 29695209575316894 100000000000000000) in
      let s_g54 := - (cst A 95489237761529999 100000000000000000) in
      let xomi := omegaq +. omgdot *. atime in
      let sin_omi := c_sin A xomi in
      let cos_omi := c_cos A xomi in
      let sin_li_m_omi := sin_li *. cos_omi -. sin_omi *. cos_li in
      let sin_li_p_omi := sin_li *. cos_omi +. sin_omi *. cos_li in
      let cos_li_m_omi := cos_li *. cos_omi +. sin_omi *. sin_li in
      let cos_li_p_omi := cos_li *. cos_omi -. sin_omi *. sin_li in
      let sin_2omi := #2 *. sin_omi *. cos_omi in
      let cos_2omi := #2 *. cos_omi *. cos_omi -. #1 in
      let sin_2li_m_omi := sin_2li *. cos_omi -. sin_omi *. cos_2li in
      let sin_2li_p_omi := sin_2li *. cos_omi +. sin_omi *. cos_2li in
      let cos_2li_m_omi := cos_2li *. cos_omi +. sin_omi *. sin_2li in
      let cos_2li_p_omi := cos_2li *. cos_omi -. sin_omi *. sin_2li in
      let sin_2li_p_2omi := sin_2li *. cos_2omi +. sin_2omi *. cos_2li in
      let cos_2li_p_2omi := cos_2li *. cos_2omi -. sin_2omi *. sin_2li in
      let sin_2omi_p_li := sin_li *. cos_2omi +. sin_2omi *. cos_li in
      let cos_2omi_p_li := cos_li *. cos_2omi -. sin_2omi *. sin_li in
      let term1a := d2201 *. (sin_2omi_p_li *. c_g22 -. cos_2omi_p_li *. s_g22)
                 +. d2211 *. (sin_li *. c_g22 -. cos_li *. s_g22)
                 +. d3210 *. (sin_li_p_omi *. c_g32 -. cos_li_p_omi *. s_g32)
                 +. d3222 *. (sin_li_m_omi *. c_g32 -. cos_li_m_omi *. s_g32)
                 +. d5220 *. (sin_li_p_omi *. c_g52 -. cos_li_p_omi *. s_g52)
                 +. d5232 *. (sin_li_m_omi *. c_g52 -. cos_li_m_omi *. s_g52) in
      let term2a := d4410 *. (sin_2li_p_2omi *. c_g44 -. cos_2li_p_2omi *. s_g44)
                 +. d4422 *. (sin_2li *. c_g44 -. cos_2li *. s_g44)
                 +. d5421 *. (sin_2li_p_omi *. c_g54 -. cos_2li_p_omi *. s_g54)
                 +. d5433 *. (sin_2li_m_omi *. c_g54 -. cos_2li_m_omi *. s_g54) in
      let term1b := d2201 *. (cos_2omi_p_li *. c_g22 +. sin_2omi_p_li *. s_g22)
                 +. d2211 *. (cos_li *. c_g22 +. sin_li *. s_g22)
                 +. d3210 *. (cos_li_p_omi *. c_g32 +. sin_li_p_omi *. s_g32)
                 +. d3222 *. (cos_li_m_omi *. c_g32 +. sin_li_m_omi *. s_g32)
                 +. d5220 *. (cos_li_p_omi *. c_g52 +. sin_li_p_omi *. s_g52)
                 +. d5232 *. (cos_li_m_omi *. c_g52 +. sin_li_m_omi *. s_g52) in
      let term2b := #2 *. (d4410 *. (cos_2li_p_2omi *. c_g44 +. sin_2li_p_2omi *. s_g44)
                 +. d4422 *. (cos_2li *. c_g44 +. sin_2li *. s_g44)
                 +. d5421 *. (cos_2li_p_omi *. c_g54 +. sin_2li_p_omi *. s_g54)
                 +. d5433 *. (cos_2li_m_omi *. c_g54 +. sin_2li_m_omi *. s_g54)) in
      (term1a +. term2a, term1b +. term2b)
  end.

(** deep.c:611-623: xli and xni after one step [delt] *)
Definition dpsec_step (derivs : D -> D -> D * D) (xfact delt atime xni xli : D) : D * D :=
  let '(d0, d1) := derivs xli atime in
  let xldot := xni +. xfact in
  let xli1 := xli +. delt *. xldot in
  let xni1 := xni +. delt *. d0 in
  let xlpow := #1 *. xldot in
  let d1 := d1 *. xlpow in
  let delt_factor := delt *. (delt /. #2) in
  (xli1 +. delt_factor *. d0, xni1 +. delt_factor *. d1).
(** deep.c:595-630, at most [n] turns: atime, xni, xli at the end *)
Fixpoint dpsec_loop (n : nat) (derivs : D -> D -> D * D) (xfact t atime xni xli : D) : option (D * D * D) :=
  match n with
  | O => None
  | S n =>
      let delt := t -. atime in
      let '(delt, final) :=
        if #720 <. delt then (#720, false) else if delt <. - #720 then ( - #720, false) else (delt, true) in
      let '(xli, xni) := dpsec_step derivs xfact delt atime xni xli in
      let atime := atime +. delt in
      if final : bool then Some (atime, xni, xli) else dpsec_loop n derivs xfact t atime xni xli
  end.
(** deep.c:582-593: where the integration starts *)
Definition dpsec_start (g : deep) (r : resonance) (t : D) (v : dstate) : D * D * D :=
  if c_fabs A t <. c_fabs A (t -. v_atime v) then (#0, i_xnodp A (k_start A (g_com g)), r_xlamo r)
  else (v_atime v, v_xni v, v_xli v).
(** The elements of date that pass from one part of SDP4 to the next: deep_arg's xll, omgadf, xnode, em, xinc, xn. *)
Record elems := mk_elems { y_xll : D; y_omgadf : D; y_xnode : D; y_em : D; y_xinc : D; y_xn : D }.
(** deep.c:563-639 *)
Definition Deep_dpsec (n : nat) (t : dorb) (g : deep) (tsince : D) (y : elems) (v : dstate) : option (elems * dstate) :=
  let xll := y_xll y +. g_ssl g *. tsince in
  let omgadf := y_omgadf y +. g_ssg g *. tsince in
  let xnode := y_xnode y +. g_ssh g *. tsince in
  let em := o_eo A (d_orb t) +. g_sse g *. tsince in
  let xinc := o_xincl A (d_orb t) +. g_ssi g *. tsince in
  match g_res g with
  | None => Some (mk_elems xll omgadf xnode em xinc (y_xn y), v)
  | Some r =>
      let '(atime, xni, xli) := dpsec_start g r tsince v in
      let derivs := compute_dpsec_derivs (g_omegaq g) (k_omgdot A (g_com g)) (r_coefs r) in
      match dpsec_loop n derivs (r_xfact r) tsince atime xni xli with
      | None => None
      | Some (atime, xni, xli) =>
          let temp := - xnode +. g_thgr g +. tsince *. thdt in
          let xll := xli +. temp +. (match r_coefs r with Synchronous _ _ _ => - omgadf | Half _ _ _ _ _ _ _ _ _ _ => temp end) in
          Some (mk_elems xll omgadf xnode em xinc xni, mk_dstate atime xni xli (v_savtsn v) (v_perts v))
      end
  end.

(** deep.c:659-668, 671-680: the five sums for one body, with phase zm and eccentricity ze *)
Definition body_perts (q : amps) (zm ze : D) : perts :=
  let zf := zm +. #2 *. ze *. c_sin A zm in
  let sinzf := c_sin A zf in
  let f2 := (cst A 5 10) *. sinzf *. sinzf -. (cst A 25 100) in
  let f3 := - (cst A 5 10) *. sinzf *. c_cos A zf in
  mk_perts (q_e2 q *. f2 +. q_e3 q *. f3) (q_i2 q *. f2 +. q_i3 q *. f3) (q_l2 q *. f2 +. q_l3 q *. f3 +. q_l4 q *. sinzf)
    (q_gh2 q *. f2 +. q_gh3 q *. f3 +. q_gh4 q *. sinzf) (q_h2 q *. f2 +. q_h3 q *. f3).
(** deep.c:658-687 *)
Definition perts_at (g : deep) (t : D) : perts :=
  let s := body_perts (g_sun g) (g_zmos g +. zns_per_min *. t) zes in
  let l := body_perts (g_moon g) (g_zmol g +. znl_per_min *. t) zel in
  mk_perts (e_pe s +. e_pe l) (e_pinc s +. e_pinc l) (e_pl s +. e_pl l) (e_pgh s +. e_pgh l) (e_ph s +. e_ph l).
(** deep.c:651-657: the perturbations used, and the state after *)
Definition refresh (g : deep) (t : D) (v : dstate) : dstate :=
  if #30 <=. c_fabs A (v_savtsn v -. t) then mk_dstate (v_atime v) (v_xni v) (v_xli v) t (Some (perts_at g t)) else v.
(** deep.c:711-765 *)
Definition apply_perts (incl : D) (p : perts) (y : elems) : elems :=
  let xinc := y_xinc y +. e_pinc p in
  let sinis := c_sin A xinc in
  let cosis := c_cos A xinc in
  let em := y_em y +. e_pe p in
  let xll := y_xll y +. e_pl p in
  let omgadf := y_omgadf y +. e_pgh p in
  if (cst A 2 10) <=. incl then
    let temp_val := e_ph p /. sinis in
    mk_elems xll (omgadf -. cosis *. temp_val) (y_xnode y +. temp_val) em xinc (y_xn y)
  else
    let sinok := c_sin A (y_xnode y) in
    let cosok := c_cos A (y_xnode y) in
    let alfdp := e_ph p *. cosok +. (e_pinc p *. cosis +. sinis) *. sinok in
    let betdp := - e_ph p *. sinok +. (e_pinc p *. cosis +. sinis) *. cosok in
    let delta_xnode := c_atan2 A alfdp betdp -. y_xnode y in
    let delta_xnode :=
      if delta_xnode <. - pi then delta_xnode +. twopi
      else if pi <. delta_xnode then delta_xnode -. twopi else delta_xnode in
    let dls := - y_xnode y *. sinis *. e_pinc p in
    mk_elems xll (omgadf +. (dls -. cosis *. delta_xnode)) (y_xnode y +. delta_xnode) em xinc (y_xn y).
(** deep.c:641-766 *)
Definition Deep_dpper (t : dorb) (g : deep) (tsince : D) (y : elems) (v : dstate) : res (elems * dstate) :=
  let v := refresh g tsince v in
  match v_perts v with
  | None => UB Uninit
  | Some p => Ok (apply_perts (o_xincl A (d_orb t)) p y, v)
  end.

(** ** sdp4.c: the numerical integration for ephemeris type 'H' *)
Definition vec4 : Type := (D * D * D * D)%type.
(** sdp4.c:32-84 *)
Definition lunar_solar_position (jd : D) : vec4 * vec4 :=
  let t_cen := (jd -. #2451545) /. #36525 in
  let l_prime := (cst A 2183164477 10000000) *. pi /. #180 +. ((cst A 48126788123421 100000000) *. pi /. #180) *. t_cen in
  let m_prime := (cst A 1349633964 10000000) *. pi /. #180 +. ((cst A 4771988675055 10000000) *. pi /. #180) *. t_cen in
  let l_solar := (cst A 28046646 100000) *. pi /. #180 +. ((cst A 3600076983 100000) *. pi /. #180) *. t_cen in
  let m_solar := (cst A 3575291092 10000000) *. pi /. #180 +. ((cst A 359990502909 10000000) *. pi /. #180) *. t_cen in
  let f := (cst A 932720950 10000000) *. pi /. #180 +. ((cst A 4832020175233 10000000) *. pi /. #180) *. t_cen in
  let lunar_mean_elong := ((cst A 2978501921 10000000) *. pi /. #180) +. ((cst A 4452671114034 10000000) *. pi /. #180) *. t_cen in
  let term2 := #2 *. lunar_mean_elong -. m_prime in
  let lunar_lon := l_prime
     +. ((cst A 6288774 1000000) *. pi /. #180) *. c_sin A m_prime
     +. ((cst A 1274027 1000000) *. pi /. #180) *. c_sin A term2
     +. ((cst A 658314 1000000) *. pi /. #180) *. c_sin A (#2 *. lunar_mean_elong)
     +. ((cst A 213618 1000000) *. pi /. #180) *. c_sin A (#2 *. m_prime)
     -. ((cst A 185166 1000000) *. pi /. #180) *. c_sin A m_solar
     -. ((cst A 114332 1000000) *. pi /. #180) *. c_sin A (#2 *. f) in
  let lunar_lat := ((cst A 5128122 1000000) *. pi /. #180) *. c_sin A f
     +. ((cst A 280602 1000000) *. pi /. #180) *. c_sin A (m_prime +. f)
     +. ((cst A 277693 1000000) *. pi /. #180) *. c_sin A (m_prime -. f)
     +. ((cst A 173237 1000000) *. pi /. #180) *. c_sin A (#2 *. lunar_mean_elong -. f) in
  let lunar_r := #385000560
     -. #20905355 *. c_cos A m_prime
     -. #3699111 *. c_cos A term2
     -. #2955968 *. c_cos A (#2 *. lunar_mean_elong)
     -. #569925 *. c_cos A (#2 *. m_solar) in
  let solar_ecc := (cst A 16708634 1000000000) in
  let solar_lon := l_solar +. ((cst A 1914602 1000000) *. pi /. #180) *. c_sin A m_solar in
  let solar_r := (cst A 149597870700 1) *. (#1 -. solar_ecc *. c_cos A m_solar) in
  let tval := lunar_r *. c_cos A lunar_lat in
  ((tval *. c_cos A lunar_lon, tval *. c_sin A lunar_lon, lunar_r *. c_sin A lunar_lat, lunar_r),
   (solar_r *. c_cos A solar_lon, solar_r *. c_sin A solar_lon, #0, solar_r)).
(** sdp4.c:86-103: the static variables curr_jd, lunar, solar *)
Record cache := mk_cache { h_jd : D; h_lunar : vec4; h_solar : vec4 }.
Definition cache0 : cache := mk_cache #0 (#0, #0, #0, #0) (#0, #0, #0, #0).
Definition cached_lunar_solar_position (h : cache) (jd : D) : cache * (vec4 * vec4) :=
  let h := if negb (eqn A (h_jd h) jd) then let '(l, s) := lunar_solar_position jd in mk_cache jd l s else h in
  (h, (h_lunar h, h_solar h)).

(** sdp4.c:105-126 *)
Definition sin_obliq_2000 : D := (cst A 397777155931913701597179975942380896684 1000000000000000000000000000000000000000).
Definition cos_obliq_2000 : D := (cst A 917482062069181825744000384639406458043 1000000000000000000000000000000000000000).
Definition equatorial_to_ecliptic (v : vect A) : vect A :=
  let '(x, y, z) := v in
  (x, y *. cos_obliq_2000 +. z *. sin_obliq_2000, z *. cos_obliq_2000 -. y *. sin_obliq_2000).
Definition ecliptic_to_equatorial (v : vect A) : vect A :=
  let '(x, y, z) := v in
  (x, y *. cos_obliq_2000 -. z *. sin_obliq_2000, z *. cos_obliq_2000 +. y *. sin_obliq_2000).
(** sdp4.c:128-137: the six members of tle_t from xincl on, read as an array *)
Definition state6 : Type := (vect A * vect A)%type.
Definition init_high_ephemeris (o : orb A) : state6 :=
  (equatorial_to_ecliptic (o_xincl A o, o_xnodeo A o, o_eo A o), equatorial_to_ecliptic (o_omegao A o, o_xmo A o, o_xno A o)).
(** sdp4.c:169-174 *)
Definition vector_len (v : vect A) : D := let '(x, y, z) := v in c_sqrt A (x *. x +. y *. y +. z *. z).
(** sdp4.c:191-207: the contribution of one body subtracted from the acceleration *)
Definition pull (gm : D) (opos : vec4) (pos accel : vect A) : vect A :=
  let '(ox, oy, oz, od) := opos in
  let '(x, y, z) := pos in
  let '(ax, ay, az) := accel in
  let accel_factor := gm /. (od *. od *. od) in
  let '(dx, dy, dz) := (ox -. x, oy -. y, oz -. z) in
  let d := vector_len (dx, dy, dz) in
  let accel_factor2 := gm /. (d *. d *. d) in
  (ax -. (accel_factor *. ox -. accel_factor2 *. dx), ay -. (accel_factor *. oy -. accel_factor2 *. dy),
   az -. (accel_factor *. oz -. accel_factor2 *. dz)).
(** sdp4.c:178-210 *)
Definition calc_accel (h : cache) (jd : D) (pos : vect A) : cache * vect A :=
  let r := vector_len pos in
  let accel_factor := - (cst A 398600440000000 1) /. (r *. r *. r) in
  let '(x, y, z) := pos in
  let accel := (accel_factor *. x, accel_factor *. y, accel_factor *. z) in
  let '(h, (lunar, solar)) := cached_lunar_solar_position h jd in
  let accel := pull (cst A 132712439940000000000 1) solar pos accel in
  (h, pull (cst A 4902798000000 1) lunar pos accel).
(** sdp4.c:212-219 *)
Definition calc_state_vector_deriv (h : cache) (jd : D) (s : state6) : cache * state6 :=
  let '(h, a) := calc_accel h jd (fst s) in (h, (snd s, a)).
(** state + step * k, component by component (sdp4.c:253-254) *)
Definition along (step : D) (s k : vect A) : vect A :=
  let '(x, y, z) := s in let '(a, b, c) := k in (x +. step *. a, y +. step *. b, z +. step *. c).
Definition along6 (step : D) (s k : state6) : state6 := (along step (fst s) (fst k), along step (snd s) (snd k)).
(** sdp4.c:259-261, for one component and for all *)
Definition mix1 (w s k0 k1 k2 k3 : D) : D := s +. w *. (k0 +. #2 *. (k1 +. k2) +. k3).
Definition mix (w : D) (s k0 k1 k2 k3 : vect A) : vect A :=
  let '(x, y, z) := s in
  let '(a0, b0, c0) := k0 in let '(a1, b1, c1) := k1 in let '(a2, b2, c2) := k2 in let '(a3, b3, c3) := k3 in
  (mix1 w x a0 a1 a2 a3, mix1 w y b0 b1 b2 b3, mix1 w z c0 c1 c2 c3).
Definition mix6 (w : D) (s k0 k1 k2 k3 : state6) : state6 :=
  (mix w (fst s) (fst k0) (fst k1) (fst k2) (fst k3), mix w (snd s) (snd k0) (snd k1) (snd k2) (snd k3)).
(** sdp4.c:246-261: the state after a step of [dt] days *)
Definition high_step (h : cache) (jd dt : D) (s : state6) : cache * state6 :=
  let dt_in_seconds := dt *. (#60 *. minutes_per_day) in
  let '(h, k0) := calc_state_vector_deriv h jd s in
  let '(h, k1) := calc_state_vector_deriv h (jd +. dt /. #2) (along6 (dt_in_seconds *. (cst A 5 10)) s k0) in
  let '(h, k2) := calc_state_vector_deriv h (jd +. dt /. #2) (along6 (dt_in_seconds *. (cst A 5 10)) s k1) in
  let '(h, k3) := calc_state_vector_deriv h (jd +. dt) (along6 dt_in_seconds s k2) in
  (h, mix6 (dt_in_seconds /. #6) s k0 k1 k2 k3).
(** sdp4.c:237-264, at most [n] turns; tsince in days *)
Fixpoint high_loop (n : nat) (h : cache) (jd tsince : D) (s : state6) : option (cache * state6) :=
  if eqn A tsince #0 then Some (h, s)
  else
    match n with
    | O => None
    | S n =>
        let dt := if #1 <. tsince then #1 else if tsince <. - #1 then - #1 else tsince in
        let '(h, s) := high_step h jd dt s in
        high_loop n h (jd +. dt) (tsince -. dt) s
    end.
(** sdp4.c:265-277: kilometres, kilometres per minute *)
Definition to_km (v : vect A) : vect A := let '(x, y, z) := v in (x /. #1000, y /. #1000, z /. #1000).
Definition to_km_min (v : vect A) : vect A :=
  let '(x, y, z) := v in (x *. (#60 /. #1000), y *. (#60 /. #1000), z *. (#60 /. #1000)).
(** sdp4.c:224-279 *)
Definition high_ephemeris (n : nat) (h : cache) (tsince epoch : D) (params : state6) : option (cache * (vect A * vect A)) :=
  match high_loop n h epoch (tsince /. minutes_per_day) params with
  | None => None
  | Some (h, s) => Some (h, (to_km (ecliptic_to_equatorial (fst s)), to_km_min (ecliptic_to_equatorial (snd s))))
  end.

(** ** SDP4_init, SDP4 *)
(** sdp4.c:145-166 (type 72 is 'H') *)
Inductive sdp_params := High (s : state6) | Deep (g : deep).
Definition SDP4_init (t : dorb) : sdp_params :=
  if o_type A (d_orb t) =? 72 then High (init_high_ephemeris (d_orb t)) else Deep (Deep_dpinit t (sxpx_common_init A (d_orb t))).
(** What a call leaves: the return code -5 with position and velocity not written, or the code, the position and the velocity. *)
Inductive sdp_out := NegativeXn | Placed (p : place A).
(** sdp4.c:293-338; [None] when Deep_dpsec has not ended within [n] turns *)
Definition SDP4_deep (n : nat) (tsince : D) (t : dorb) (g : deep) (v : dstate) : res (option (dstate * sdp_out)) :=
  let o := d_orb t in
  let k := g_com g in
  let omgadf := o_omegao A o +. k_omgdot A k *. tsince in
  let xnoddf := o_xnodeo A o +. k_xnodot A k *. tsince in
  let tsince_squared := tsince *. tsince in
  let xnode := xnoddf +. k_xnodcf A k *. tsince_squared in
  let xnodp := i_xnodp A (k_start A k) in
  let xll := o_xmo A o +. k_xmdot A k *. tsince in
  match Deep_dpsec n t g tsince (mk_elems xll omgadf xnode #0 #0 xnodp) v with
  | None => Ok None
  | Some (y, v) =>
      let tempa := #1 -. k_c1 A k *. tsince in
      if y_xn y <. #0 then Ok (Some (v, NegativeXn))
      else
        let a := c_pow A (xke A /. y_xn y) (two_thirds A) *. tempa *. tempa in
        let em := y_em y -. o_bstar A o *. k_c4 A k *. tsince in
        let xll := y_xll y +. xnodp *. k_t2cof A k *. tsince_squared in
        r <- Deep_dpper t g tsince (mk_elems xll (y_omgadf y) (y_xnode y) em (y_xinc y) (y_xn y)) v ;;
        let '(y, v) := r in
        let xl := y_xll y +. y_omgadf y +. y_xnode y in
        Ok (Some (v, Placed (sxpx_posn_vel A (y_xnode y) a (y_em y) (c_cos A (y_xinc y)) (c_sin A (y_xinc y)) (y_xinc y) (y_omgadf y) xl)))
  end.
(** sdp4.c:281-292 *)
Definition SDP4 (n : nat) (tsince : D) (t : dorb) (p : sdp_params) (v : dstate) (h : cache) : res (option (dstate * cache * sdp_out)) :=
  match p with
  | High s =>
      Ok (match high_ephemeris n h tsince (d_epoch t) s with
          | None => None
          | Some (h, (pos, vel)) => Some (v, h, Placed (mk_place A 0 pos vel))
          end)
  | Deep g =>
      r <- SDP4_deep n tsince t g v ;;
      Ok (match r with None => None | Some (v, out) => Some (v, h, out) end)
  end.
End Deep.
