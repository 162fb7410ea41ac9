(** The propagator SGP: sgp.c. *)
From Coq Require Import ZArith List Bool.
From Verif Require Import CLib ArithModel OrbModel.
Import ListNotations.
Open Scope Z_scope.

Section Sgp.
Context (A : arith).
Local Notation D := (num A).
Local Infix "+." := (add A) (at level 50, left associativity).
Local Infix "-." := (sub A) (at level 50, left associativity).
Local Infix "*." := (mul A) (at level 40, left associativity).
Local Infix "/." := (div A) (at level 40, left associativity).
Local Infix "<." := (ltn A) (at level 70).
Local Notation "# n" := (int A n) (at level 1).
Local Notation "- x" := (opp A x).
Local Notation two_thirds := (two_thirds A).
Local Notation ck2 := (ck2 A).

(** norad_in.h:75, 77 *)
Definition e6a : D := cst A 1 1000000.
Definition xj3 : D := - cst A 253881 100000000000.

(** sgp.c:22-61: params[0]-[10]. *)
Record par := mk_par { s_ao : D; s_qo : D; s_xlo : D; s_d1o : D; s_d2o : D; s_d3o : D; s_d4o : D; s_omgdt : D; s_xnodot : D; s_c5 : D; s_c6 : D }.
Definition SGP_init (t : orb A) : par :=
  let c1 := ck2 *. cst A 15 10 in
  let c2 := ck2 /. #4 in
  let c3 := ck2 /. #2 in
  let r1 := ae A in
  let c4 := xj3 *. (r1 *. (r1 *. r1)) /. (ck2 *. #4) in
  let cosio := c_cos A (o_xincl A t) in
  let sinio := c_sin A (o_xincl A t) in
  let a1 := c_pow A (xke A /. o_xno A t) two_thirds in
  let d1 := c1 /. a1 /. a1 *. (cosio *. #3 *. cosio -. #1) /. c_pow A (#1 -. o_eo A t *. o_eo A t) (cst A 15 10) in
  let ao := a1 *. (#1 -. d1 *. cst A 33333333333333331 100000000000000000 -. d1 *. d1 -. d1 *.
                            cst A 1654320987654321 1000000000000000 *. d1 *. d1) in
  let po := ao *. (#1 -. o_eo A t *. o_eo A t) in
  let qo := ao *. (#1 -. o_eo A t) in
  let xlo := o_xmo A t +. o_omegao A t +. o_xnodeo A t in
  let d1o := c3 *. sinio *. sinio in
  let d2o := c2 *. (cosio *. #7 *. cosio -. #1) in
  let d3o := c1 *. cosio in
  let d4o := d3o *. sinio in
  let po2no := o_xno A t /. (po *. po) in
  let omgdt := c1 *. po2no *. (cosio *. #5 *. cosio -. #1) in
  let xnodot := d3o *. #(-2) *. po2no in
  let c5 := c4 *. cst A 5 10 *. sinio *. (cosio *. #5 +. #3) /. (cosio +. #1) in
  let c6 := c4 *. sinio in
  mk_par ao qo xlo d1o d2o d3o d4o omgdt xnodot c5 c6.

(** sgp.c:115-133: Kepler's equation; sineo1 and coseo1 after at most [n]+1 turns. *)
Fixpoint kepler_sgp (n : nat) (u axnsl aynsl eo1 tem5 : D) : D * D :=
  let sineo1 := c_sin A eo1 in
  let coseo1 := c_cos A eo1 in
  if c_fabs A tem5 <. e6a then (sineo1, coseo1)
  else
    let tem5 := #1 -. coseo1 *. axnsl -. sineo1 *. aynsl in
    let tem5 := (u -. aynsl *. coseo1 +. axnsl *. sineo1 -. eo1) /. tem5 in
    let tem2 := c_fabs A tem5 in
    let tem5 := if #1 <. tem2 then tem2 /. tem5 else tem5 in
    match n with O => (sineo1, coseo1) | S n => kepler_sgp n u axnsl aynsl (eo1 +. tem5) tem5 end.

(** sgp.c:102-183, from the elements at the date (the pointer [vel] is not NULL). *)
Definition place_sgp (xincl : D) (q : par) (a e xnodes omgas xls : D) : vect A * vect A :=
  let p := a *. (#1 -. e *. e) in
  let axnsl := e *. c_cos A omgas in
  let aynsl := e *. c_sin A omgas -. s_c6 q /. p in
  let r1 := xls -. s_c5 q /. p *. axnsl in
  let xl := FMod2p A r1 in
  let r1 := xl -. xnodes in
  let u := FMod2p A r1 in
  let '(sineo1, coseo1) := kepler_sgp 10 u axnsl aynsl u #1 in
  let ecose := axnsl *. coseo1 +. aynsl *. sineo1 in
  let esine := axnsl *. sineo1 -. aynsl *. coseo1 in
  let el2 := axnsl *. axnsl +. aynsl *. aynsl in
  let pl := a *. (#1 -. el2) in
  let pl2 := pl *. pl in
  let rr := a *. (#1 -. ecose) in
  let rdot := xke A *. c_sqrt A a /. rr *. esine in
  let rvdot := xke A *. c_sqrt A pl /. rr in
  let temp := esine /. (c_sqrt A (#1 -. el2) +. #1) in
  let sinu := a /. rr *. (sineo1 -. aynsl -. axnsl *. temp) in
  let cosu := a /. rr *. (coseo1 -. axnsl +. aynsl *. temp) in
  let su := c_atan2 A sinu cosu in
  let sin2u := (cosu +. cosu) *. sinu in
  let cos2u := #1 -. #2 *. sinu *. sinu in
  let rk := rr +. s_d1o q /. pl *. cos2u in
  let uk := su -. s_d2o q /. pl2 *. sin2u in
  let xnodek := xnodes +. s_d3o q *. sin2u /. pl2 in
  let xinck := xincl +. s_d4o q /. pl2 *. cos2u in
  let sinuk := c_sin A uk in
  let cosuk := c_cos A uk in
  let sinnok := c_sin A xnodek in
  let cosnok := c_cos A xnodek in
  let sinik := c_sin A xinck in
  let cosik := c_cos A xinck in
  let xmx := - sinnok *. cosik in
  let xmy := cosnok *. cosik in
  let ux := xmx *. sinuk +. cosnok *. cosuk in
  let uy := xmy *. sinuk +. sinnok *. cosuk in
  let uz := sinik *. sinuk in
  let vx := xmx *. cosuk -. cosnok *. sinuk in
  let vy := xmy *. cosuk -. sinnok *. sinuk in
  let vz := sinik *. cosuk in
  let km := earth_radius_in_km A in
  ((rk *. ux *. km, rk *. uy *. km, rk *. uz *. km),
   ((rdot *. ux +. rvdot *. vx) *. km, (rdot *. uy +. rvdot *. vy) *. km, (rdot *. uz +. rvdot *. vz) *. km)).

(** sgp.c:64-184; [xndt2o] and [xndd6o] are the fields of tle_t that only SGP reads. *)
Definition SGP (tsince : D) (t : orb A) (xndt2o xndd6o : D) (q : par) : place A :=
  let a := o_xno A t +. (xndt2o *. #2 +. xndd6o *. #3 *. tsince) *. tsince in
  let rval := if a <. #0 then -2 else 0 in
  let e := e6a in
  let rval := if #1 -. cst A 1 1000000 <. e then -1 else rval in
  if negb (rval =? 0) then mk_place A rval (zero A) (zero A)
  else
    let a := s_ao q *. c_pow A (o_xno A t /. a) two_thirds in
    let rval := if (a *. (#1 -. e) <. #1) && (a *. (#1 +. e) <. #1) then -3 else rval in
    let rval := if (a *. (#1 -. e) <. #1) || (a *. (#1 +. e) <. #1) then -4 else rval in
    let e := if s_qo q <. a then #1 -. s_qo q /. a else e in
    let xnodes := o_xnodeo A t +. s_xnodot q *. tsince in
    let omgas := o_omegao A t +. s_omgdt q *. tsince in
    let r1 := s_xlo q +. (o_xno A t +. s_omgdt q +. s_xnodot q +. (xndt2o +. xndd6o *. tsince) *. tsince) *. tsince in
    let xls := FMod2p A r1 in
    let '(pos, vel) := place_sgp (o_xincl A t) q a e xnodes omgas xls in
    mk_place A rval pos vel.

End Sgp.
