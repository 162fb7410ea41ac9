(** The near-Earth propagator: common.c, sgp4.c and the choice of the model in basics.c. *)
From Coq Require Import ZArith List Bool.
From Verif Require Import CLib ArithModel.
Import ListNotations.
Open Scope Z_scope.

Section Orb.
Context (A : arith).
Let D := num A.
Local Infix "+." := (add A) (at level 50, left associativity).
Local Infix "-." := (sub A) (at level 50, left associativity).
Local Infix "*." := (mul A) (at level 40, left associativity).
Local Infix "/." := (div A) (at level 40, left associativity).
Local Infix "<." := (ltn A) (at level 70).
Local Infix "<=." := (len A) (at level 70).
Local Notation "# n" := (int A n) (at level 1).
Local Notation "- x" := (opp A x).

(** norad_in.h:73-101 *)
Definition o_pi : D := c_pi A.
Definition o_twopi : D := o_pi *. #2.
Definition two_thirds : D := #2 /. #3.
Definition minus_xj3 : D := cst A 253881 100000000000.
Definition earth_radius_in_km : D := cst A 6378135 1000.
Definition ae : D := #1.
Definition xj2 : D := cst A 1082616 1000000000.
Definition ck2 : D := cst A 5 10 *. xj2 *. ae *. ae.
Definition xj4 : D := - (cst A 165597 100000000000).
Definition ck4 : D := - (cst A 375 1000) *. xj4 *. ae *. ae *. ae *. ae.
Definition s_const : D := ae *. (#1 +. #78 /. earth_radius_in_km).
Definition qoms2t : D := cst A 1880279159015270643865 1000000000000000000000000000000.
Definition xke : D := cst A 743669161331734132 10000000000000000000.
Definition a3ovk2 : D := minus_xj3 /. ck2 *. ae *. ae *. ae.

(** The fields of tle_t (norad.h (struct tle_t)) that the propagators read. *)
Record orb := mk_orb { o_bstar : D; o_xincl : D; o_xnodeo : D; o_eo : D; o_omegao : D; o_xmo : D; o_xno : D; o_type : Z }.

(** basics.c:25-32 *)
Definition FMod2p (x : D) : D :=
  let rval := c_fmod A x o_twopi in
  if rval <. #0 then rval +. o_twopi else rval.
(** common.c:118-127 *)
Definition centralize_angle (ival : D) : D :=
  let rval := c_fmod A ival o_twopi in
  if o_pi <. rval then rval -. o_twopi
  else if rval <. - o_pi then rval +. o_twopi
  else rval.

(** common.c:32-50: cosio, cosio2, eosq, betao2, betao, xnodp, aodp of deep_arg. *)
Record start_t := mk_start { i_cosio : D; i_cosio2 : D; i_eosq : D; i_betao2 : D; i_betao : D; i_xnodp : D; i_aodp : D }.
Definition sxpall_common_init (t : orb) : start_t :=
  let a1 := c_pow A (xke /. o_xno t) two_thirds in
  let cosio := c_cos A (o_xincl t) in
  let cosio2 := cosio *. cosio in
  let eosq := o_eo t *. o_eo t in
  let betao2 := #1 -. eosq in
  let betao := c_sqrt A betao2 in
  let tval := cst A 15 10 *. ck2 *. (#3 *. cosio2 -. #1) /. (betao *. betao2) in
  let del1 := tval /. (a1 *. a1) in
  let ao := a1 *. (#1 -. del1 *. (#1 /. #3 +. del1 *. (#1 +. #134 /. #81 *. del1))) in
  let delo := tval /. (ao *. ao) in
  mk_start cosio cosio2 eosq betao2 betao (o_xno t /. (#1 +. delo)) (ao /. (#1 -. delo)).

(** basics.c:48-75 *)
Definition select_ephemeris (t : orb) : Z :=
  if o_type t =? 104 then 1
  else if (o_xno t <=. #0) || (#1 <. o_eo t) || (o_eo t <. #0) then -1
  else if (o_type t =? 50) || (o_type t =? 52) then 0
  else if (o_type t =? 51) || (o_type t =? 53) then 1
  else if #225 <=. o_twopi /. i_xnodp (sxpall_common_init t) then 1 else 0.

(** common.c:52-116: init_t, the fields of deep_arg and params[0], [2]-[5] that are written. *)
Record common_t := mk_common {
  k_start : start_t; k_s4 : D; k_tsi : D; k_eta : D; k_coef : D; k_coef1 : D; k_c2 : D; k_c1 : D; k_sinio : D; k_c4 : D;
  k_xmdot : D; k_omgdot : D; k_xnodot : D; k_xnodcf : D; k_t2cof : D }.
Definition sxpx_common_init (t : orb) : common_t :=
  let d := sxpall_common_init t in
  let x3thm1 := #3 *. i_cosio2 d -. #1 in
  let perige := (i_aodp d *. (#1 -. o_eo t) -. ae) *. earth_radius_in_km in
  let '(s4, qoms24) :=
    if perige <. #156 then
      let s4 := if perige <=. #98 then #20 else perige -. #78 in
      let temp_val := (#120 -. s4) *. ae /. earth_radius_in_km in
      let temp_val_squared := temp_val *. temp_val in
      (s4 /. earth_radius_in_km +. ae, temp_val_squared *. temp_val_squared)
    else (s_const, qoms2t) in
  let pinv := #1 /. (i_aodp d *. i_betao2 d) in
  let pinvsq := pinv *. pinv in
  let tsi := #1 /. (i_aodp d -. s4) in
  let eta := i_aodp d *. o_eo t *. tsi in
  let etasq := eta *. eta in
  let eeta := o_eo t *. eta in
  let psisq := c_fabs A (#1 -. etasq) in
  let tsi_squared := tsi *. tsi in
  let coef := qoms24 *. tsi_squared *. tsi_squared in
  let coef1 := coef /. c_pow A psisq (cst A 35 10) in
  let c2 := coef1 *. i_xnodp d *. (i_aodp d *. (#1 +. cst A 15 10 *. etasq +. eeta *. (#4 +. etasq))
            +. cst A 75 100 *. ck2 *. tsi /. psisq *. x3thm1 *. (#8 +. #3 *. etasq *. (#8 +. etasq))) in
  let c1 := o_bstar t *. c2 in
  let sinio := c_sin A (o_xincl t) in
  let c4 := #2 *. i_xnodp d *. coef1 *. i_aodp d *. i_betao2 d *.
        (eta *. (#2 +. cst A 5 10 *. etasq) +. o_eo t *. (cst A 5 10 +. #2 *. etasq) -. #2 *. ck2 *. tsi /.
        (i_aodp d *. psisq) *. (#(-3) *. x3thm1 *. (#1 -. #2 *. eeta +. etasq *.
        (cst A 15 10 -. cst A 5 10 *. eeta)) +. cst A 75 100 *. (#1 -. i_cosio2 d) *. (#2 *. etasq -. eeta *. (#1 +. etasq)) *.
        c_cos A (#2 *. o_omegao t))) in
  let cosio4 := i_cosio2 d *. i_cosio2 d in
  let temp1 := #3 *. ck2 *. pinvsq *. i_xnodp d in
  let temp2 := temp1 *. ck2 *. pinvsq in
  let temp3 := cst A 125 100 *. ck4 *. pinvsq *. pinvsq *. i_xnodp d in
  let xmdot := i_xnodp d +. temp1 *. i_betao d *. x3thm1 /. #2
            +. temp2 *. i_betao d *. (#13 -. #78 *. i_cosio2 d +. #137 *. cosio4) /. #16 in
  let omgdot := - temp1 *. (#1 -. #5 *. i_cosio2 d) /. #2
              +. temp2 *. (#7 -. #114 *. i_cosio2 d +. #395 *. cosio4) /. #16
              +. temp3 *. (#3 -. #36 *. i_cosio2 d +. #49 *. cosio4) in
  let xhdot1 := - temp1 *. i_cosio d in
  let xnodot := xhdot1 +. (temp2 *. (#4 -. #19 *. i_cosio2 d) /. #2
           +. #2 *. temp3 *. (#3 -. #7 *. i_cosio2 d)) *. i_cosio d in
  mk_common d s4 tsi eta coef coef1 c2 c1 sinio c4 xmdot omgdot xnodot
    (cst A 35 10 *. i_betao2 d *. xhdot1 *. c1) (cst A 15 10 *. c1).

(** common.c:131-279: the result code, the position and the velocity (the pointer [vel] is not NULL).
    First the Kepler loop, common.c:190-223: [None] after MAX_KEPLER_ITER turns. *)
Fixpoint kepler (n : nat) (first : bool) (axn ayn capu ecc epw : D) : option D :=
  match n with
  | O => None
  | S n =>
      let sinEPW := c_sin A epw in
      let cosEPW := c_cos A epw in
      let ecosE := axn *. cosEPW +. ayn *. sinEPW in
      let esinE := axn *. sinEPW -. ayn *. cosEPW in
      let f := capu -. epw +. esinE in
      if c_fabs A f <. cst A 1 1000000000000 then Some epw
      else
        let fdot := #1 -. ecosE in
        let delta := f /. fdot in
        let '(delta, second) :=
          if first then
            let m := cst A 125 100 *. c_fabs A ecc in
            if m <. delta then (m, false)
            else if delta <. - m then (- m, false)
            else (delta, true)
          else (delta, true) in
        let delta := if second : bool then f /. (fdot +. cst A 5 10 *. esinE *. delta) else delta in
        kepler n false axn ayn capu ecc (epw +. delta)
  end.
Definition vect : Type := (D * D * D)%type.
Definition zero : vect := (#0, #0, #0).
Record place := mk_place { pl_code : Z; pl_pos : vect; pl_vel : vect }.
Definition sxpx_posn_vel (xnode a ecc cosio sinio xincl omega xl : D) : place :=
  let axn := ecc *. c_cos A omega in
  let temp := #1 /. (a *. (#1 -. ecc *. ecc)) in
  let xlcof := cst A 125 1000 *. a3ovk2 *. sinio *. (#3 +. #5 *. cosio) /. (#1 +. cosio) in
  let aycof := cst A 25 100 *. a3ovk2 *. sinio in
  let xll := temp *. xlcof *. axn in
  let aynl := temp *. aycof in
  let xlt := xl +. xll in
  let ayn := ecc *. c_sin A omega +. aynl in
  let elsq := axn *. axn +. ayn *. ayn in
  let capu := centralize_angle (xlt -. xnode) in
  let cosio_squared := cosio *. cosio in
  let x3thm1 := #3 *. cosio_squared -. #1 in
  let sinio2 := #1 -. cosio_squared in
  let x7thm1 := #7 *. cosio_squared -. #1 in
  let rval := if a <. #0 then -2 else 0 in
  let rval := if #1 -. cst A 1 1000000 <. elsq then -1 else rval in
  if negb (rval =? 0) then mk_place rval zero zero
  else
  let rval := if (a *. (#1 -. ecc) <. #1) && (a *. (#1 +. ecc) <. #1) then -3 else rval in
  let rval := if (a *. (#1 -. ecc) <. #1) || (a *. (#1 +. ecc) <. #1) then -4 else rval in
  match kepler 10 true axn ayn capu ecc capu with
  | None => mk_place (-6) zero zero
  | Some epw =>
      let sinEPW := c_sin A epw in
      let cosEPW := c_cos A epw in
      let ecosE := axn *. cosEPW +. ayn *. sinEPW in
      let esinE := axn *. sinEPW -. ayn *. cosEPW in
      let temp := #1 -. elsq in
      let pl := a *. temp in
      let r := a *. (#1 -. ecosE) in
      let temp2 := a /. r in
      let betal := c_sqrt A temp in
      let temp := esinE /. (#1 +. betal) in
      let cosu := temp2 *. (cosEPW -. axn +. ayn *. temp) in
      let sinu := temp2 *. (sinEPW -. ayn -. axn *. temp) in
      let u := c_atan2 A sinu cosu in
      let sin2u := #2 *. sinu *. cosu in
      let cos2u := #2 *. cosu *. cosu -. #1 in
      let temp1 := ck2 /. pl in
      let temp2 := temp1 /. pl in
      let rk := r *. (#1 -. cst A 15 10 *. temp2 *. betal *. x3thm1) +. cst A 5 10 *. temp1 *. sinio2 *. cos2u in
      let uk := u -. cst A 25 100 *. temp2 *. x7thm1 *. sin2u in
      let xnodek := xnode +. cst A 15 10 *. temp2 *. cosio *. sin2u in
      let xinck := xincl +. cst A 15 10 *. temp2 *. cosio *. sinio *. cos2u in
      let sinuk := c_sin A uk in
      let cosuk := c_cos A uk in
      let sinik := c_sin A xinck in
      let cosik := c_cos A xinck in
      let sinnok := c_sin A xnodek in
      let cosnok := c_cos A xnodek in
      let xmx := - sinnok *. cosik in
      let xmy := cosnok *. cosik in
      let ux := xmx *. sinuk +. cosnok *. cosuk in
      let uy := xmy *. sinuk +. sinnok *. cosuk in
      let uz := sinik *. sinuk in
      let rdot := xke *. c_sqrt A a *. esinE /. r in
      let rfdot := xke *. c_sqrt A pl /. r in
      let xn := xke /. (a *. c_sqrt A a) in
      let rdotk := rdot -. xn *. temp1 *. sinio2 *. sin2u in
      let rfdotk := rfdot +. xn *. temp1 *. (sinio2 *. cos2u +. cst A 15 10 *. x3thm1) in
      let vx := xmx *. cosuk -. cosnok *. sinuk in
      let vy := xmy *. cosuk -. sinnok *. sinuk in
      let vz := sinik *. cosuk in
      mk_place rval
        (rk *. ux *. earth_radius_in_km, rk *. uy *. earth_radius_in_km, rk *. uz *. earth_radius_in_km)
        ((rdotk *. ux +. rfdotk *. vx) *. earth_radius_in_km,
         (rdotk *. uy +. rfdotk *. vy) *. earth_radius_in_km,
         (rdotk *. uz +. rfdotk *. vz) *. earth_radius_in_km)
  end.

(** sgp4.c:50-102: params[2]-[5] and [10]-[17], [22]; [18]-[21], [23]-[28] are written only when simple_flag (params[29]) is 0. *)
Record more_t := mk_more { r_d2 : D; r_d3 : D; r_d4 : D; r_delmo : D; r_omgcof : D; r_sinmo : D; r_t3cof : D; r_t4cof : D; r_t5cof : D; r_xmcof : D }.
Record params := mk_params {
  p_c1 : D; p_c4 : D; p_xnodcf : D; p_t2cof : D; p_aodp : D; p_cosio : D; p_sinio : D; p_omgdot : D; p_xmdot : D; p_xnodot : D; p_xnodp : D;
  p_c5 : D; p_eta : D; p_simple : bool; p_more : option more_t }.
Definition SGP4_init (t : orb) : params :=
  let k := sxpx_common_init t in
  let d := k_start k in
  let aodp := i_aodp d in
  let c1 := k_c1 k in
  let eta := aodp *. o_eo t *. k_tsi k in
  let eeta := o_eo t *. eta in
  let simple := aodp *. (#1 -. o_eo t) /. ae <. #220 /. earth_radius_in_km +. ae in
  let more :=
    if negb simple then
      let c1sq := c1 *. c1 in
      let delmo := #1 +. eta *. c_cos A (o_xmo t) in
      let delmo := delmo *. (delmo *. delmo) in
      let d2 := #4 *. aodp *. k_tsi k *. c1sq in
      let temp := d2 *. k_tsi k *. c1 /. #3 in
      let d3 := (#17 *. aodp +. k_s4 k) *. temp in
      let d4 := cst A 5 10 *. temp *. aodp *. k_tsi k *. (#221 *. aodp +. #31 *. k_s4 k) *. c1 in
      let t3cof := d2 +. #2 *. c1sq in
      let t4cof := cst A 25 100 *. (#3 *. d3 +. c1 *. (#12 *. d2 +. #10 *. c1sq)) in
      let t5cof := cst A 2 10 *. (#3 *. d4 +. #12 *. c1 *. d3 +. #6 *. d2 *. d2 +. #15 *. c1sq *. (#2 *. d2 +. c1sq)) in
      let sinmo := c_sin A (o_xmo t) in
      let '(omgcof, xmcof) :=
        if o_eo t <. cst A 1 10000 then (#0, #0)
        else
          let c3 := k_coef k *. k_tsi k *. a3ovk2 *. i_xnodp d *. ae *. k_sinio k /. o_eo t in
          (o_bstar t *. c3 *. c_cos A (o_omegao t), - two_thirds *. k_coef k *. o_bstar t *. ae /. eeta) in
      Some (mk_more d2 d3 d4 delmo omgcof sinmo t3cof t4cof t5cof xmcof)
    else None in
  let etasq := eta *. eta in
  let c5 := #2 *. k_coef1 k *. aodp *. i_betao2 d *. (#1 +. cst A 275 100 *. (etasq +. eeta) +. eeta *. etasq) in
  mk_params c1 (k_c4 k) (k_xnodcf k) (k_t2cof k) aodp (i_cosio d) (k_sinio k) (k_omgdot k) (k_xmdot k) (k_xnodot k) (i_xnodp d) c5 eta simple more.

(** sgp4.c:104-150 *)
Definition SGP4 (tsince : D) (t : orb) (p : params) : res place :=
  let xmdf := o_xmo t +. p_xmdot p *. tsince in
  let omgadf := o_omegao t +. p_omgdot p *. tsince in
  let xnoddf := o_xnodeo t +. p_xnodot p *. tsince in
  let tsq := tsince *. tsince in
  let xnode := xnoddf +. p_xnodcf p *. tsq in
  let tempa := #1 -. p_c1 p *. tsince in
  let tempe := o_bstar t *. p_c4 p *. tsince in
  let templ := p_t2cof p *. tsq in
  r <- (if negb (p_simple p) then
          match p_more p with
          | None => UB Uninit
          | Some m =>
              let delomg := r_omgcof m *. tsince in
              let delm := #1 +. p_eta p *. c_cos A xmdf in
              let delm := r_xmcof m *. (delm *. delm *. delm -. r_delmo m) in
              let temp := delomg +. delm in
              let xmp := xmdf +. temp in
              let omega := omgadf -. temp in
              let tcube := tsq *. tsince in
              let tfour := tsince *. tcube in
              Ok (xmp, omega, tempa -. r_d2 m *. tsq -. r_d3 m *. tcube -. r_d4 m *. tfour,
                  tempe +. o_bstar t *. p_c5 p *. (c_sin A xmp -. r_sinmo m),
                  templ +. r_t3cof m *. tcube +. tfour *. (r_t4cof m +. tsince *. r_t5cof m))
          end
        else Ok (xmdf, omgadf, tempa, tempe, templ)) ;;
  let '(xmp, omega, tempa, tempe, templ) := r in
  let a := p_aodp p *. tempa *. tempa in
  let e := o_eo t -. tempe in
  let e := if e <. cst A 1 1000000 then cst A 1 1000000 else e in
  let xl := xmp +. omega +. xnode +. p_xnodp p *. templ in
  let a := if tempa <. #0 then - a else a in
  Ok (sxpx_posn_vel xnode a e (p_cosio p) (p_sinio p) (o_xincl t) omega xl).
End Orb.
