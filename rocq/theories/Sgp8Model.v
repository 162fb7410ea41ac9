(** The propagator SGP8: sgp8.c. *)
From Coq Require Import ZArith List Bool.
From Verif Require Import CLib ArithModel OrbModel DeepModel.
Import ListNotations.
Open Scope Z_scope.

Section Sgp8.
Context (A : arith).
Local Notation D := (num A).
Local Infix "+." := (add A) (at level 50, left associativity).
Local Infix "-." := (sub A) (at level 50, left associativity).
Local Infix "*." := (mul A) (at level 40, left associativity).
Local Infix "/." := (div A) (at level 40, left associativity).
Local Infix "<." := (ltn A) (at level 70).
Local Infix "<=." := (len A) (at level 70).
Local Notation "# n" := (int A n) (at level 1).
Local Notation "- x" := (opp A x).
Local Notation two_thirds := (two_thirds A).
Local Notation ck2 := (ck2 A).
Local Notation a3ovk2 := (a3ovk2 A).
Local Notation half := (cst A 5 10).

(** sgp8.c:49-78: params[0]-[7], and sing, cosg, xmdot, omgdot, xnodot of deep_arg. *)
Record com8 := mk_com8 {
  b_tthmun : D; b_sini2 : D; b_cosi2 : D; b_unm5th : D; b_unmth2 : D; b_xmdt1 : D; b_xgdt1 : D; b_xhdt1 : D;
  b_sing : D; b_cosg : D; b_xmdot : D; b_omgdot : D; b_xnodot : D }.
Definition sxp8_common_init (t : orb A) (d : start_t A) : com8 :=
  let half_inclination := o_xincl A t *. half in
  let cosio4 := i_cosio2 A d *. i_cosio2 A d in
  let sing := c_sin A (o_omegao A t) in
  let cosg := c_cos A (o_omegao A t) in
  let sini2 := c_sin A half_inclination in
  let cosi2 := c_cos A half_inclination in
  let tthmun := i_cosio2 A d *. #3 -. #1 in
  let unm5th := #1 -. i_cosio2 A d *. #5 in
  let unmth2 := #1 -. i_cosio2 A d in
  let po := i_aodp A d *. i_betao2 A d in
  let pom2 := #1 /. (po *. po) in
  let pardt1 := #3 *. ck2 *. pom2 *. i_xnodp A d in
  let pardt2 := pardt1 *. ck2 *. pom2 in
  let pardt4 := ck4 A *. cst A 125 100 *. pom2 *. pom2 *. i_xnodp A d in
  let xmdt1 := half *. pardt1 *. i_betao A d *. tthmun in
  let xgdt1 := - half *. pardt1 *. unm5th in
  let xhdt1 := - pardt1 *. i_cosio A d in
  let xmdot := i_xnodp A d +. xmdt1 +. pardt2 *. cst A 625 10000 *. i_betao A d *.
               (#13 -. i_cosio2 A d *. #78 +. cosio4 *. #137) in
  let omgdot := xgdt1 +. pardt2 *. cst A 625 10000 *. (#7 -. i_cosio2 A d *.
                     #114 +. cosio4 *. #395) +. pardt4 *. (#3 -. i_cosio2 A d *.
                     #36 +. cosio4 *. #49) in
  let xnodot := xhdt1 +. (pardt2 *. half *. (#4 -. i_cosio2 A d *. #19) +. pardt4 *.
      #2 *. (#3 -. i_cosio2 A d *. #7)) *. i_cosio A d in
  mk_com8 tthmun sini2 cosi2 unm5th unmth2 xmdt1 xgdt1 xhdt1 sing cosg xmdot omgdot xnodot.

(** sgp8.c:82-83 and 103-128 (the same lines in sdp8.c:38-39 and 50-76): the drag on the mean motion. *)
Record drag8 := mk_drag8 {
  g_po : D; g_tsi : D; g_eta : D; g_eta2 : D; g_psim2 : D; g_alpha2 : D; g_eeta : D; g_cos2g : D; g_d5 : D; g_d1 : D; g_d2 : D; g_d3 : D; g_d4 : D;
  g_b1 : D; g_b2 : D; g_b3 : D; g_c0 : D; g_c1 : D; g_c4 : D; g_c5 : D; g_xndt : D; g_xndtn : D }.
Definition drag_init (t : orb A) (d : start_t A) (c : com8) (sini : D) : drag8 :=
  let rho := cst A 15696615 100000000 in
  let b := o_bstar A t *. #2 /. rho in
  let po := i_aodp A d *. i_betao2 A d in
  let tsi := #1 /. (po -. s_const A) in
  let eta := o_eo A t *. s_const A *. tsi in
  let eta2 := eta *. eta in
  let r1 := #1 /. (#1 -. eta2) in
  let psim2 := c_fabs A r1 in
  let alpha2 := i_eosq A d +. #1 in
  let eeta := o_eo A t *. eta in
  let cos2g := b_cosg c *. b_cosg c *. #2 -. #1 in
  let d5 := tsi *. psim2 in
  let d1 := d5 /. po in
  let d2 := eta2 *. (eta2 *. cst A 45 10 +. #36) +. #12 in
  let d3 := eta2 *. (eta2 *. cst A 25 10 +. #15) in
  let d4 := eta *. (eta2 *. cst A 375 100 +. #5) in
  let b1 := ck2 *. b_tthmun c in
  let b2 := - ck2 *. b_unmth2 c in
  let b3 := a3ovk2 *. sini in
  let r1 := tsi in
  let r1 := r1 *. r1 in
  let c0 := b *. half *. rho *. qoms2t A *. i_xnodp A d *. i_aodp A d *. (r1 *. r1) *.
                c_pow A psim2 (cst A 35 10) /. c_sqrt A alpha2 in
  let r1 := alpha2 in
  let c1 := i_xnodp A d *. cst A 15 10 *. (r1 *. r1) *. c0 in
  let c4 := d1 *. d3 *. b2 in
  let c5 := d5 *. d4 *. b3 in
  let xndt := c1 *. (eta2 *. (i_eosq A d *. #34 +. #3) +. #2 +. eeta *. #5 *. (eta2 +. #4)
     +. i_eosq A d *. cst A 85 10 +. d1 *. d2 *. b1 +. c4 *. cos2g +. c5 *. b_sing c) in
  let xndtn := xndt /. i_xnodp A d in
  mk_drag8 po tsi eta eta2 psim2 alpha2 eeta cos2g d5 d1 d2 d3 d4 b1 b2 b3 c0 c1 c4 c5 xndt xndtn.

(** sgp8.c:135-207: the rates edot, xnddt, eddot, xntrdt. *)
Record rates8 := mk_rates8 { q_edot : D; q_xnddt : D; q_eddot : D; q_xntrdt : D }.
Definition more_rates (t : orb A) (d : start_t A) (c : com8) (g : drag8) : rates8 :=
  let eo := o_eo A t in
  let eosq := i_eosq A d in
  let betao2 := i_betao2 A d in
  let sing := b_sing c in
  let cosg := b_cosg c in
  let xgdt1 := b_xgdt1 c in
  let eta := g_eta g in
  let eta2 := g_eta2 g in
  let eeta := g_eeta g in
  let psim2 := g_psim2 g in
  let alpha2 := g_alpha2 g in
  let tsi := g_tsi g in
  let cos2g := g_cos2g g in
  let d1 := g_d1 g in
  let d2 := g_d2 g in
  let d3 := g_d3 g in
  let d4 := g_d4 g in
  let d5 := g_d5 g in
  let b1 := g_b1 g in
  let b2 := g_b2 g in
  let b3 := g_b3 g in
  let c0 := g_c0 g in
  let c1 := g_c1 g in
  let c4 := g_c4 g in
  let c5 := g_c5 g in
  let xndt := g_xndt g in
  let xndtn := g_xndtn g in
  let d6 := eta *. (eta2 *. cst A 225 10 +. #30) in
  let d7 := eta *. (eta2 *. cst A 125 10 +. #5) in
  let d8 := eta2 *. (eta2 +. cst A 675 100) +. #1 in
  let d9 := eta *. (eosq *. #68 +. #6) +. eo *. (eta2 *. #15 +. #20) in
  let d10 := eta *. #5 *. (eta2 +. #4) +. eo *. (eta2 *. #68 +. #17) in
  let d11 := eta *. (eta2 *. #18 +. #72) in
  let d12 := eta *. (eta2 *. #10 +. #30) in
  let d13 := eta2 *. cst A 1125 100 +. #5 in
  let d20 := two_thirds *. half *. xndtn in
  let c8 := d1 *. d7 *. b2 in
  let c9 := d5 *. d8 *. b3 in
  let sin2g := sing *. #2 *. cosg in
  let edot := - c0 *. (eta *. (eta2 +. #4 +. eosq *. (eta2 *. #7 +. cst A 155 10)) +. eo *.
                 (eta2 *. #15 +. #5) +. d1 *. d6 *. b1 +. c8 *. cos2g +. c9 *. sing) in
  let tsdtts := i_aodp A d *. #2 *. tsi *. (d20 *. betao2 +. eo *. edot) in
  let aldtal := eo *. edot /. alpha2 in
  let etdt := (edot +. eo *. tsdtts) *. tsi *. s_const A in
  let psdtps := - eta *. etdt *. psim2 in
  let c0dtc0 := d20 +. tsdtts *. #4 -. aldtal -. psdtps *. #7 in
  let c1dtc1 := xndtn +. aldtal *. #4 +. c0dtc0 in
  let d14 := tsdtts -. psdtps *. #2 in
  let d15 := (d20 +. eo *. edot /. betao2) *. #2 in
  let d1dt := d1 *. (d14 +. d15) in
  let d2dt := etdt *. d11 in
  let d3dt := etdt *. d12 in
  let d4dt := etdt *. d13 in
  let d5dt := d5 *. d14 in
  let c4dt := b2 *. (d1dt *. d3 +. d1 *. d3dt) in
  let c5dt := b3 *. (d5dt *. d4 +. d5 *. d4dt) in
  let d16 := d9 *. etdt +. d10 *. edot +. b1 *. (d1dt *. d2 +. d1 *. d2dt) +. c4dt *.
            cos2g +. c5dt *. sing +. xgdt1 *. (c5 *. cosg -. c4 *. #2 *. sin2g) in
  let xnddt := c1dtc1 *. xndt +. c1 *. d16 in
  let eddot := c0dtc0 *. edot -. c0 *. ((eta2 *. #3 +. #4 +. eeta *. #30 +. eosq *.
        (eta2 *. #21 +. cst A 155 10)) *. etdt +. (eta2 *. #15 +. #5 +. eeta *.
         (eta2 *. #14 +. #31)) *. edot +. b1 *. (d1dt *. d6 +. d1 *. etdt *.
             (eta2 *. cst A 675 10 +. #30)) +. b2 *. (d1dt *. d7 +. d1 *. etdt *.
        (eta2 *. cst A 375 10 +. #5)) *. cos2g +. b3 *. (d5dt *. d8 +. d5 *. etdt *. eta *.
        (eta2 *. #4 +. cst A 135 10)) *. sing +. xgdt1 *. (c9 *. cosg -. c8 *. #2 *. sin2g)) in
  let r1 := edot in
  let d25 := r1 *. r1 in
  let r1 := xndtn in
  let d17 := xnddt /. i_xnodp A d -. r1 *. r1 in
  let tsddts := tsdtts *. #2 *. (tsdtts -. d20) +. i_aodp A d *. tsi *.
               (two_thirds *. betao2 *. d17 -. d20 *. #4 *. eo *. edot +.
               (d25 +. eo *. eddot) *. #2) in
  let etddt := (eddot +. edot *. #2 *. tsdtts) *. tsi *. s_const A +. tsddts *. eta in
  let r1 := tsdtts in
  let d18 := tsddts -. r1 *. r1 in
  let r1 := psdtps in
  let rr2 := psdtps in
  let d19 := - (r1 *. r1) /. eta2 -. eta *. etddt *. psim2 -. rr2 *. rr2 in
  let d23 := etdt *. etdt in
  let d1ddt := d1dt *. (d14 +. d15) +. d1 *. (d18 -. d19 *. #2 +. two_thirds *. d17 +.
         (alpha2 *. d25 /. betao2 +. eo *. eddot) *. #2 /. betao2) in
  let r1 := aldtal in
  let xntrdt := xndt *. (two_thirds *. #2 *. d17 +. (d25 +. eo *. eddot) *. #3 /.
               alpha2 -. r1 *. r1 *. #6 +. d18 *. #4 -. d19 *. #7) +.
                    c1dtc1 *. xnddt +. c1 *. (c1dtc1 *. d16 +. d9 *. etddt +. d10 *.
          eddot +. d23 *. (eeta *. #30 +. #6 +. eosq *. #68) +. etdt *. edot *.
          (eta2 *. #30 +. #40 +. eeta *. #272) +. d25 *. (eta2 *. #68 +. #17) +.
          b1 *. (d1ddt *. d2 +. d1dt *. #2 *. d2dt +. d1 *. (etddt *. d11 +. d23 *.
          (eta2 *. #54 +. #72))) +. b2 *. (d1ddt *. d3 +. d1dt *. #2 *. d3dt +. d1
          *. (etddt *. d12 +. d23 *. (eta2 *. #30 +. #30))) *. cos2g +. b3 *.
          ((d5dt *. d14 +. d5 *. (d18 -. d19 *. #2)) *. d4 +. d4dt *. #2 *. d5dt +.
          d5 *. (etddt *. d13 +. eta *. cst A 225 10 *. d23)) *. sing +. xgdt1 *. ((d20 *.
          #7 +. eo *. #4 *. edot /. betao2) *. (c5 *. cosg -. c4 *. #2 *.
          sin2g) +. (c5dt *. #2 *. cosg -. c4dt *. #4 *. sin2g -. xgdt1 *.
          (c5 *. sing +. c4 *. #4 *. cos2g)))) in
  mk_rates8 edot xnddt eddot xntrdt.

(** sgp8.c:208-218: the constants pp, gamma, xnd, qq, ed, ovgpp. *)
Record fit8 := mk_fit8 { f_pp : D; f_gamma : D; f_xnd : D; f_qq : D; f_ed : D; f_ovgpp : D }.
Definition fit (xndt : D) (r : rates8) : fit8 :=
  let tmnddt := q_xnddt r *. #1000000000 in
  let r1 := tmnddt in
  let temp := r1 *. r1 -. xndt *. #1000000000000000000 *. q_xntrdt r in
  let r1 := tmnddt in
  let pp := (temp +. r1 *. r1) /. temp in
  let gamma := - q_xntrdt r /. (q_xnddt r *. (pp -. #2)) in
  let xnd := xndt /. (pp *. gamma) in
  let qq := #1 -. q_eddot r /. (q_edot r *. gamma) in
  let ed := q_edot r /. (qq *. gamma) in
  let ovgpp := #1 /. (gamma *. (pp +. #1)) in
  mk_fit8 pp gamma xnd qq ed ovgpp.

(** sgp8.c:80-225: params[0]-[22] and simple_flag; [f_fit] is [None] when simple_flag is 1, and params[10], [11], [13]-[15], [20] are
    not written. *)
Record par8 := mk_par8 { f_com : com8; f_xndt : D; f_edot : D; f_fit : option fit8; f_sini : D; f_cosi : D; f_cosio2 : D; f_xnodp : D }.
Definition SGP8_init (t : orb A) : par8 :=
  let d := sxpall_common_init A t in
  let c := sxp8_common_init t d in
  let sini := c_sin A (o_xincl A t) in
  let g := drag_init t d c sini in
  let r1 := g_xndtn g *. #1440 in
  let '(edot, ft) :=
    if cst A 216 100000 <. c_fabs A r1 then
      let r := more_rates t d c g in (q_edot r, Some (fit (g_xndt g) r))
    else (- two_thirds *. g_xndtn g *. (#1 -. o_eo A t), None) in
  mk_par8 c (g_xndt g) edot ft sini (i_cosio A d) (i_cosio2 A d) (i_xnodp A d).

(** sgp8.c:246-261: mean motion, eccentricity and the integral of the growth of the mean motion, at tsince. *)
Definition decay (eo : D) (p : par8) (tsince : D) : D * D * D :=
  match f_fit p with
  | Some f =>
      let temp := #1 -. f_gamma f *. tsince in
      let temp1 := c_pow A temp (f_pp f) in
      (f_xnodp p +. f_xnd f *. (#1 -. temp1), eo +. f_ed f *. (#1 -. c_pow A temp (f_qq f)),
       f_xnd f *. (tsince +. f_ovgpp f *. (temp *. temp1 -. #1)))
  | None =>
      (f_xnodp p +. f_xndt p *. tsince, eo +. f_edot p *. tsince, f_xndt p *. half *. tsince *. tsince)
  end.

(** sgp8.c:273-286 and sdp8.c:131-144: Kepler's equation; sine, cose and zc5 after at most 11 turns. *)
Fixpoint kepler8 (n : nat) (xmam em zc2 : D) : D * D * D :=
  let sine := c_sin A zc2 in
  let cose := c_cos A zc2 in
  let zc5 := #1 /. (#1 -. em *. cose) in
  let cape := (xmam +. em *. sine -. zc2) *. zc5 +. zc2 in
  let r1 := cape -. zc2 in
  if c_fabs A r1 <=. cst A 1 1000000 then (sine, cose, zc5)
  else match n with O => (sine, cose, zc5) | S n => kepler8 n xmam em cape end.

(** sgp8.c:270-360 and sdp8.c:128-220, which differ in the half inclination [sinio2] only: from mean elements to position and velocity
    (the pointer [vel] is not NULL).  The 1.f and .5f of the sources are exact. *)
Definition posn_vel8 (c : com8) (sini cosi cosio_2 sinio2 : D) (xn em xmam omgasm xnodes : D) : vect A * vect A :=
  let zc2 := xmam +. em *. c_sin A xmam *. (em *. c_cos A xmam +. #1) in
  let '(sine, cose, zc5) := kepler8 10 xmam em zc2 in
  let am := c_pow A (xke A /. xn) two_thirds in
  let beta2m := #1 -. em *. em in
  let sinos := c_sin A omgasm in
  let cosos := c_cos A omgasm in
  let axnm := em *. cosos in
  let aynm := em *. sinos in
  let pm := am *. beta2m in
  let g1 := #1 /. pm in
  let g2 := ck2 *. half *. g1 in
  let g3 := g2 *. g1 in
  let beta := c_sqrt A beta2m in
  let g4 := a3ovk2 *. cst A 25 100 *. sini in
  let g5 := a3ovk2 *. cst A 25 100 *. g1 in
  let snf := beta *. sine *. zc5 in
  let csf := (cose -. em) *. zc5 in
  let fm := c_atan2 A snf csf in
  let fm := if fm <. #0 then fm +. (c_pi A +. c_pi A) else fm in
  let snfg := snf *. cosos +. csf *. sinos in
  let csfg := csf *. cosos -. snf *. sinos in
  let sn2f2g := snfg *. #2 *. csfg in
  let r1 := csfg in
  let cs2f2g := r1 *. r1 *. #2 -. #1 in
  let ecosf := em *. csf in
  let g10 := fm -. xmam +. em *. snf in
  let rm := pm /. (ecosf +. #1) in
  let aovr := am /. rm in
  let g13 := xn *. aovr in
  let g14 := - g13 *. aovr in
  let dr := g2 *. (b_unmth2 c *. cs2f2g -. b_tthmun c *. #3) -. g4 *. snfg in
  let diwc := g3 *. #3 *. sini *. cs2f2g -. g5 *. aynm in
  let di := diwc *. cosi in
  let sni2du := b_sini2 c *. (g3 *. ((#1 -. cosio_2 *. #7) *. half *. sn2f2g -. b_unm5th c *. #3 *. g10) -.
      g5 *. sini *. csfg *. (ecosf +. #2)) -. g5 *. half *. cosio_2 *. axnm /. b_cosi2 c in
  let xlamb := fm +. omgasm +. xnodes +. g3 *. ((cosi *. #6 +. #1 -. cosio_2 *. #7) *.
     half *. sn2f2g -. (b_unm5th c +. cosi *. #2) *. #3 *. g10) +. g5 *. sini *.
          (cosi *. axnm /. (cosi +. #1) -. (ecosf +. #2) *. csfg) in
  let y4 := sinio2 *. snfg +. csfg *. sni2du +. snfg *. half *. b_cosi2 c *. di in
  let y5 := sinio2 *. csfg -. snfg *. sni2du +. csfg *. half *. b_cosi2 c *. di in
  let rr := rm +. dr in
  let rdot := xn *. am *. em *. snf /. beta +. g14 *. (g2 *. #2 *. b_unmth2 c *. sn2f2g +. g4 *. csfg) in
  let r1 := am in
  let rvdot := xn *. (r1 *. r1) *. beta /. rm +. g14 *. dr +. am *. g13 *. sini *. diwc in
  let snlamb := c_sin A xlamb in
  let cslamb := c_cos A xlamb in
  let temp := (y5 *. snlamb -. y4 *. cslamb) *. #2 in
  let ux := y4 *. temp +. cslamb in
  let vx := y5 *. temp -. snlamb in
  let temp := (y5 *. cslamb +. y4 *. snlamb) *. #2 in
  let uy := - y4 *. temp +. snlamb in
  let vy := - y5 *. temp +. cslamb in
  let temp := c_sqrt A (#1 -. y4 *. y4 -. y5 *. y5) *. #2 in
  let uz := y4 *. temp in
  let vz := y5 *. temp in
  let km := earth_radius_in_km A in
  ((rr *. ux *. km, rr *. uy *. km, rr *. uz *. km),
   ((rdot *. ux +. rvdot *. vx) *. km, (rdot *. uy +. rvdot *. vy) *. km, (rdot *. uz +. rvdot *. vz) *. km)).

(** sgp8.c:227-360; the value returned is always 0. *)
Definition SGP8 (tsince : D) (t : orb A) (p : par8) : place A :=
  let c := f_com p in
  let r1 := o_xmo A t +. b_xmdot c *. tsince in
  let xmam := FMod2p A r1 in
  let omgasm := o_omegao A t +. b_omgdot c *. tsince in
  let xnodes := o_xnodeo A t +. b_xnodot c *. tsince in
  let '(xn, em, z1) := decay (o_eo A t) p tsince in
  let z7 := two_thirds *. cst A 35 10 *. z1 /. f_xnodp p in
  let r1 := xmam +. z1 +. z7 *. b_xmdt1 c in
  let xmam := FMod2p A r1 in
  let omgasm := omgasm +. z7 *. b_xgdt1 c in
  let xnodes := xnodes +. z7 *. b_xhdt1 c in
  let '(pos, vel) := posn_vel8 c (f_sini p) (f_cosi p) (f_cosio2 p) (b_sini2 c) xn em xmam omgasm xnodes in
  mk_place A 0 pos vel.

End Sgp8.
