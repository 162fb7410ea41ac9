(** Property theorems C37-C40, C44, C79 and C80: the near-Earth propagator and the reduction of angles.  [ideal] is the program
    computed with real numbers, [machine m] in binary64 with the functions [m] for <math.h>. *)
From Coq Require Import ZArith Reals List.
From Flocq Require Import IEEE754.BinarySingleNaN.
From Verif Require Import CLib FloatModel ArithModel FloatLemmas OrbModel OrbSpec OrbTerms OrbProofs4 OrbProofs6 OrbProofs7 OrbExamples AngleProofs.
Import ListNotations.
From Verif Require Import OrbProofs8.
Open Scope R_scope.

(** C37: a placed satellite is at the radius r_k along a unit vector, its velocity is in the plane of that vector and of one
    orthogonal to it; otherwise position and velocity are zero.  [1 + cos i = 0] is the program's division by zero. *)
Theorem C37_orthonormal_frame : forall node a e i w L, 0 < a -> e ^ 2 <> 1 -> 1 + cos i <> 0 ->
  let p := sxpx_posn_vel ideal node a e (cos i) (sin i) i w L in
  (In (pl_code ideal p) [-1; -6]%Z /\ vec_of (pl_pos ideal p) = v3 0 0 0 /\ vec_of (pl_vel ideal p) = v3 0 0 0)
  \/ (In (pl_code ideal p) [0; -4]%Z /\ exists r E u U V,
        r = a * (1 - (axN e w * cos E + ayN a e i w * sin E)) /\ on_ellipse a e i w E r u
        /\ dot U U = 1 /\ dot V V = 1 /\ dot U V = 0
        /\ vec_of (pl_pos ideal p) = scale (XKMPER * r_k a e i w r u) U
        /\ vec_of (pl_vel ideal p) = scale XKMPER (plus (scale (rdot_k a e i w E r u) U) (scale (rfdot_k a e i w r u) V))).
Proof. exact place_frame. Qed.
Print Assumptions C37_orthonormal_frame.
(** In every arithmetic (so also in binary64): an error code comes with the zero vectors, and only five codes occur. *)
Theorem C37_codes : forall A node a e ci si i w L,
  let p := sxpx_posn_vel A node a e ci si i w L in
  (In (pl_code A p) [-1; -2; -6]%Z /\ pl_pos A p = zero A /\ pl_vel A p = zero A) \/ In (pl_code A p) [0; -4]%Z.
Proof. exact posn_codes. Qed.
Print Assumptions C37_codes.
Example C37_example : pl_code ideal (sxpx_posn_vel ideal 0 2 0 1 0 0 0 0) = 0%Z
  /\ vec_of (pl_pos ideal (sxpx_posn_vel ideal 0 2 0 1 0 0 0 0)) = v3 (XKMPER * (2 - 3 / 4 * J2)) 0 0.
Proof. exact (conj ex_ok ex_position). Qed.

(** C38: the codes -1, -2, -4 and -6 (and 0) occur; -3, "orbit within Earth", is documented and never returned: the later
    test overwrites it.  (-5 belongs to the deep-space propagator.) *)
Theorem C38_codes_occur :
  pl_code ideal (sxpx_posn_vel ideal 0 2 0 1 0 0 0 0) = 0%Z
  /\ pl_code ideal (sxpx_posn_vel ideal 0 1 2 1 0 0 0 0) = (-1)%Z
  /\ pl_code ideal (sxpx_posn_vel ideal 0 (-1) 0 1 0 0 0 0) = (-2)%Z
  /\ pl_code ideal (sxpx_posn_vel ideal 0 (1 / 2) 0 1 0 0 0 0) = (-4)%Z
  /\ forall m, pl_code (machine m) (sxpx_posn_vel (machine m) ZERO64 TWO64 ZERO64 MINUS1 ZERO64 PI64 ZERO64 ZERO64) = (-6)%Z.
Proof. exact (conj ex_ok (conj ex_parabolic (conj ex_axis (conj ex_perigee ex_no_convergence)))). Qed.
Print Assumptions C38_codes_occur.
Theorem C38_within_earth_refuted : exists code, In code [-1; -2; -3; -4; -6]%Z /\
  forall A node a e ci si i w L, pl_code A (sxpx_posn_vel A node a e ci si i w L) <> code.
Proof. exact (ex_intro _ (-3)%Z (conj (or_intror (or_intror (or_introl eq_refl))) posn_not_3)). Qed.
Print Assumptions C38_within_earth_refuted.
(** At an inclination whose computed cosine is -1 (180 degrees) binary64 never places a satellite. *)
Theorem C38_retrograde_equatorial : forall m t o p, m_cos m (o_xincl (machine m) o) = MINUS1 ->
  SGP4 (machine m) t o (SGP4_init (machine m) o) = Ok p -> In (pl_code (machine m) p) [-1; -2; -6]%Z.
Proof. exact no_place_sgp4. Qed.
Print Assumptions C38_retrograde_equatorial.
(** Both apsides of the orbit with semi-major axis 1/2 are inside the Earth; the code is that of the perigee. *)
Example C38_example : pl_code ideal (sxpx_posn_vel ideal 0 (1 / 2) 0 1 0 0 0 0) = (-4)%Z.
Proof. exact ex_perigee. Qed.

(** C39 *)
Theorem C39_node_rotates : forall t o th, related (turned th) (propagate t o)
  (propagate t (with_angles o (o_xincl ideal o) (o_xnodeo ideal o + th) (o_omegao ideal o) (o_xmo ideal o))).
Proof. exact node_turned. Qed.
Print Assumptions C39_node_rotates.
Theorem C39_turns : forall t o (k : Z),
  let i := o_xincl ideal o in let node := o_xnodeo ideal o in let w := o_omegao ideal o in let M := o_xmo ideal o in
  let c := 2 * PI * IZR k in
  propagate t (with_angles o (i + c) node w M) = propagate t o /\ propagate t (with_angles o i (node + c) w M) = propagate t o
  /\ propagate t (with_angles o i node (w + c) M) = propagate t o /\ propagate t (with_angles o i node w (M + c)) = propagate t o.
Proof. exact (fun t o k => conj (incl_2pi t o k) (conj (node_2pi t o k) (conj (peri_2pi t o k) (anom_2pi t o k)))). Qed.
Print Assumptions C39_turns.
Example C39_example : turned (PI / 2) (sxpx_posn_vel ideal 0 2 0 1 0 0 0 0) (sxpx_posn_vel ideal (0 + PI / 2) 2 0 1 0 0 0 (0 + PI / 2)).
Proof. exact (posn_turned 0 2 0 1 0 0 0 0 (PI / 2)). Qed.

(** C40: the eccentric longitude used solves Kepler's equation within 1e-12, in whatever arithmetic; the loop has at most ten
    turns, and running out of them is the code -6. *)
Theorem C40_solved : forall A n first ax ay U ecc E0 E, kepler A n first ax ay U ecc E0 = Some E ->
  ltn A (c_fabs A (add A (sub A U E) (sub A (mul A ax (c_sin A E)) (mul A ay (c_cos A E))))) (cst A 1 1000000000000) = true.
Proof. exact (fun A n first ax ay U ecc => kepler_any A ax ay U ecc n first). Qed.
Print Assumptions C40_solved.
(** In real arithmetic: E is that of the position returned, and near the only solution. *)
Theorem C40_near_the_solution : forall node a e i w L, 0 < a -> e ^ 2 <> 1 -> 1 + cos i <> 0 ->
  let p := sxpx_posn_vel ideal node a e (cos i) (sin i) i w L in
  In (pl_code ideal p) [0; -4]%Z ->
  exists U E E' k, U = LT a e i w L - node - 2 * PI * IZR k
    /\ placed node a e i w E (vec_of (pl_pos ideal p)) (vec_of (pl_vel ideal p))
    /\ Rabs (kepler_defect a e i w U E) < 1 / 10 ^ 12
    /\ kepler_defect a e i w U E' = 0 /\ (forall x, kepler_defect a e i w U x = 0 -> x = E')
    /\ Rabs (E - E') < 3 / 10 ^ 6.
Proof. exact place_kepler. Qed.
Print Assumptions C40_near_the_solution.
Example C40_example : kepler ideal 10 true 0 0 0 0 0 = Some 0.
Proof. exact circ_kepler. Qed.
Example C40_not_a_number : forall m n first ax ay ecc E, kepler (machine m) n first ax ay B754_nan ecc E = None.
Proof. exact kepler_nan. Qed.

(** C44: in real arithmetic *)
Theorem C44_ideal : forall x,
  ((exists k, FMod2p ideal x = x - 2 * PI * IZR k) /\ 0 <= FMod2p ideal x < 2 * PI)
  /\ ((exists k, centralize_angle ideal x = x - 2 * PI * IZR k) /\ - PI <= centralize_angle ideal x <= PI).
Proof. exact (fun x => conj (FMod_ideal x) (OrbProofs3.centralize_ok x)). Qed.
Print Assumptions C44_ideal.
(** In binary64, with the program's pi and 2 pi (which is twice that pi): centralize_angle is exact. *)
Theorem C44_centralize_exact : forall m x, fin x ->
  fin (centralize_angle (machine m) x)
  /\ (exists k, toR (centralize_angle (machine m) x) = toR x - IZR k * toR (o_twopi (machine m)))
  /\ Rabs (toR (centralize_angle (machine m) x)) <= toR PI64.
Proof. exact centralize64. Qed.
Print Assumptions C44_centralize_exact.
(** FMod2p is the correctly rounded remainder in the closed interval, exact and below 2 pi for x >= 0. *)
Theorem C44_FMod2p_rounded : forall m x, fin x ->
  fin (FMod2p (machine m) x) /\ 0 <= toR (FMod2p (machine m) x) <= toR (o_twopi (machine m))
  /\ exists k, toR (FMod2p (machine m) x) = RN (toR x - IZR k * toR (o_twopi (machine m)))
               /\ (0 <= toR x -> toR (FMod2p (machine m) x) = toR x - IZR k * toR (o_twopi (machine m)) /\ toR (FMod2p (machine m) x) < toR (o_twopi (machine m))).
Proof. exact FMod64. Qed.
Print Assumptions C44_FMod2p_rounded.
Theorem C44_half_open_refuted : exists x, fin x /\ forall m, FMod2p (machine m) x = o_twopi (machine m).
Proof. exact (ex_intro _ tiny_negative (conj (proj1 (ex_tiny (mk_libm (fun x => x) (fun x => x) (fun x => x) (fun x => x) (fun x => x) (fun x _ => x) (fun x _ => x)))) (fun m => proj2 (ex_tiny m)))). Qed.
Print Assumptions C44_half_open_refuted.
Example C44_example : forall m, centralize_angle (machine m) (round_ratio 4 1) = fsub (round_ratio 4 1) (o_twopi (machine m)).
Proof. exact ex_center. Qed.

(** C79: SGP4 computes the equations of Spacetrack Report No. 3. *)
Theorem C79_elements_at_date : forall o t,
  let i := o_xincl ideal o in let e0 := o_eo ideal o in let n := o_xno ideal o in
  let b := o_bstar ideal o in let w0 := o_omegao ideal o in let M0 := o_xmo ideal o in
  0 <= e0 < 1 -> 0 < n -> 0 < a0'' i e0 n -> a0'' i e0 n <> s_star i e0 n -> eta0 i e0 n ^ 2 <> 1 ->
  exists q4, Rabs (q4 - q_star i e0 n) <= 1 / 10 ^ 30 /\
  propagate t o = Ok (sxpx_posn_vel ideal
      (mean_node b i (o_xnodeo ideal o) e0 n q4 t)
      (if Rlt_dec (a_factor b i e0 n q4 t) 0 then - mean_a b i e0 n q4 t else mean_a b i e0 n q4 t)
      (Rmax (mean_e b i e0 w0 M0 n q4 t) (1 / 1000000))
      (cos i) (sin i) i (mean_w b i e0 w0 M0 n q4 t) (mean_L b i (o_xnodeo ideal o) e0 w0 M0 n q4 t)).
Proof. exact report. Qed.
Print Assumptions C79_elements_at_date.
Theorem C79_position_and_velocity : forall o t,
  let i := o_xincl ideal o in let e0 := o_eo ideal o in let n := o_xno ideal o in
  let b := o_bstar ideal o in let w0 := o_omegao ideal o in let M0 := o_xmo ideal o in
  0 <= e0 < 1 -> 0 < n -> 0 < a0'' i e0 n -> a0'' i e0 n <> s_star i e0 n -> eta0 i e0 n ^ 2 <> 1 -> 1 + cos i <> 0 ->
  exists q4 p, Rabs (q4 - q_star i e0 n) <= 1 / 10 ^ 30 /\ propagate t o = Ok p /\
    (0 < a_factor b i e0 n q4 t -> 1 / 1000000 <= mean_e b i e0 w0 M0 n q4 t -> mean_e b i e0 w0 M0 n q4 t <> 1 ->
     In (pl_code ideal p) [0; -4]%Z ->
     let node := mean_node b i (o_xnodeo ideal o) e0 n q4 t in let a := mean_a b i e0 n q4 t in let e := mean_e b i e0 w0 M0 n q4 t in
     let w := mean_w b i e0 w0 M0 n q4 t in let L := mean_L b i (o_xnodeo ideal o) e0 w0 M0 n q4 t in
     exists U E k, U = LT a e i w L - node - 2 * PI * IZR k /\ Rabs (kepler_defect a e i w U E) < 1 / 10 ^ 12
       /\ placed node a e i w E (vec_of (pl_pos ideal p)) (vec_of (pl_vel ideal p))).
Proof. exact report_place. Qed.
Print Assumptions C79_position_and_velocity.
Theorem C79_gravity_constant : 0 < KE /\ Rabs (KE ^ 2 - 398600.8 * 60 ^ 2 / XKMPER ^ 3) <= 1 / 10 ^ 19.
Proof. exact ke_value. Qed.
Print Assumptions C79_gravity_constant.
(** The hypotheses for an orbit at two Earth radii. *)
Example C79_example : 0 <= o_eo ideal o_two < 1 /\ 0 < o_xno ideal o_two /\ 0 < a0'' (o_xincl ideal o_two) (o_eo ideal o_two) (o_xno ideal o_two)
  /\ a0'' (o_xincl ideal o_two) (o_eo ideal o_two) (o_xno ideal o_two) <> s_star (o_xincl ideal o_two) (o_eo ideal o_two) (o_xno ideal o_two)
  /\ eta0 (o_xincl ideal o_two) (o_eo ideal o_two) (o_xno ideal o_two) ^ 2 <> 1.
Proof. exact two_hyps. Qed.

(** C80: which propagator is chosen. *)
Theorem C80_by_period : forall o, (o_type ideal o <> 104)%Z ->
  ((o_xno ideal o <= 0 \/ 1 < o_eo ideal o \/ o_eo ideal o < 0) -> select_ephemeris ideal o = (-1)%Z)
  /\ (0 < o_xno ideal o -> 0 <= o_eo ideal o <= 1 ->
      (In (o_type ideal o) [50; 52]%Z -> select_ephemeris ideal o = 0%Z) /\ (In (o_type ideal o) [51; 53]%Z -> select_ephemeris ideal o = 1%Z)
      /\ (~ In (o_type ideal o) [50; 51; 52; 53]%Z -> o_eo ideal o < 1 -> 0 < a0'' (o_xincl ideal o) (o_eo ideal o) (o_xno ideal o) ->
          select_ephemeris ideal o = if Rle_dec 225 (2 * PI / n0'' (o_xincl ideal o) (o_eo ideal o) (o_xno ideal o)) then 1%Z else 0%Z)).
Proof. exact chosen. Qed.
Print Assumptions C80_by_period.
Theorem C80_state_vector : forall A o, (o_type A o = 104)%Z -> select_ephemeris A o = 1%Z.
Proof. exact h_forces. Qed.
Print Assumptions C80_state_vector.
Example C80_example : select_ephemeris ideal o_two = 1%Z.
Proof. exact ex_two_deep. Qed.

(** C93: Newton's iteration for Kepler's equation ends within its ten turns whenever the eccentricity (with the long-period terms)
    is at most 1/4: the code is then 0 or -4, never -6. *)
Theorem C93_kepler : forall x y ecc U, x * x + y * y <= (1 / 4) ^ 2 -> exists E, kepler ideal 10 true x y U ecc U = Some E.
Proof. exact kepler_ends. Qed.
Print Assumptions C93_kepler.
Theorem C93_code : forall node a e i w L, 0 < a -> e ^ 2 <> 1 -> eL2 a e i w <= 1 / 16 ->
  pl_code ideal (sxpx_posn_vel ideal node a e (cos i) (sin i) i w L) = (if Rlt_dec (Rmin (a * (1 - e)) (a * (1 + e))) 1 then -4 else 0)%Z.
Proof. exact posn_converges. Qed.
Print Assumptions C93_code.
Example C93_example : exists E, kepler ideal 10 true (1 / 10) (1 / 5) 3 (1 / 4) 3 = Some E.
Proof. exact ex_converges. Qed.
