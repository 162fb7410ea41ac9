(** What the near-Earth propagator should compute: the SGP4 equations of Spacetrack Report No. 3 (Hoots and Roehrich, 1980),
    written in its notation and in real numbers.  Nothing here refers to the model of the program. *)
From Coq Require Import ZArith Reals.
Open Scope R_scope.

(** WGS-72, in units of the Earth's radius (km) and minutes. *)
Definition XKMPER : R := 6378135 / 1000.
Definition J2 : R := 1082616 / 1000000000.
Definition J3 : R := - (253881 / 100000000000).
Definition J4 : R := - (165597 / 100000000000).
Definition KE : R := 743669161331734132 / 10000000000000000000.
Definition K2 : R := J2 / 2.
Definition K4 : R := - 3 / 8 * J4.
Definition A30 : R := - J3.

Record vec3 := v3 { c_x : R; c_y : R; c_z : R }.
Definition dot (u v : vec3) : R := c_x u * c_x v + c_y u * c_y v + c_z u * c_z v.
Definition scale (k : R) (u : vec3) : vec3 := v3 (k * c_x u) (k * c_y u) (k * c_z u).
Definition plus (u v : vec3) : vec3 := v3 (c_x u + c_x v) (c_y u + c_y v) (c_z u + c_z v).
(** Rotation about the polar axis. *)
Definition turn (t : R) (u : vec3) : vec3 := v3 (cos t * c_x u - sin t * c_y u) (sin t * c_x u + cos t * c_y u) (c_z u).
(** Rotation about the first axis. *)
Definition tilt (i : R) (u : vec3) : vec3 := v3 (c_x u) (cos i * c_y u - sin i * c_z u) (sin i * c_y u + cos i * c_z u).
(** The radial and the transverse direction at the argument of latitude u in the orbit plane (node, i). *)
Definition radial (node i u : R) : vec3 := turn node (tilt i (turn u (v3 1 0 0))).
Definition transverse (node i u : R) : vec3 := turn node (tilt i (turn u (v3 0 1 0))).

(** ** From mean elements at a date to position and velocity *)
Section Place.
Context (node a e i w L : R).
Let th := cos i.
(** Long-period terms. *)
Definition axN : R := e * cos w.
Definition ayN : R := e * sin w + A30 * sin i / (4 * K2 * a * (1 - e ^ 2)).
Definition LT : R := L + A30 * sin i / (8 * K2 * a * (1 - e ^ 2)) * (e * cos w) * ((3 + 5 * th) / (1 + th)).
Definition eL2 : R := axN ^ 2 + ayN ^ 2.
(** Kepler's equation for the eccentric longitude E, at the longitude U from the node. *)
Definition kepler_defect (U E : R) : R := U - (E - axN * sin E + ayN * cos E).
(** (r, u) is the polar form, from the focus, of the point of the ellipse with eccentric longitude E: semi-major axis a,
    eccentricity eL and perigee at wL where (eL, wL) is the polar form of (axN, ayN). *)
Definition on_ellipse (E r u : R) : Prop :=
  forall eL wL, 0 <= eL -> axN = eL * cos wL -> ayN = eL * sin wL ->
    r * cos (u - wL) = a * (cos (E - wL) - eL) /\ r * sin (u - wL) = a * sqrt (1 - eL ^ 2) * sin (E - wL).
Definition pL : R := a * (1 - eL2).
Definition n_mean : R := KE / (a * sqrt a).
(** The speeds along and across the radius on that ellipse. *)
Definition r_dot (E r : R) : R := KE * sqrt a / r * (axN * sin E - ayN * cos E).
Definition rf_dot (r : R) : R := KE * sqrt pL / r.
(** Short-period terms. *)
Definition r_k (r u : R) : R :=
  r * (1 - 3 / 2 * K2 * sqrt (1 - eL2) / pL ^ 2 * (3 * th ^ 2 - 1)) + K2 / (2 * pL) * (1 - th ^ 2) * cos (2 * u).
Definition u_k (u : R) : R := u - K2 / (4 * pL ^ 2) * (7 * th ^ 2 - 1) * sin (2 * u).
Definition node_k (u : R) : R := node + 3 * K2 * th / (2 * pL ^ 2) * sin (2 * u).
Definition i_k (u : R) : R := i + 3 * K2 * th / (2 * pL ^ 2) * sin i * cos (2 * u).
Definition rdot_k (E r u : R) : R := r_dot E r - K2 * n_mean / pL * (1 - th ^ 2) * sin (2 * u).
Definition rfdot_k (r u : R) : R := rf_dot r + K2 * n_mean / pL * ((1 - th ^ 2) * cos (2 * u) - 3 / 2 * (1 - 3 * th ^ 2)).
(** Position (km) and velocity (km per minute) for the solution E of Kepler's equation. *)
Definition placed (E : R) (pos vel : vec3) : Prop :=
  exists r u,
    r = a * (1 - (axN * cos E + ayN * sin E)) /\ on_ellipse E r u /\
    let U := radial (node_k u) (i_k u) (u_k u) in
    let V := transverse (node_k u) (i_k u) (u_k u) in
    pos = scale (XKMPER * r_k r u) U /\
    vel = scale XKMPER (plus (scale (rdot_k E r u) U) (scale (rfdot_k r u) V)).
End Place.

(** ** From the published elements to mean elements at a date *)
Section Secular.
Context (bstar i0 node0 e0 w0 M0 n0 : R).   (* drag term, angles (radians), eccentricity, mean motion (radians per minute) *)
Let th := cos i0.
Definition beta0 : R := sqrt (1 - e0 ^ 2).
Definition a_1 : R := Rpower (KE / n0) (2 / 3).
Definition delta_of (a : R) : R := 3 / 2 * (K2 / a ^ 2) * ((3 * th ^ 2 - 1) / beta0 ^ 3).
Definition a_0 : R := let d := delta_of a_1 in a_1 * (1 - 1 / 3 * d - d ^ 2 - 134 / 81 * d ^ 3).
(** The mean motion and semi-major axis without the effect of the flattening. *)
Definition n0'' : R := n0 / (1 + delta_of a_0).
Definition a0'' : R := a_0 / (1 - delta_of a_0).
Definition perigee_km : R := (a0'' * (1 - e0) - 1) * XKMPER.
(** The parameter s of the density function, in Earth radii, and (q0 - s)^4 where q0 is 120 km. *)
Definition s_star : R :=
  if Rle_dec perigee_km 98 then 20 / XKMPER + 1
  else if Rlt_dec perigee_km 156 then a0'' * (1 - e0) - 78 / XKMPER
  else 78 / XKMPER + 1.
Definition xi : R := 1 / (a0'' - s_star).
Definition eta0 : R := a0'' * e0 * xi.
Definition psi2 : R := Rabs (1 - eta0 ^ 2).
Section Drag.
Context (q4 : R).   (* the value used for (q0 - s)^4 *)
Definition C2 : R :=
  q4 * xi ^ 4 * n0'' / Rpower psi2 (7 / 2)
  * (a0'' * (1 + 3 / 2 * eta0 ^ 2 + 4 * e0 * eta0 + e0 * eta0 ^ 3)
     + 3 / 2 * (K2 * xi / psi2) * (- 1 / 2 + 3 / 2 * th ^ 2) * (8 + 24 * eta0 ^ 2 + 3 * eta0 ^ 4)).
Definition C1 : R := bstar * C2.
Definition C3 : R := q4 * xi ^ 5 * A30 * n0'' * sin i0 / (K2 * e0).
Definition C4 : R :=
  2 * n0'' * q4 * xi ^ 4 * a0'' * beta0 ^ 2 / Rpower psi2 (7 / 2)
  * (2 * eta0 * (1 + e0 * eta0) + 1 / 2 * e0 + 1 / 2 * eta0 ^ 3
     - 2 * K2 * xi / (a0'' * psi2)
       * (3 * (1 - 3 * th ^ 2) * (1 + 3 / 2 * eta0 ^ 2 - 2 * e0 * eta0 - 1 / 2 * e0 * eta0 ^ 3)
          + 3 / 4 * (1 - th ^ 2) * (2 * eta0 ^ 2 - e0 * eta0 - e0 * eta0 ^ 3) * cos (2 * w0))).
Definition C5 : R :=
  2 * q4 * xi ^ 4 * a0'' * beta0 ^ 2 / Rpower psi2 (7 / 2) * (1 + 11 / 4 * eta0 * (eta0 + e0) + e0 * eta0 ^ 3).
Definition D2 : R := 4 * a0'' * xi * C1 ^ 2.
Definition D3 : R := 4 / 3 * a0'' * xi ^ 2 * (17 * a0'' + s_star) * C1 ^ 3.
Definition D4 : R := 2 / 3 * a0'' ^ 2 * xi ^ 3 * (221 * a0'' + 31 * s_star) * C1 ^ 4.
(** The perigee is below 220 km: the terms C3, C5, D2, D3, D4 and all after the quadratic one are dropped. *)
Definition low : bool := if Rlt_dec (a0'' * (1 - e0)) (220 / XKMPER + 1) then true else false.
Section At.
Context (t : R).   (* minutes since the epoch *)
Definition M_DF : R :=
  M0 + (1 + 3 * K2 * (- 1 + 3 * th ^ 2) / (2 * a0'' ^ 2 * beta0 ^ 3)
        + 3 * K2 ^ 2 * (13 - 78 * th ^ 2 + 137 * th ^ 4) / (16 * a0'' ^ 4 * beta0 ^ 7)) * n0'' * t.
Definition w_DF : R :=
  w0 + (- (3 * K2 * (1 - 5 * th ^ 2) / (2 * a0'' ^ 2 * beta0 ^ 4))
        + 3 * K2 ^ 2 * (7 - 114 * th ^ 2 + 395 * th ^ 4) / (16 * a0'' ^ 4 * beta0 ^ 8)
        + 5 * K4 * (3 - 36 * th ^ 2 + 49 * th ^ 4) / (4 * a0'' ^ 4 * beta0 ^ 8)) * n0'' * t.
Definition node_DF : R :=
  node0 + (- (3 * K2 * th / (a0'' ^ 2 * beta0 ^ 4))
           + 3 * K2 ^ 2 * (4 * th - 19 * th ^ 3) / (2 * a0'' ^ 4 * beta0 ^ 8)
           + 5 * K4 * th * (3 - 7 * th ^ 2) / (2 * a0'' ^ 4 * beta0 ^ 8)) * n0'' * t.
Definition d_w : R := bstar * C3 * cos w0 * t.
Definition d_M : R := - (2 / 3 * q4 * bstar * xi ^ 4 / (e0 * eta0)) * ((1 + eta0 * cos M_DF) ^ 3 - (1 + eta0 * cos M0) ^ 3).
(** The report has no such rule for nearly circular orbits; the program drops both terms when e0 < 1e-4. *)
Definition d_sum : R := if Rlt_dec e0 (1 / 10000) then 0 else d_w + d_M.
Definition mean_M : R := if low then M_DF else M_DF + d_sum.
Definition mean_w : R := if low then w_DF else w_DF - d_sum.
Definition mean_node : R := node_DF - 21 / 2 * (n0'' * K2 * th / (a0'' ^ 2 * beta0 ^ 2)) * C1 * t ^ 2.
Definition a_factor : R := if low then 1 - C1 * t else 1 - C1 * t - D2 * t ^ 2 - D3 * t ^ 3 - D4 * t ^ 4.
Definition mean_a : R := a0'' * a_factor ^ 2.
Definition mean_e : R :=
  if low then e0 - bstar * C4 * t else e0 - bstar * C4 * t - bstar * C5 * (sin mean_M - sin M0).
Definition mean_L : R :=
  mean_M + mean_w + mean_node
  + n0'' * (3 / 2 * C1 * t ^ 2
            + if low then 0
              else (D2 + 2 * C1 ^ 2) * t ^ 3 + 1 / 4 * (3 * D3 + 12 * C1 * D2 + 10 * C1 ^ 3) * t ^ 4
                   + 1 / 5 * (3 * D4 + 12 * C1 * D3 + 6 * D2 ^ 2 + 30 * C1 ^ 2 * D2 + 15 * C1 ^ 4) * t ^ 5).
End At.
End Drag.
(** (q0 - s)^4. *)
Definition q_star : R := (1 + 120 / XKMPER - s_star) ^ 4.
End Secular.

Definition vec_of (p : R * R * R) : vec3 := v3 (fst (fst p)) (snd (fst p)) (snd p).
