(** What SGP should compute, by Spacetrack Report No. 3 (Hoots and Roehrich, 1980), section 2, in the notation of OrbSpec.  Units: the
    radius of the Earth, radians, minutes. *)
From Coq Require Import Reals.
From Verif Require Import OrbSpec.
Open Scope R_scope.

(** ** The elements at a date *)
(** [nd] and [ndd] are half the first and a sixth of the second derivative of the mean motion; [a0] the semi-major axis at the epoch. *)
Section Date.
Context (i0 node0 e0 w0 M0 n0 a0 nd ndd t : R).
Definition n_s : R := n0 + 2 * nd * t + 3 * ndd * t ^ 2.
Definition a_s : R := a0 * Rpower (n0 / n_s) (2 / 3).
Definition q_0 : R := a0 * (1 - e0).
Definition p_0 : R := a0 * (1 - e0 ^ 2).
Definition e_s : R := if Rlt_dec q_0 a_s then 1 - q_0 / a_s else 1 / 10 ^ 6.
Definition node_rate : R := - (3 / 2) * J2 / p_0 ^ 2 * n0 * cos i0.
Definition w_rate : R := 3 / 4 * J2 / p_0 ^ 2 * n0 * (5 * cos i0 ^ 2 - 1).
Definition node_s : R := node0 + node_rate * t.
Definition w_s : R := w0 + w_rate * t.
Definition L_s : R := M0 + w0 + node0 + (n0 + w_rate + node_rate) * t + nd * t ^ 2 + ndd * t ^ 3.
End Date.

(** ** From the elements at the date to position and velocity *)
Section Place.
Context (node a e i w : R).
(** Long-period terms by the harmonics: the vector of eccentricity is (axN, ayS) and the longitude LS. *)
Definition ayS : R := e * sin w - 1 / 2 * (J3 / J2) / (a * (1 - e ^ 2)) * sin i.
Definition LS (L : R) : R := L - 1 / 4 * (J3 / J2) / (a * (1 - e ^ 2)) * (e * cos w) * sin i * ((3 + 5 * cos i) / (1 + cos i)).
Definition pS : R := a * (1 - (axN e w ^ 2 + ayS ^ 2)).
(** The equation of Kepler for E + w at the longitude U from the node, and Newton's improvement held to one radian. *)
Definition defect (U E : R) : R := U - (E - axN e w * sin E + ayS * cos E).
Definition improve (U E : R) : R :=
  let s := defect U E / (1 - (axN e w * cos E + ayS * sin E)) in if Rlt_dec 1 s then E + 1 else if Rlt_dec s (-1) then E - 1 else E + s.
(** E: the first of U, improve U, ... reached by less than one millionth, or the tenth improvement. *)
Definition solved (U E : R) : Prop := exists j, (j <= 10)%nat /\ E = Nat.iter j (improve U) U
  /\ (j = 10%nat \/ exists k, j = S k /\ Rabs (E - Nat.iter k (improve U) U) < / 10 ^ 6).
(** Short-period terms at the argument of latitude u. *)
Definition placed_s (E : R) (pos vel : vec3) : Prop :=
  exists r u,
    r = a * (1 - (axN e w * cos E + ayS * sin E)) /\
    (forall eL wL, 0 <= eL -> axN e w = eL * cos wL -> ayS = eL * sin wL ->
       r * cos (u - wL) = a * (cos (E - wL) - eL) /\ r * sin (u - wL) = a * sqrt (1 - eL ^ 2) * sin (E - wL)) /\
    let node' := node + 3 / 4 * J2 / pS ^ 2 * cos i * sin (2 * u) in
    let i' := i + 3 / 4 * J2 / pS ^ 2 * sin i * cos i * cos (2 * u) in
    let u' := u - 1 / 8 * J2 / pS ^ 2 * (7 * cos i ^ 2 - 1) * sin (2 * u) in
    let r' := r + 1 / 4 * J2 / pS * sin i ^ 2 * cos (2 * u) in
    let U := radial node' i' u' in
    let V := transverse node' i' u' in
    pos = scale (XKMPER * r') U /\
    vel = scale XKMPER (plus (scale (KE * sqrt a / r * (axN e w * sin E - ayS * cos E)) U) (scale (KE * sqrt pS / r) V)).
End Place.
