(** The propagator SGP (sgp.c).  Nothing here but the statements. *)
From Coq Require Import ZArith Reals List.
From Verif Require Import CLib ArithModel OrbModel OrbSpec SgpModel SgpSpec SgpProofs1 SgpProofs2 SgpProofs3.
Import ListNotations.
Open Scope R_scope.

(** C110: position and velocity of SGP. *)
(** The semi-major axis at the epoch, up to two rounded constants. *)
Theorem C110_axis : forall o, let i := o_xincl ideal o in let e0 := o_eo ideal o in let n0 := o_xno ideal o in
  0 < n0 -> 0 <= e0 < 1 -> let d := delta_of i e0 (a_1 n0) in
  Rabs (s_ao ideal (SGP_init ideal o) - a_0 i e0 n0) <= a_1 n0 * (Rabs d + Rabs d ^ 3) / 10 ^ 16.
Proof. exact axis_near. Qed.
Print Assumptions C110_axis.
Theorem C110_place : forall o nd ndd t,
  let i := o_xincl ideal o in let e0 := o_eo ideal o in let n0 := o_xno ideal o in let q := SGP_init ideal o in let a0 := s_ao ideal q in
  let a := a_s n0 a0 nd ndd t in let e := e_s e0 n0 a0 nd ndd t in let w := w_s i e0 (o_omegao ideal o) n0 a0 t in let node := node_s i (o_xnodeo ideal o) e0 n0 a0 t in
  let L := L_s i (o_xnodeo ideal o) e0 (o_omegao ideal o) (o_xmo ideal o) n0 a0 nd ndd t in
  let out := SGP ideal t o nd ndd q in
  0 < n0 -> 0 <= e0 < 1 -> 0 < a0 -> 0 < n_s n0 nd ndd t -> 1 + cos i <> 0 -> axN e w ^ 2 + ayS a e i w ^ 2 < 1 ->
  exists U E k, 0 <= U < 2 * PI /\ U = LS a e i w L - node + 2 * PI * IZR k /\ solved a e i w U E /\ placed_s node a e i w E (vec_of (pl_pos ideal out)) (vec_of (pl_vel ideal out)).
Proof. exact sgp_ok. Qed.
Print Assumptions C110_place.
(** Up to the eccentricity 1/2 Kepler's equation is solved to 1e-12, within the eleven turns. *)
Theorem C110_kepler : forall a e i w U E, axN e w * axN e w + ayS a e i w * ayS a e i w <= 1 / 4 -> solved a e i w U E -> Rabs (defect a e i w U E) <= 1 / 10 ^ 12.
Proof. exact solved_sgp. Qed.
Print Assumptions C110_kepler.
(** The anomaly is as near to the true one as that defect allows. *)
Theorem C110_anomaly : forall a e i w U E T, axN e w * axN e w + ayS a e i w * ayS a e i w < 1 -> defect a e i w U T = 0 ->
  Rabs (E - T) <= Rabs (defect a e i w U E) / (1 - sqrt (axN e w * axN e w + ayS a e i w * ayS a e i w)).
Proof. exact close_sgp. Qed.
Print Assumptions C110_anomaly.
(** The hypotheses of C110_place for an orbit of four Earth radii with eccentricity 4/5. *)
Example C110_example : let o := o_deep in let a0 := s_ao ideal (SGP_init ideal o) in let i := o_xincl ideal o in let e0 := o_eo ideal o in let n0 := o_xno ideal o in
  let a := a_s n0 a0 0 0 0 in let e := e_s e0 n0 a0 0 0 0 in let w := w_s i e0 (o_omegao ideal o) n0 a0 0 in
  0 < n0 /\ 0 <= e0 < 1 /\ 0 < a0 /\ 0 < n_s n0 0 0 0 /\ 1 + cos i <> 0 /\ axN e w ^ 2 + ayS a e i w ^ 2 < 1.
Proof. exact deep_hyps. Qed.
Example C110_axis_example : 3 < s_ao ideal (SGP_init ideal o_deep) < 9 / 2.
Proof. exact deep_axis. Qed.

(** C111: what SGP reports. *)
Theorem C111_negative : forall o nd ndd t, n_s (o_xno ideal o) nd ndd t < 0 -> SGP ideal t o nd ndd (SGP_init ideal o) = mk_place ideal (-2) (zero ideal) (zero ideal).
Proof. exact sgp_negative. Qed.
Print Assumptions C111_negative.
Theorem C111_codes : forall A t o nd ndd q, In (pl_code A (SGP A t o nd ndd q)) [0; -1; -2; -4]%Z.
Proof. exact sgp_codes. Qed.
Print Assumptions C111_codes.
Theorem C111_never_parabolic : forall m t o nd ndd q, pl_code (machine m) (SGP (machine m) t o nd ndd q) <> (-1)%Z.
Proof. exact sgp_never_1. Qed.
Print Assumptions C111_never_parabolic.
(** An orbit whose perigee is inside the Earth, without a warning. *)
Theorem C111_perigee_refuted : exists o nd ndd t, let q := SGP_init ideal o in let a := a_s (o_xno ideal o) (s_ao ideal q) nd ndd t in let e := e_s (o_eo ideal o) (o_xno ideal o) (s_ao ideal q) nd ndd t in
  0 < a /\ 0 < e < 1 /\ a * (1 - e) < 1 /\ pl_code ideal (SGP ideal t o nd ndd q) = 0%Z.
Proof. exact perigee_in_earth. Qed.
Print Assumptions C111_perigee_refuted.
(** An orbit within one millionth of a parabola, without an error. *)
Theorem C111_parabolic_refuted : exists o nd ndd t, let q := SGP_init ideal o in let e := e_s (o_eo ideal o) (o_xno ideal o) (s_ao ideal q) nd ndd t in
  0 < n_s (o_xno ideal o) nd ndd t /\ 1 - / 10 ^ 6 < e < 1 /\ pl_code ideal (SGP ideal t o nd ndd q) = 0%Z.
Proof. exact parabola_reached. Qed.
Print Assumptions C111_parabolic_refuted.
Example C111_example : SGP ideal 1 o_deep (- KE) 0 (SGP_init ideal o_deep) = mk_place ideal (-2) (zero ideal) (zero ideal).
Proof. exact deep_negative. Qed.
