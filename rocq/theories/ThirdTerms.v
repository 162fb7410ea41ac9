(** The words of the theorems about the lunar and solar terms: a satellite whose orbit is an ellipse around the Earth, and what
    Deep_dpinit (deep.c:127-436) leaves for it. *)
From Coq Require Import ZArith Reals.
From Verif Require Import CLib ArithModel OrbModel OrbSpec DeepModel ThirdSpec.
Open Scope R_scope.

Section Satellite.
Context (t : dorb ideal).
Definition t_e : R := o_eo ideal (d_orb ideal t).
Definition t_i : R := o_xincl ideal (d_orb ideal t).
Definition t_w : R := o_omegao ideal (d_orb ideal t).
Definition t_h : R := o_xnodeo ideal (d_orb ideal t).
(** the mean motion of Brouwer, in radians per minute, and the days from 1900 to the epoch *)
Definition t_n : R := n0'' t_i t_e (o_xno ideal (d_orb ideal t)).
Definition t_d : R := d_epoch ideal t - 2415020.
Definition t_deep : deep ideal := Deep_dpinit ideal t (sxpx_common_init ideal (d_orb ideal t)).
(** An ellipse that is neither a circle nor in the plane of the equator, with an epoch within 270 years of 1900. *)
Definition elliptic : Prop :=
  0 < t_e < 1 /\ 0 < t_i < PI /\ 0 < o_xno ideal (d_orb ideal t) /\ 0 < t_n /\ 0 < a0'' t_i t_e (o_xno ideal (d_orb ideal t)) /\ Rabs t_d <= 10 ^ 5.
End Satellite.
(** One turn of the loop deep.c:190-286 for a satellite with elements e, i, w, h and mean motion n, and a body on the path o *)
Definition pass (o : path) (zn cc ze n e i w h : R) : rates ideal :=
  third_body ideal e i (cos i) (sin i) (cos w) (sin w) (e * e) (sqrt (1 - e * e)) (1 - e * e) n
    (p_cw o) (p_sw o) (p_ci o) (p_si o) (p_ch o * cos h + p_sh o * sin h) (sin h * p_ch o - cos h * p_sh o) zn cc ze.
