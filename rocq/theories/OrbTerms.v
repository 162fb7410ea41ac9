(** The words used in the theorems about the near-Earth propagator. *)
From Coq Require Import ZArith Reals.
From Verif Require Import CLib ArithModel OrbModel OrbSpec.
Open Scope R_scope.

(** An element set initialised (sgp4.c:50-102) and propagated by [t] minutes (sgp4.c:104-150), in real arithmetic. *)
Definition propagate (t : R) (o : orb ideal) : res (place ideal) := SGP4 ideal t o (SGP4_init ideal o).
(** The element set (norad.h, tle_t) with other angles. *)
Definition with_angles (o : orb ideal) (i node w M : R) : orb ideal :=
  mk_orb ideal (o_bstar ideal o) i node (o_eo ideal o) w M (o_xno ideal o) (o_type ideal o).
(** Both are results and the results are in the relation [P], or both are the same undefined behaviour. *)
Definition related (P : place ideal -> place ideal -> Prop) (x y : res (place ideal)) : Prop :=
  match x, y with Ok p, Ok q => P p q | UB r, UB s => r = s | _, _ => False end.
(** The same result code, position and velocity turned about the polar axis. *)
Definition turned (t : R) (p q : place ideal) : Prop :=
  pl_code ideal q = pl_code ideal p /\ vec_of (pl_pos ideal q) = turn t (vec_of (pl_pos ideal p))
  /\ vec_of (pl_vel ideal q) = turn t (vec_of (pl_vel ideal p)).
