(** Words for the statements about the numbers of sat_skymap. *)
From Coq Require Import ZArith Reals.
From Verif Require Import CLib ArithModel GeoModel GeoSpec OrbModel DeepModel PipeModel.
Open Scope R_scope.

(** Positions that the propagator gives for the two instants: initialised, called for the first, called again for the second;
    a call that writes no position leaves the one of the first. *)
Definition positions (n : nat) (t : dorb ideal) (h : cache ideal) (minutes minutes2 : R) (pos pos2 : rvec) (code1 code2 : Z) : Prop :=
  exists pr h1 pr2 h2 p2, SxP4 ideal n minutes t (SxP4_init ideal t) h = Ok (pr, h1, code1, Some pos) /\
    SxP4 ideal n minutes2 t pr h1 = Ok (pr2, h2, code2, p2) /\ pos2 = match p2 with Some p => p | None => pos end.
(** Minutes from the epoch of the elements to a date. *)
Definition minutes_at (t : dorb ideal) (jd : R) : R := (jd - d_epoch ideal t) * 1440.
(** The direction (ra, dec) and the distance in which [pos] is seen from [obs], in the ranges of the two coordinates. *)
Definition seen_at (obs pos : rvec) (ra dec dist : R) : Prop :=
  0 <= ra < 2 * PI /\ - (PI / 2) <= dec <= PI / 2 /\ 0 < dist /\ scale dist (dir ra dec) = minus pos obs.
(** Dates and longitudes for which the hours of the sidereal time fit an int. *)
Definition jd_ok (q : request ideal) : Prop := 0 <= jd_of ideal q <= 1000000000 /\ Rabs (rq_lon ideal q) <= 1000000000.
