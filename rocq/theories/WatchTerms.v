(** Words for the statements about the numbers of sat_visibility. *)
From Coq Require Import ZArith Reals.
From Verif Require Import CLib ArithModel GeoModel GeoSpec OrbModel DeepModel PipeModel PipeTerms WatchModel.
Open Scope R_scope.

(** Dates and longitudes for which the hours of the sidereal time fit an int. *)
Definition date_ok (w : watch ideal) (jd : R) : Prop := 0 <= jd <= 1000000000 /\ Rabs (w_lon ideal w) <= 1000000000.
(** The position that the propagator gives for a date: initialised, then called once; [old] if the call writes none. *)
Definition position (n : nat) (t : dorb ideal) (old : option rvec) (h : cache ideal) (jd : R) (pos : rvec) (code : Z) : Prop :=
  exists pr h' p, SxP4 ideal n (minutes_at t jd) t (SxP4_init ideal t) h = Ok (pr, h', code, p) /\ match p with Some p => Some p | None => old end = Some pos.
