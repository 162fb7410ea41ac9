(** The frame of the state vectors of the ephemeris type H, without the code. *)
From Coq Require Import Reals.
From Verif Require Import OrbSpec.
Open Scope R_scope.

(** The obliquity of the ecliptic at J2000, 84381.448 seconds of arc; numbers near its cosine and sine. *)
Definition obliquity_2000 : R := 84381.448 * PI / 648000.
Definition of_obliquity (c s : R) : Prop := Rabs (c - cos obliquity_2000) <= / 10 ^ 16 /\ Rabs (s - sin obliquity_2000) <= / 10 ^ 16.
(** From the ecliptic to the equator, about the x axis they share, and back. *)
Definition to_equator (c s : R) (v : vec3) : vec3 := v3 (c_x v) (c * c_y v - s * c_z v) (s * c_y v + c * c_z v).
Definition to_ecliptic (c s : R) (v : vec3) : vec3 := v3 (c_x v) (c * c_y v + s * c_z v) (c * c_z v - s * c_y v).
