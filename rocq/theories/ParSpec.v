(** What the parallactic angle is, in the real numbers, without reference to the model. *)
From Coq Require Import Reals.
From Verif Require Import GeoSpec.
Open Scope R_scope.

(** The north and the east on the sky at declination [dec] and hour angle [h], in the axes of [ha_dir]. *)
Definition sky_north (dec h : R) : rvec := (- (sin dec * cos h), sin dec * sin h, cos dec).
Definition sky_east (h : R) : rvec := (sin h, cos h, 0).
(** [q] degrees is the direction of the zenith on the sky there, from north over east. *)
Definition parallactic (dec h lat q : R) : Prop :=
  -180 < q <= 180 /\
  exists k, 0 <= k /\ dot (zenith lat) (sky_north dec h) = k * cos (radians q) /\ dot (zenith lat) (sky_east h) = k * sin (radians q).
