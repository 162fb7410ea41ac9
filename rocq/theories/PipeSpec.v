(** What the numbers of sat_skymap are meant to be, in the real numbers, without reference to the model. *)
From Coq Require Import ZArith Reals.
From Verif Require Import GeoSpec TimeSpec.
Open Scope R_scope.

(** The Greenwich mean sidereal time as an angle (radians, not reduced). *)
Definition sidereal (jd : R) : R := radians (15 * gmst_hours jd).
(** The place of an observer (degrees, metres) at a date, in km, equator and equinox of date, on the ellipsoid with semi-axes
    6378.140 and 6356.755 km; and the vertical there. *)
Definition site (lat lon ht jd : R) : rvec :=
  geodetic 6378.140 (1 - (6356755 / 6378140) * (6356755 / 6378140)) (radians lon + sidereal jd) (radians lat) (ht / 1000).
Definition vertical (lat lon jd : R) : rvec := dir (radians lon + sidereal jd) (radians lat).

(** The Sun, in km. *)
Definition sun_at (jd : R) : rvec := scale 149597870.700 (ecliptic_dir (almanac_longitude (jd - 2451545)) (almanac_obliquity (jd - 2451545))).

(** The annual precession in right ascension and in declination (radians per year; Meeus: 3.07496 s + 0.00186 s T and
    1.33621 s - 0.00057 s T), in the mean between J2000 and the date. *)
Definition precession_m (jd : R) : R := radians (15 * (3.07496 + 0.00186 * (centuries jd / 2)) / 3600).
Definition precession_n (jd : R) : R := radians (15 * (1.33621 - 0.00057 * (centuries jd / 2)) / 3600).
Definition cross (u v : rvec) : rvec :=
  let '(a, b, c) := u in let '(x, y, z) := v in (b * z - c * y, c * x - a * z, a * y - b * x).
(** A direction of date turned back to J2000 at this rate, to first order: the axes turn by m about the pole and by n about the
    direction at right ascension 18h on the equator. *)
Definition turned_back (jd : R) (v : rvec) : rvec :=
  minus v (scale (100 * centuries jd) (cross (0, - precession_n jd, precession_m jd) v)).
(** (ra', dec') is the direction (ra, dec) of date referred to J2000, to first order within ten centuries. *)
Definition j2000_of (jd ra dec ra' dec' : R) : Prop :=
  Rabs (centuries jd) <= 10 -> cos dec <> 0 ->
  near ((100 * centuries jd) ^ 2 * ((precession_m jd + precession_n jd * Rabs (tan dec)) ^ 2 + precession_n jd ^ 2) / 2)
    (dir ra' dec') (turned_back jd (dir ra dec)).

(** North and east at the observer, in the axes of [vertical]; height above the horizon and bearing (degrees) of a direction. *)
Definition northward (lat lon jd : R) : rvec :=
  let t := radians lon + sidereal jd in (- (sin (radians lat) * cos t), - (sin (radians lat) * sin t), cos (radians lat)).
Definition eastward (lon jd : R) : rvec := let t := radians lon + sidereal jd in (- sin t, cos t, 0).
Definition altitude_of (v : rvec) (lat lon jd alt : R) : Prop := -90 <= alt <= 90 /\ sin (radians alt) = dot v (vertical lat lon jd).
Definition azimuth_of (v : rvec) (lat lon jd az : R) : Prop :=
  0 <= az < 360 /\
  exists k, 0 <= k /\ dot v (northward lat lon jd) = k * cos (radians az) /\ dot v (eastward lon jd) = k * sin (radians az).
