(** What the coordinate geometry is meant to compute, in the real numbers, without reference to the model. *)
From Coq Require Import ZArith Reals.
Open Scope R_scope.

Definition rvec : Type := (R * R * R)%type.
Definition dot (u v : rvec) : R := let '(a, b, c) := u in let '(x, y, z) := v in a * x + b * y + c * z.
Definition scale (k : R) (v : rvec) : rvec := let '(x, y, z) := v in (k * x, k * y, k * z).
Definition plus (u v : rvec) : rvec := let '(a, b, c) := u in let '(x, y, z) := v in (a + x, b + y, c + z).
Definition minus (u v : rvec) : rvec := let '(a, b, c) := u in let '(x, y, z) := v in (a - x, b - y, c - z).
Definition norm (v : rvec) : R := sqrt (dot v v).

(** The unit vector towards longitude [ra] and latitude [dec] (radians). *)
Definition dir (ra dec : R) : rvec := (cos dec * cos ra, cos dec * sin ra, sin dec).

(** [a] (radians) is the angle between two unit vectors. *)
Definition angle_between (u v : rvec) (a : R) : Prop := 0 <= a <= PI /\ cos a = dot u v.

(** [t] is the polar angle of (x, y), counted from the x axis over the y axis, in [0, 2 PI). *)
Definition polar_angle (x y t : R) : Prop :=
  0 <= t < 2 * PI /\ x = sqrt (x * x + y * y) * cos t /\ y = sqrt (x * x + y * y) * sin t.

(** Two angles (radians) differ by whole turns. *)
Definition congruent (a b : R) : Prop := exists k : Z, a = b + IZR k * (2 * PI).

Definition radians (deg : R) : R := deg * (PI / 180).
Definition degrees (rad : R) : R := rad * (180 / PI).

(** The direction with declination [dec] and hour angle [h] (radians) in axes x: meridian, y: east, z: pole; and the
    vertical, the north and the east of an observer at latitude [lat] (radians) in the same axes. *)
Definition ha_dir (dec h : R) : rvec := (cos dec * cos h, - (cos dec * sin h), sin dec).
Definition zenith (lat : R) : rvec := (cos lat, 0, sin lat).
Definition north (lat : R) : rvec := (- sin lat, 0, cos lat).
Definition east : rvec := (0, 1, 0).

(** [alt] degrees is the elevation of the direction above the horizon. *)
Definition elevation (dec h lat alt : R) : Prop :=
  -90 <= alt <= 90 /\ sin (radians alt) = dot (ha_dir dec h) (zenith lat).
(** [az] degrees is its bearing, N = 0, E = 90. *)
Definition bearing (dec h lat az : R) : Prop :=
  0 <= az < 360 /\
  exists k, 0 <= k /\ dot (ha_dir dec h) (north lat) = k * cos (radians az) /\ dot (ha_dir dec h) east = k * sin (radians az).

(** The half-line from [sat] towards [sun] meets the sphere of radius [radius] about the origin. *)
Definition blocked (radius : R) (sat sun : rvec) : Prop :=
  exists d, 0 <= d /\ norm (plus sat (scale d (minus sun sat))) <= radius.

(** The point at geodetic latitude [lat] and longitude [lon] (radians), height [h], on the ellipsoid with equatorial radius
    [a] and squared eccentricity [e2]. *)
Definition prime_vertical (a e2 lat : R) : R := a / sqrt (1 - e2 * (sin lat * sin lat)).
Definition geodetic (a e2 lon lat h : R) : rvec :=
  ((prime_vertical a e2 lat + h) * cos lat * cos lon,
   (prime_vertical a e2 lat + h) * cos lat * sin lon,
   (prime_vertical a e2 lat * (1 - e2) + h) * sin lat).

(** [d] is the difference b - a taken the short way round. *)
Definition short_way (a b d : R) : Prop := congruent d (b - a) /\ - PI < d <= PI.

(** [pa] is the position angle (from north through east, radians in [0, 2 PI)) of a motion from (ra, dec) to (ra1, dec1),
    on the plane tangent at the first place. *)
Definition position_angle (ra dec ra1 dec1 pa : R) : Prop :=
  exists d, short_way ra ra1 d /\ polar_angle (dec1 - dec) (d * cos dec) pa.

(** The hour angle in radians, from hours. *)
Definition hour_angle (ha : R) : R := radians (ha * 15).

(** Componentwise within [tol]. *)
Definition near (tol : R) (u v : rvec) : Prop :=
  let '(a, b, c) := u in let '(x, y, z) := v in Rabs (a - x) <= tol /\ Rabs (b - y) <= tol /\ Rabs (c - z) <= tol.

(** The ellipsoid of sat_skymap_def.h:11-14: equatorial radius (km) and squared eccentricity, f = 0.003352819697896193. *)
Definition erad : R := 63781366 / 10000.
Definition ecc2 : R := let f := 3352819697896193 / 1000000000000000000 in f * (2 - f).

(** Julian centuries since J2000. *)
Definition centuries (jd : R) : R := (jd - 2451545) / 36525.

(** The low-precision Sun of the Astronomical Almanac: mean longitude and mean anomaly (degrees, [n] days since J2000), ecliptic
    longitude and obliquity (radians), and the direction that ecliptic longitude has in equatorial axes. *)
Definition almanac_longitude (n : R) : R :=
  let g := radians (357.528 + 0.9856003 * n) in
  radians (280.460 + 0.9856474 * n + 1.915 * sin g + 0.020 * sin (2 * g)).
Definition almanac_obliquity (n : R) : R := radians (23.439 - 0.0000004 * n).
Definition ecliptic_dir (lambda eps : R) : rvec := (cos lambda, cos eps * sin lambda, sin eps * sin lambda).
