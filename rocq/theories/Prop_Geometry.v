(** Property theorems C25-C31, C33-C36 and C75-C77: the coordinate geometry.  [ideal] is the program computed with real numbers,
    [machine m] in binary64 with the functions [m] for <math.h>. *)
From Coq Require Import ZArith Reals.
From Verif Require Import CLib FloatModel ArithModel GeoModel GeoSpec GeoProofs1 GeoProofs2 GeoProofs3 GeoProofs4 GeoProofs5 GeoProofs6 GeoRuns GeoExamples.
From Verif Require Import PipeSpec ParSpec PipeProofs2 GeoProofs7.
Open Scope R_scope.

(** C25: the separation is the angle between the two directions, in degrees; 0..180; symmetric; 0 for equal directions only. *)
Theorem C25_great_circle : forall t1 p1 t2 p2, exists a,
  angle_between (dir t1 p1) (dir t2 p2) a /\ skysep_h ideal t1 p1 t2 p2 = degrees a.
Proof. exact skysep_angle. Qed.
Print Assumptions C25_great_circle.
Theorem C25_range : forall t1 p1 t2 p2, 0 <= skysep_h ideal t1 p1 t2 p2 <= 180.
Proof. exact skysep_range. Qed.
Print Assumptions C25_range.
Theorem C25_symmetric : forall t1 p1 t2 p2, skysep_h ideal t1 p1 t2 p2 = skysep_h ideal t2 p2 t1 p1.
Proof. exact skysep_sym. Qed.
Print Assumptions C25_symmetric.
Theorem C25_zero : forall t1 p1 t2 p2, skysep_h ideal t1 p1 t2 p2 = 0 <-> dir t1 p1 = dir t2 p2.
Proof. exact skysep_zero. Qed.
Print Assumptions C25_zero.
Example C25_across_zero : skysep_h ideal (- (PI / 4)) 0 (PI / 4) 0 = 90.
Proof. exact ex_sep_quarter. Qed.
Example C25_opposite : skysep_h ideal 0 0 PI 0 = 180.
Proof. exact ex_sep_opposite. Qed.
Example C25_pole : skysep_h ideal 1 (PI / 2) 2 (PI / 2) = 0 /\ skysep_h ideal 1 0 2 0 <> 0.
Proof. exact ex_sep_pole. Qed.

(** C26: atan_circ is the polar angle in [0, 2 PI), and 0 at the origin. *)
Theorem C26_polar_angle : forall x y, polar_angle x y (atan_circ ideal x y).
Proof. exact atan_circ_polar. Qed.
Print Assumptions C26_polar_angle.
Theorem C26_origin : atan_circ ideal 0 0 = 0.
Proof. exact atan_circ_origin. Qed.
Print Assumptions C26_origin.
Example C26_example : atan_circ ideal (-1) 1 = 3 * (PI / 4) /\ atan_circ ideal 0 (-2) = 3 * (PI / 2).
Proof. exact ex_circ. Qed.

(** C27: right ascension, declination and distance describe the vector from the observer to the satellite. *)
Theorem C27_vector : forall (obs sat : rvec) ra dec delta, minus sat obs <> (0, 0, 0) ->
  get_satellite_ra_dec_delta ideal obs sat = (ra, dec, delta) ->
  0 <= ra < 2 * PI /\ - (PI / 2) <= dec <= PI / 2 /\ 0 < delta /\ scale delta (dir ra dec) = minus sat obs.
Proof. exact topocentric. Qed.
Print Assumptions C27_vector.
Example C27_example : get_satellite_ra_dec_delta ideal (1, 2, 3) (1, 0, 3) = (3 * (PI / 2), 0, 2).
Proof. exact ex_topocentric. Qed.

(** C28: "in shadow" exactly when the half-line from the satellite towards the Sun meets the sphere; the two lengths returned
    with it are the distances along that ray at which it crosses the sphere. *)
Theorem C28_shadow_iff : forall sat sun : rvec, minus sun sat <> (0, 0, 0) ->
  (fst (fst (intersect_satsun_sphere ideal sat sun)) = true <-> blocked erad sat sun).
Proof. exact shadow_erad. Qed.
Print Assumptions C28_shadow_iff.
Theorem C28_crossing_points : forall (sat sun : rvec) r0 r1, minus sun sat <> (0, 0, 0) ->
  intersect_satsun_sphere ideal sat sun = (true, r0, r1) ->
  forall r, (r = r0 \/ r = r1) -> norm (plus sat (scale (r / norm (minus sun sat)) (minus sun sat))) = erad.
Proof. exact shadow_points_erad. Qed.
Print Assumptions C28_crossing_points.
Example C28_example : fst (fst (intersect_satsun_sphere ideal (-7000, 0, 0) (149597870, 0, 0))) = true /\
  fst (fst (intersect_satsun_sphere ideal (7000, 0, 0) (149597870, 0, 0))) = false.
Proof. exact ex_sunlit. Qed.

(** C29: off the axis of the Earth and above 0.9 Earth radii the iteration ends within five turns, longitude and latitude are in
    range, and they give back the position, within 2 mm, with the altitude on the ellipsoid ... *)
Theorem C29_place : forall fuel gmst x y z, (5 <= fuel)%nat -> 0 <= gmst <= 24 -> 0 < x * x + y * y ->
  81 / 100 * (erad * erad) <= x * x + y * y + z * z ->
  exists p, sat_geoLocation ideal fuel gmst (x, y, z) = Ok p /\
    -180 <= pl_lon ideal p <= 180 /\ -90 < pl_lat ideal p < 90 /\
    near (2 / 1000000) (geodetic erad ecc2 (radians (pl_lon ideal p + 15 * gmst)) (radians (pl_lat ideal p)) (pl_alt ideal p)) (x, y, z).
Proof. exact place_right. Qed.
Print Assumptions C29_place.
Example C29_example : exists p, sat_geoLocation ideal 5 0 (7000, 0, 0) = Ok p /\
  near (2 / 1000000) (geodetic erad ecc2 (radians (pl_lon ideal p)) (radians (pl_lat ideal p)) (pl_alt ideal p)) (7000, 0, 0).
Proof. exact ex_place. Qed.
(** ... but over the pole the altitude is wrong: a satellite at (0, 0, 7000) km is given an altitude below -6399 km, in binary64
    with every <math.h> that returns the expected values at PI/2. *)
Theorem C29_pole_refuted : exists z, forall m fuel gmst, (1 <= fuel)%nat ->
  (forall y x, flt (round_ratio 0 1) y = true -> feq x (round_ratio 0 1) = true -> m_atan2 m y x = half_pi64) ->
  m_sin m half_pi64 = round_ratio 1 1 ->
  m_cos m half_pi64 = round_ratio 6123233995736766 100000000000000000000000000000000 ->
  exists p, sat_geoLocation (machine m) fuel gmst (round_ratio 0 1, round_ratio 0 1, z) = Ok p /\
    flt (pl_alt (machine m) p) (round_ratio (-6399) 1) = true.
Proof. exact (ex_intro _ (round_ratio 7000 1) wrong_pole_64). Qed.
Print Assumptions C29_pole_refuted.

(** C30: refuted, a star on the horizon is reported at the zenith (declination equal to the latitude) ... *)
Theorem C30_refuted : exists dec ha lat h, dechalat2alt ideal dec ha lat = Ok h /\ hz_alt ideal h = 90 /\
  elevation dec (hour_angle ha) (radians lat) 0.
Proof. exact wrong_zenith. Qed.
Print Assumptions C30_refuted.
(** ... as is every direction, at any hour angle, whose declination is within 1e-6 of the latitude ... *)
Theorem C30_shortcut : forall dec ha lat h, dechalat2alt ideal dec ha lat = Ok h ->
  ~ 1 / 1000000 <= Rabs (dec - radians lat) -> hz_alt ideal h = 90.
Proof. exact altitude_shortcut. Qed.
Print Assumptions C30_shortcut.
(** ... everywhere else the altitude is the elevation, up to 1.1e-6 in its sine for observers at the poles. *)
Theorem C30_otherwise : forall dec ha lat h, dechalat2alt ideal dec ha lat = Ok h ->
  1 / 1000000 <= Rabs (dec - radians lat) -> ha = 0 \/ 1 / 1000000 <= cos (radians lat) ->
  elevation dec (hour_angle ha) (radians lat) (hz_alt ideal h).
Proof. exact altitude. Qed.
Print Assumptions C30_otherwise.
Theorem C30_polar : forall dec ha lat h, dechalat2alt ideal dec ha lat = Ok h ->
  1 / 1000000 <= Rabs (dec - radians lat) -> ha <> 0 -> ~ 1 / 1000000 <= cos (radians lat) -> -90 <= lat <= 90 ->
  -90 <= hz_alt ideal h <= 90 /\
  Rabs (sin (radians (hz_alt ideal h)) - dot (ha_dir dec (hour_angle ha)) (zenith (radians lat))) <= 11 / 10000000.
Proof. exact altitude_polar. Qed.
Print Assumptions C30_polar.
Theorem C30_defined : forall dec ha lat, exists h, dechalat2alt ideal dec ha lat = Ok h.
Proof. exact horizon_defined. Qed.
Print Assumptions C30_defined.
Example C30_example : exists h, dechalat2alt ideal 0 0 45 = Ok h /\ hz_alt ideal h = 45.
Proof. exact ex_altitude. Qed.

(** C31: refuted on the meridian (south of the zenith: azimuth 0, not 180) and for polar observers (the hour angle in radians,
    possibly negative) ... *)
Theorem C31_meridian_refuted : exists dec lat h, dechalat2alt ideal dec 0 lat = Ok h /\ hz_az ideal h = 0 /\
  ~ bearing dec (hour_angle 0) (radians lat) 0 /\ bearing dec (hour_angle 0) (radians lat) 180.
Proof. exact wrong_meridian. Qed.
Print Assumptions C31_meridian_refuted.
Theorem C31_polar_refuted : exists dec ha lat h, dechalat2alt ideal dec ha lat = Ok h /\ hz_az ideal h = - (PI / 12) /\
  hz_az ideal h < 0 /\ bearing dec (hour_angle ha) (radians lat) 165.
Proof. exact wrong_polar. Qed.
Print Assumptions C31_polar_refuted.
(** ... the azimuth is the bearing off the meridian for every other observer, on the meridian exactly when the direction is not
    south of the zenith, and for polar observers it is always the hour angle in radians. *)
Theorem C31_otherwise : forall dec ha lat h, dechalat2alt ideal dec ha lat = Ok h -> ha <> 0 -> 1 / 1000000 <= cos (radians lat) ->
  bearing dec (hour_angle ha) (radians lat) (hz_az ideal h).
Proof. exact azimuth. Qed.
Print Assumptions C31_otherwise.
Theorem C31_meridian : forall dec lat h, dechalat2alt ideal dec 0 lat = Ok h ->
  (bearing dec (hour_angle 0) (radians lat) (hz_az ideal h) <-> 0 <= sin (dec - radians lat)).
Proof. exact azimuth_meridian. Qed.
Print Assumptions C31_meridian.
Theorem C31_polar : forall dec ha lat h, dechalat2alt ideal dec ha lat = Ok h -> ha <> 0 -> ~ 1 / 1000000 <= cos (radians lat) ->
  hz_az ideal h = hour_angle ha.
Proof. exact azimuth_polar. Qed.
Print Assumptions C31_polar.
Example C31_example : exists h, dechalat2alt ideal 0 6 45 = Ok h /\ bearing 0 (hour_angle 6) (radians 45) (hz_az ideal h) /\
  bearing 0 (hour_angle 6) (radians 45) 270.
Proof. exact ex_west. Qed.

(** C33: refuted near the poles, declinations beyond 90 degrees and right ascensions beyond 24 hours come out ... *)
Theorem C33_dec_refuted : exists jd ra dec ra' dec', Rabs (centuries jd) <= 1 /\ 0 <= ra < 2 * PI /\ - (PI / 2) < dec < PI / 2 /\
  epoch_of_date_to_j2000 ideal jd ra dec = (ra', dec') /\ PI / 2 < dec'.
Proof. exact wrong_dec. Qed.
Print Assumptions C33_dec_refuted.
Theorem C33_ra_refuted : exists jd ra dec ra' dec', Rabs (centuries jd) <= 1 /\ 0 <= ra < 2 * PI /\ - (PI / 2) < dec < PI / 2 /\
  epoch_of_date_to_j2000 ideal jd ra dec = (ra', dec') /\ 2 * PI <= ra'.
Proof. exact wrong_ra. Qed.
Print Assumptions C33_ra_refuted.
(** ... within a century of J2000 and more than 0.6 degrees from the poles the results are in range; at J2000 nothing changes. *)
Theorem C33_in_range : forall jd ra dec ra' dec', Rabs (centuries jd) <= 1 -> 0 <= ra < 2 * PI -> - (PI / 2) < dec < PI / 2 ->
  Rabs (tan dec) <= 100 -> epoch_of_date_to_j2000 ideal jd ra dec = (ra', dec') ->
  0 <= ra' < 2 * PI /\ - (PI / 2) < dec' < PI / 2.
Proof. exact j2000_in_range. Qed.
Print Assumptions C33_in_range.
Theorem C33_identity : forall ra dec, 0 <= ra < 2 * PI -> epoch_of_date_to_j2000 ideal 2451545 ra dec = (ra, dec).
Proof. exact j2000_identity. Qed.
Print Assumptions C33_identity.
(** To first order in the time since J2000 the direction is the one turned back at the published rates. *)
Theorem C33_first_order : forall jd ra dec ra' dec', Rabs (centuries jd) <= 10 -> cos dec <> 0 -> epoch_of_date_to_j2000 ideal jd ra dec = (ra', dec') ->
  near ((100 * centuries jd) ^ 2 * ((precession_m jd + precession_n jd * Rabs (tan dec)) ^ 2 + precession_n jd ^ 2) / 2)
    (dir ra' dec') (turned_back jd (dir ra dec)).
Proof. exact j2000_first_order. Qed.
Print Assumptions C33_first_order.
Example C33_example : exists ra' dec', epoch_of_date_to_j2000 ideal (2451545 + 36525) 0 0 = (ra', dec') /\
  6 < ra' < 2 * PI /\ - (1 / 100) < dec' < 0.
Proof. exact ex_j2000. Qed.

(** C34: refuted, 0.2 radian (11.5 degrees) apart across 0h, reported more than 340 degrees apart; in binary64 too, whatever
    <math.h> returns: the difference of 6.2 and 0.1 is left above PI ... *)
Theorem C34_refuted : exists ra target, 0 <= ra < 2 * PI /\ 0 <= target < 2 * PI /\
  angle_between (dir target 0) (dir ra 0) (2 / 10) /\ degrees (2 / 10) < 12 /\ 340 < flat_sep ideal ra 0 target 0.
Proof. exact wrong_side. Qed.
Print Assumptions C34_refuted.
Theorem C34_binary64_refuted : exists ra target, forall m, flt PI64 (ra_diff (machine m) ra target) = true.
Proof. exact (ex_intro _ (round_ratio 62 10) (ex_intro _ (round_ratio 1 10) wrong_side_64)). Qed.
Print Assumptions C34_binary64_refuted.
(** ... and, the difference of right ascension not being multiplied by cos(dec), less than a degree apart near the pole is
    reported as 90 degrees. *)
Theorem C34_pole_refuted : exists ra dec target g, 0 <= ra < 2 * PI /\ 0 <= target < 2 * PI /\ - (PI / 2) <= dec <= PI / 2 /\
  angle_between (dir target dec) (dir ra dec) g /\ degrees g < 1 /\ flat_sep ideal ra dec target dec = 90.
Proof. exact wrong_scale. Qed.
Print Assumptions C34_pole_refuted.
(** The difference is always congruent to the true one, and the short way round exactly when the satellite is not more than 12
    hours east of the target in the numbers; on the equator the separation is then the true one. *)
Theorem C34_congruent : forall ra target, congruent (ra_diff ideal ra target) (ra - target).
Proof. exact ra_diff_congruent. Qed.
Print Assumptions C34_congruent.
Theorem C34_short_iff : forall ra target, 0 <= ra < 2 * PI -> 0 <= target < 2 * PI ->
  (short_way target ra (ra_diff ideal ra target) <-> ra - target <= PI).
Proof. exact ra_diff_short. Qed.
Print Assumptions C34_short_iff.
Theorem C34_equator : forall ra target, 0 <= ra < 2 * PI -> 0 <= target < 2 * PI -> ra - target <= PI ->
  angle_between (dir target 0) (dir ra 0) (Rabs (ra_diff ideal ra target)) /\
  flat_sep ideal ra 0 target 0 = degrees (Rabs (ra_diff ideal ra target)).
Proof. exact flat_sep_equator. Qed.
Print Assumptions C34_equator.
(** The errors go one way: the flat separation is never smaller than the true one, so no satellite outside the radius is listed. *)
Theorem C34_never_closer : forall ra dec target_ra target_dec g, - (PI / 2) <= dec <= PI / 2 -> - (PI / 2) <= target_dec <= PI / 2 ->
  angle_between (dir target_ra target_dec) (dir ra dec) g -> degrees g <= flat_sep ideal ra dec target_ra target_dec.
Proof. exact flat_sep_bounds. Qed.
Print Assumptions C34_never_closer.
Example C34_example : flat_sep ideal (2 / 10) 0 (1 / 10) 0 = degrees (1 / 10) /\
  flat_sep ideal (1 / 10) 0 (2 * PI - 1 / 10) 0 = degrees (2 / 10).
Proof. exact ex_flat. Qed.

(** C35: refuted, westward motion across 0h is reported as eastward ... *)
Theorem C35_refuted : exists ra ra1, 0 <= ra < 2 * PI /\ 0 <= ra1 < 2 * PI /\
  motion_angle ideal ra 0 ra1 0 = PI / 2 /\ position_angle ra 0 ra1 0 (3 * (PI / 2)).
Proof. exact wrong_motion. Qed.
Print Assumptions C35_refuted.
(** ... any other motion gets its position angle, and the value is always in range. *)
Theorem C35_otherwise : forall ra dec ra1 dec1, 0 <= ra < 2 * PI -> 0 <= ra1 < 2 * PI -> ra1 - ra <= PI ->
  (dec1 <> dec \/ ra_diff ideal ra1 ra * cos dec <> 0) ->
  position_angle ra dec ra1 dec1 (motion_angle ideal ra dec ra1 dec1).
Proof. exact motion_angle_right. Qed.
Print Assumptions C35_otherwise.
Theorem C35_range : forall ra dec ra1 dec1, 0 <= motion_angle ideal ra dec ra1 dec1 < 2 * PI.
Proof. exact motion_angle_range. Qed.
Print Assumptions C35_range.
Example C35_example : position_angle 1 0 1 (1 / 10) 0 /\ position_angle (2 * PI - 1 / 1000) 0 (1 / 1000) 0 (PI / 2).
Proof. exact ex_motion. Qed.

(** C36: refuted, without -H a latitude in degrees is compared with one in radians: exactly above the requested point at latitude
    10 the separation is 562 degrees, in real numbers and in binary64 ... *)
Theorem C36_refuted : exists lon lat, flat_geo_sep ideal lon lat (radians lon) (radians lat) > 562.
Proof. exact wrong_units. Qed.
Print Assumptions C36_refuted.
Theorem C36_binary64_refuted : exists lon lat, forall m,
  flt (round_ratio 562 1) (flat_geo_sep (machine m) lon lat lon (fmul lat DEG64)) = true.
Proof. exact (ex_intro _ (round_ratio 0 1) (ex_intro _ (round_ratio 10 1) wrong_units_64)). Qed.
Print Assumptions C36_binary64_refuted.
(** ... above the requested point it is lat - lat * PI / 180 taken as radians ... *)
Theorem C36_same_point : forall lon lat, -180 <= lon < 180 ->
  flat_geo_sep ideal lon lat (radians lon) (radians lat) = degrees (Rabs (lat - radians lat)).
Proof. exact flat_geo_same. Qed.
Print Assumptions C36_same_point.
(** ... with -H (sat_skymap.c:841) it is the true separation of the two points. *)
Theorem C36_haversine : forall lon lat target_lon target_lat, exists a,
  angle_between (dir target_lon target_lat) (dir (radians lon) (radians lat)) a /\
  skysep_h ideal target_lon target_lat (mul ideal lon (c_deg ideal)) (mul ideal lat (c_deg ideal)) = degrees a.
Proof. exact geo_haversine. Qed.
Print Assumptions C36_haversine.
Example C36_example : skysep_h ideal (- (PI / 4)) 0 (PI / 4) 0 = 90.
Proof. exact ex_sep_quarter. Qed.

(** C75: the observer is placed on the ellipsoid with semi-axes 6378.140 and 6356.755 km at geodetic latitude [lat], [ht] metres
    up, at right ascension lon + sidereal time (all latitudes short of the poles). *)
Theorem C75_observer : forall theta lon lat ht rc rs, 0 < cos lat -> earth_lat_alt_to_parallax ideal lat ht = (rc, rs) ->
  observer_cartesian_coords ideal theta lon rc rs =
  geodetic (6378140 / 1000) (1 - (6356755 / 6378140) * (6356755 / 6378140)) (lon + theta) lat (ht / 1000).
Proof. exact observer_place. Qed.
Print Assumptions C75_observer.
Example C75_example : exists rc rs, earth_lat_alt_to_parallax ideal 0 0 = (rc, rs) /\
  observer_cartesian_coords ideal 0 0 rc rs = (6378.140, 0, 0).
Proof. exact ex_observer. Qed.

(** C76: the longitude of the Sun is its right ascension less the Greenwich sidereal time, in (-180, 180]. *)
Theorem C76_sun_longitude : forall ra gmst, 0 <= ra < 2 * PI -> 0 <= gmst <= 24 ->
  -180 < sun_lon ideal ra gmst <= 180 /\ exists k : Z, sun_lon ideal ra gmst = degrees ra - 15 * gmst + 360 * IZR k :> R.
Proof. exact sun_longitude. Qed.
Print Assumptions C76_sun_longitude.
Example C76_example : sun_lon ideal (3 * (PI / 2)) 0 = -90.
Proof. exact ex_sun_lon. Qed.

(** C77: the coordinates of the Sun are in range and point where the Almanac's ecliptic longitude does. *)
Theorem C77_sun_direction : forall jd ra dec, lpsun_radec ideal jd = (ra, dec) ->
  0 <= ra < 2 * PI /\ - (PI / 2) <= dec <= PI / 2 /\
  dir ra dec = ecliptic_dir (almanac_longitude (jd - 2451545)) (almanac_obliquity (jd - 2451545)).
Proof. exact sun_almanac. Qed.
Print Assumptions C77_sun_direction.
Example C77_example : exists ra dec, lpsun_radec ideal 2451545 = (ra, dec) /\ dec < 0.
Proof. exact ex_sun. Qed.

(** C92: refuted on the meridian and for polar observers: the parallactic angle is always 180 there ... *)
Theorem C92_meridian_refuted : exists dec lat h, dechalat2alt ideal dec 0 lat = Ok h /\ hz_parang ideal h = 180 :> R /\
  ~ parallactic dec (hour_angle 0) (radians lat) 180 /\ parallactic dec (hour_angle 0) (radians lat) 0.
Proof. exact wrong_parang_meridian. Qed.
Print Assumptions C92_meridian_refuted.
Theorem C92_polar_refuted : exists dec ha lat h, dechalat2alt ideal dec ha lat = Ok h /\ hz_parang ideal h = 180 :> R /\
  ~ parallactic dec (hour_angle ha) (radians lat) 180 /\ parallactic dec (hour_angle ha) (radians lat) 0.
Proof. exact wrong_parang_polar. Qed.
Print Assumptions C92_polar_refuted.
(** ... everywhere else it is the direction of the zenith, from north over east; on the meridian 180 is right exactly for directions
    that are not south of the zenith. *)
Theorem C92_otherwise : forall dec ha lat h, dechalat2alt ideal dec ha lat = Ok h -> ha <> 0 -> 1 / 1000000 <= cos (radians lat) -> cos dec <> 0 ->
  parallactic dec (hour_angle ha) (radians lat) (hz_parang ideal h).
Proof. exact parang_right. Qed.
Print Assumptions C92_otherwise.
Theorem C92_meridian : forall dec lat h, dechalat2alt ideal dec 0 lat = Ok h -> cos dec <> 0 ->
  hz_parang ideal h = 180 :> R /\ (parallactic dec (hour_angle 0) (radians lat) (hz_parang ideal h) <-> sin (radians lat - dec) <= 0).
Proof. exact parang_meridian. Qed.
Print Assumptions C92_meridian.
Theorem C92_polar : forall dec ha lat h, dechalat2alt ideal dec ha lat = Ok h -> ha <> 0 -> ~ 1 / 1000000 <= cos (radians lat) -> cos dec <> 0 ->
  hz_parang ideal h = 180 :> R.
Proof. exact parang_polar. Qed.
Print Assumptions C92_polar.
Example C92_example : exists h, dechalat2alt ideal 0 6 45 = Ok h /\ parallactic 0 (hour_angle 6) (radians 45) (hz_parang ideal h) /\
  parallactic 0 (hour_angle 6) (radians 45) 45.
Proof. exact ex_parang. Qed.
