(** The numbers of sat_skymap: how main puts the parts together.  Nothing here but the statements. *)
From Coq Require Import ZArith List Reals.
From Verif Require Import CLib ArithModel GeoModel GeoSpec TimeSpec OrbModel OrbTerms DeepModel PipeModel PipeSpec PipeTerms.
From Verif Require Import PipeProofs1 PipeProofs3 PipeProofs4 PipeProofs6 PipeProofs7 PipeProofs8 PipeProofs10 PipeExamples.
Import ListNotations.
Open Scope R_scope.

(** C94: the date is the one asked for, and the computation before the first satellite always succeeds ... *)
Theorem C94_date : forall q : request ideal, jd_of ideal q = 2400000.5 + rq_mjd ideal q :> R.
Proof. exact jd_eq. Qed.
Print Assumptions C94_date.
Theorem C94_defined : forall q : request ideal, jd_ok q -> exists f, prepare ideal q = Ok f.
Proof. exact prepare_ok. Qed.
Print Assumptions C94_defined.
(** ... the observer is on the ellipsoid at both instants, the sidereal times are those of the date ... *)
Theorem C94_observer : forall (q : request ideal) f, jd_ok q -> prepare ideal q = Ok f -> 0 < cos (radians (rq_lat ideal q)) ->
  let jd := jd_of ideal q in let jd2 := jd + IZR (rq_delta ideal q) / 86400 in
  fr_obs ideal f = site (rq_lat ideal q) (rq_lon ideal q) (rq_ht ideal q) jd /\
  (0 <= jd2 -> fr_obs2 ideal f = site (rq_lat ideal q) (rq_lon ideal q) (rq_ht ideal q) jd2) /\
  0 <= fr_lmst ideal f < 24 /\ (exists k, fr_lmst ideal f = gmst_hours jd + rq_lon ideal q / 15 - 24 * IZR k :> R) /\
  -24 < fr_gmst ideal f <= 24 /\ (exists k, fr_gmst ideal f = gmst_hours jd - 24 * IZR k :> R) /\ (2451545 <= jd -> 0 <= fr_gmst ideal f).
Proof. exact frame_observer. Qed.
Print Assumptions C94_observer.
(** ... the target is the vertical of the observer, at altitude 90, unless a region was given and neither -E nor a single satellite was asked
    for; then it is the region's centre, whose altitude and azimuth (taken as of date) are reported ... *)
Theorem C94_target : forall (q : request ideal) f, jd_ok q -> prepare ideal q = Ok f -> let jd := jd_of ideal q in
  if (rq_georef ideal q || rq_single ideal q || negb (rq_in_region ideal q))%bool
  then 0 <= fr_ra ideal f < 2 * PI /\ dir (fr_ra ideal f) (fr_dec ideal f) = vertical (rq_lat ideal q) (rq_lon ideal q) jd /\ fr_dec ideal f = radians (rq_lat ideal q) :> R /\
       hz_alt ideal (fr_hz ideal f) = 90 :> R
  else fr_ra ideal f = radians (rq_ra ideal q) :> R /\ fr_dec ideal f = radians (rq_de ideal q) :> R.
Proof. exact frame_target. Qed.
Print Assumptions C94_target.
Theorem C94_target_horizon : forall (q : request ideal) f, jd_ok q -> prepare ideal q = Ok f -> at_zenith ideal q = false ->
  1 / 1000000 <= cos (radians (rq_lat ideal q)) ->
  let target := dir (radians (rq_ra ideal q)) (radians (rq_de ideal q)) in
  (1 / 1000000 <= Rabs (radians (rq_de ideal q) - radians (rq_lat ideal q)) ->
     altitude_of target (rq_lat ideal q) (rq_lon ideal q) (jd_of ideal q) (hz_alt ideal (fr_hz ideal f))) /\
  (fr_lmst ideal f <> rq_ra ideal q / 15 :> R -> azimuth_of target (rq_lat ideal q) (rq_lon ideal q) (jd_of ideal q) (hz_az ideal (fr_hz ideal f))).
Proof. exact target_horizon. Qed.
Print Assumptions C94_target_horizon.
(** ... and the Sun is where the Almanac has it, with its altitude, azimuth, the longitude below it and its distance from the target. *)
Theorem C94_sun : forall (q : request ideal) f, jd_ok q -> prepare ideal q = Ok f -> let jd := jd_of ideal q in
  0 <= fr_sun_ra ideal f < 2 * PI /\ scale 149597870.700 (dir (fr_sun_ra ideal f) (fr_sun_dec ideal f)) = sun_at jd /\ fr_sun_km ideal f = sun_at jd /\
  exists a, angle_between (dir (fr_ra ideal f) (fr_dec ideal f)) (dir (fr_sun_ra ideal f) (fr_sun_dec ideal f)) a /\ fr_sun_sep ideal f = degrees a :> R.
Proof. exact frame_sun. Qed.
Print Assumptions C94_sun.
Theorem C94_sun_horizon : forall (q : request ideal) f, jd_ok q -> prepare ideal q = Ok f -> 1 / 1000000 <= cos (radians (rq_lat ideal q)) ->
  let sun := dir (fr_sun_ra ideal f) (fr_sun_dec ideal f) in
  (1 / 1000000 <= Rabs (fr_sun_dec ideal f - radians (rq_lat ideal q)) ->
     altitude_of sun (rq_lat ideal q) (rq_lon ideal q) (jd_of ideal q) (hz_alt ideal (fr_sun_hz ideal f))) /\
  (fr_lmst ideal f <> fr_sun_ra ideal f * (12 / PI) :> R ->
     azimuth_of sun (rq_lat ideal q) (rq_lon ideal q) (jd_of ideal q) (hz_az ideal (fr_sun_hz ideal f))).
Proof. exact sun_horizon. Qed.
Print Assumptions C94_sun_horizon.
Theorem C94_below_sun : forall (q : request ideal) f, jd_ok q -> prepare ideal q = Ok f -> 2451545 <= jd_of ideal q ->
  -180 < fr_sun_lon ideal f <= 180 /\
  dir (radians (fr_sun_lon ideal f) + sidereal (jd_of ideal q)) (fr_sun_dec ideal f) = dir (fr_sun_ra ideal f) (fr_sun_dec ideal f).
Proof. exact sun_below. Qed.
Print Assumptions C94_below_sun.
Example C94_example : exists f, prepare ideal march_request = Ok f /\ norm (fr_obs ideal f) = 6378.140 /\
  0 < cos (fr_sun_dec ideal f) * cos (fr_sun_ra ideal f).
Proof. exact ex_frame. Qed.

(** C95: right ascension, declination and distance of a satellite are those of the propagator's position at the date seen from the
    observer's place at that date, referred to J2000; the second pair those of the later instant from the place at that instant ... *)
Theorem C95_place : forall n k (q : request ideal) f t h h' s, jd_ok q -> prepare ideal q = Ok f ->
  satellite ideal n k q f t h = Ok (h', Seen ideal s) ->
  let jd := jd_of ideal q in let jd2 := jd + IZR (rq_delta ideal q) / 86400 in
  let lat := rq_lat ideal q in let lon := rq_lon ideal q in let ht := rq_ht ideal q in
  0 < cos (radians lat) -> 0 <= jd2 ->
  exists pos pos2, positions n t h (minutes_at t jd) (minutes_at t jd2) pos pos2 (sg_code1 ideal s) (sg_code2 ideal s) /\
    (minus pos (site lat lon ht jd) <> (0, 0, 0) -> exists ra dec, seen_at (site lat lon ht jd) pos ra dec (sg_dist ideal s) /\
       j2000_of jd ra dec (sg_ra ideal s) (sg_dec ideal s)) /\
    (minus pos2 (site lat lon ht jd2) <> (0, 0, 0) -> exists ra dec dist, seen_at (site lat lon ht jd2) pos2 ra dec dist /\
       j2000_of jd ra dec (sg_ra1 ideal s) (sg_dec1 ideal s)) /\
    (minus (sun_at jd) pos2 <> (0, 0, 0) -> (sg_lit ideal s = true <-> ~ blocked erad pos2 (sun_at jd))).
Proof. exact place_seen. Qed.
Print Assumptions C95_place.
(** ... of a near-Earth satellite the positions are those of its elements at the two instants, whatever happened before ... *)
Theorem C95_near_positions : forall n t h m1 m2 pos pos2 c1 c2, select_ephemeris ideal (d_orb ideal t) = 0%Z ->
  (positions n t h m1 m2 pos pos2 c1 c2 <-> exists p p2, propagate m1 (d_orb ideal t) = Ok p /\ propagate m2 (d_orb ideal t) = Ok p2 /\
     pos = pl_pos ideal p /\ pos2 = pl_pos ideal p2 /\ c1 = OrbModel.pl_code ideal p /\ c2 = OrbModel.pl_code ideal p2).
Proof. exact near_positions. Qed.
Print Assumptions C95_near_positions.
(** ... with -H the separation is the angle between target and satellite; without it, it is never smaller ... *)
Theorem C95_separation : forall n k (q : request ideal) f t h h' s, satellite ideal n k q f t h = Ok (h', Seen ideal s) ->
  rq_haversine ideal q = true -> rq_georef ideal q = false ->
  exists a a1, angle_between (dir (fr_ra ideal f) (fr_dec ideal f)) (dir (sg_ra ideal s) (sg_dec ideal s)) a /\ sg_sep ideal s = degrees a :> R /\
    angle_between (dir (fr_ra ideal f) (fr_dec ideal f)) (dir (sg_ra1 ideal s) (sg_dec1 ideal s)) a1 /\ sg_sep1 ideal s = degrees a1 :> R.
Proof. exact separation_seen. Qed.
Print Assumptions C95_separation.
Theorem C95_flat_separation : forall n k (q : request ideal) f t h h' s, satellite ideal n k q f t h = Ok (h', Seen ideal s) ->
  rq_haversine ideal q = false -> rq_georef ideal q = false ->
  - (PI / 2) <= fr_dec ideal f <= PI / 2 -> - (PI / 2) <= sg_dec ideal s <= PI / 2 ->
  forall a, angle_between (dir (fr_ra ideal f) (fr_dec ideal f)) (dir (sg_ra ideal s) (sg_dec ideal s)) a -> degrees a <= sg_sep ideal s.
Proof. exact separation_flat. Qed.
Print Assumptions C95_flat_separation.
Theorem C95_separation_on_earth : forall n k (q : request ideal) f t h h' s, satellite ideal n k q f t h = Ok (h', Seen ideal s) ->
  rq_georef ideal q = true -> rq_haversine ideal q = true ->
  exists g a, sg_geo ideal s = Some g /\
    angle_between (dir (radians (rq_lon ideal q)) (radians (rq_lat ideal q))) (dir (radians (pl_lon ideal g)) (radians (pl_lat ideal g))) a /\
    sg_sep ideal s = degrees a :> R.
Proof. exact separation_geo. Qed.
Print Assumptions C95_separation_on_earth.
(** ... the speed is the angle between the two places over the time between them, the position angle that of this motion ... *)
Theorem C95_speed : forall n k (q : request ideal) f t h h' s, satellite ideal n k q f t h = Ok (h', Seen ideal s) ->
  exists a, angle_between (dir (sg_ra ideal s) (sg_dec ideal s)) (dir (sg_ra1 ideal s) (sg_dec1 ideal s)) a /\
  sg_speed ideal s = degrees a * 60 / IZR (rq_delta ideal q) :> R.
Proof. exact speed_seen. Qed.
Print Assumptions C95_speed.
Theorem C95_position_angle : forall n k (q : request ideal) f t h h' s, satellite ideal n k q f t h = Ok (h', Seen ideal s) ->
  0 <= sg_ra ideal s < 2 * PI -> 0 <= sg_ra1 ideal s < 2 * PI -> sg_ra1 ideal s - sg_ra ideal s <= PI -> sg_dec1 ideal s <> sg_dec ideal s :> R ->
  position_angle (sg_ra ideal s) (sg_dec ideal s) (sg_ra1 ideal s) (sg_dec1 ideal s) (sg_pa ideal s).
Proof. exact pa_seen. Qed.
Print Assumptions C95_position_angle.
(** ... and latitude, longitude and height are those of the position, in the turning axes of the Earth. *)
Theorem C95_below : forall n k (q : request ideal) f t h h' s, jd_ok q -> prepare ideal q = Ok f ->
  satellite ideal n k q f t h = Ok (h', Seen ideal s) ->
  let jd := jd_of ideal q in let jd2 := jd + IZR (rq_delta ideal q) / 86400 in
  (5 <= k)%nat -> 2451545 <= jd -> (rq_geoloc ideal q || rq_single ideal q)%bool = true ->
  exists pos pos2 g, positions n t h (minutes_at t jd) (minutes_at t jd2) pos pos2 (sg_code1 ideal s) (sg_code2 ideal s) /\ sg_geo ideal s = Some g /\
    let '(x, y, z) := pos in 0 < x * x + y * y -> 81 / 100 * (erad * erad) <= x * x + y * y + z * z ->
      -180 <= pl_lon ideal g <= 180 /\ -90 < pl_lat ideal g < 90 /\
      near (2 / 1000000) (geodetic erad ecc2 (radians (pl_lon ideal g) + sidereal jd) (radians (pl_lat ideal g)) (pl_alt ideal g)) pos.
Proof. exact subpoint_seen. Qed.
Print Assumptions C95_below.
Example C95_example : exists f s, prepare ideal march_request = Ok f /\
  satellite ideal 0 0 march_request f low_now (cache0 ideal) = Ok (cache0 ideal, Seen ideal s) /\
  sg_code1 ideal s = 0%Z /\ sg_code2 ideal s = 0%Z /\ sg_lit ideal s = true /\ 2000 < sg_dist ideal s.
Proof. exact ex_seen. Qed.

(** C96: refuted, a satellite in sunlight at the date is reported in shadow, because the position tested is the later one (what is
    tested instead is the last part of C95_place). *)
Theorem C96_refuted : exists (q : request ideal) f t n k s p, rq_delta ideal q = 1%Z /\ prepare ideal q = Ok f /\
  select_ephemeris ideal (d_orb ideal t) = 0%Z /\ satellite ideal n k q f t (cache0 ideal) = Ok (cache0 ideal, Seen ideal s) /\
  propagate (minutes_at t (jd_of ideal q)) (d_orb ideal t) = Ok p /\ sg_code1 ideal s = 0%Z /\ sg_code2 ideal s = 0%Z /\
  ~ blocked erad (pl_pos ideal p) (sun_at (jd_of ideal q)) /\ sg_lit ideal s = false.
Proof. exact lit_wrong. Qed.
Print Assumptions C96_refuted.

(** C97: the kept positions of Moon and Sun do not show: a run reports of every satellite what a run with it alone reports. *)
Theorem C97_each_alone : forall n k (q : request ideal) f ts ls, let jd := jd_of ideal q in
  0 < jd -> 0 < jd + IZR (rq_delta ideal q) / 86400 -> Forall (fun t => 0 < d_epoch ideal t) ts ->
  (satellites ideal n k q f ts (cache0 ideal) = Ok ls <->
   Forall2 (fun t l => exists h, satellite ideal n k q f t (cache0 ideal) = Ok (h, l)) ts ls).
Proof. exact each_alone. Qed.
Print Assumptions C97_each_alone.
Example C97_example : exists f s, prepare ideal march_request = Ok f /\
  satellites ideal 0 0 march_request f [low_now; low_now] (cache0 ideal) = Ok [Seen ideal s; Seen ideal s].
Proof. exact ex_two_satellites. Qed.

(** C98: refuted, a satellite exactly in the zenith is reported a third of a degree from it in 2026: the target is the vertical in the
    coordinates of date, the satellite's are J2000. *)
Theorem C98_refuted : exists (q : request ideal) f t n k s p dist, at_zenith ideal q = true /\ rq_haversine ideal q = true /\ prepare ideal q = Ok f /\
  select_ephemeris ideal (d_orb ideal t) = 0%Z /\ satellite ideal n k q f t (cache0 ideal) = Ok (cache0 ideal, Seen ideal s) /\
  propagate (minutes_at t (jd_of ideal q)) (d_orb ideal t) = Ok p /\ sg_code1 ideal s = 0%Z /\ sg_code2 ideal s = 0%Z /\
  0 < dist /\ minus (pl_pos ideal p) (site (rq_lat ideal q) (rq_lon ideal q) (rq_ht ideal q) (jd_of ideal q)) = scale dist (vertical (rq_lat ideal q) (rq_lon ideal q) (jd_of ideal q)) /\
  33 / 100 < sg_sep ideal s.
Proof. exact zenith_wrong. Qed.
Print Assumptions C98_refuted.
