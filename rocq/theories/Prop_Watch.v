(** The numbers of sat_visibility at one instant.  Nothing here but the statements. *)
From Coq Require Import ZArith Reals.
From Verif Require Import CLib ArithModel GeoModel GeoSpec TimeSpec OrbModel OrbTerms DeepModel PipeModel PipeSpec PipeTerms WatchModel WatchTerms.
From Verif Require Import WatchProofs1 WatchProofs2 WatchProofs4 WatchProofs5 PipeExamples WatchExamples.
Open Scope R_scope.

(** C99: at every sample the computation succeeds when the propagator gives a position ... *)
Theorem C99_defined : forall n (w : watch ideal) t old h jd pos code, date_ok w jd -> position n t old h jd pos code ->
  exists h' i, instant_at ideal n w t old h jd = Ok (h', i) /\ in_pos ideal i = pos /\ in_code ideal i = code.
Proof. exact instant_defined. Qed.
Print Assumptions C99_defined.
(** ... which for a near-Earth satellite is that of its elements at the date, whatever happened before ... *)
Theorem C99_near_position : forall n t old h jd pos code, select_ephemeris ideal (d_orb ideal t) = 0%Z ->
  (position n t old h jd pos code <-> exists p, propagate (minutes_at t jd) (d_orb ideal t) = Ok p /\ pos = pl_pos ideal p /\ code = OrbModel.pl_code ideal p).
Proof. exact near_position. Qed.
Print Assumptions C99_near_position.
(** ... the sidereal times are those of the date, the centre of the search is the vertical of the observer ... *)
Theorem C99_times : forall n (w : watch ideal) t old h h' jd i, date_ok w jd -> instant_at ideal n w t old h jd = Ok (h', i) ->
  0 <= in_lmst ideal i < 24 /\ (exists k, in_lmst ideal i = gmst_hours jd + w_lon ideal w / 15 - 24 * IZR k :> R) /\
  -24 < in_gmst ideal i <= 24 /\ (exists k, in_gmst ideal i = gmst_hours jd - 24 * IZR k :> R) /\ (2451545 <= jd -> 0 <= in_gmst ideal i).
Proof. exact times. Qed.
Print Assumptions C99_times.
(** ... and right ascension, declination, distance and zenith distance are those of that position seen from the observer at that date. *)
Theorem C99_place : forall n (w : watch ideal) t old h h' jd i, date_ok w jd -> instant_at ideal n w t old h jd = Ok (h', i) ->
  let lat := w_lat ideal w in let lon := w_lon ideal w in let ht := w_ht ideal w in 0 < cos (radians lat) ->
  position n t old h jd (in_pos ideal i) (in_code ideal i) /\ in_obs ideal i = site lat lon ht jd /\
  (minus (in_pos ideal i) (site lat lon ht jd) <> (0, 0, 0) -> seen_at (site lat lon ht jd) (in_pos ideal i) (in_ra ideal i) (in_dec ideal i) (in_dist ideal i)) /\
  exists a, angle_between (vertical lat lon jd) (dir (in_ra ideal i) (in_dec ideal i)) a /\ in_sep ideal i = degrees a :> R.
Proof. exact placed_at. Qed.
Print Assumptions C99_place.
Example C99_example : exists h' i u e, instant_at ideal 0 equator low_now None (cache0 ideal) 2451624 = Ok (h', i) /\ in_code ideal i = 0%Z /\ date_ok equator 2451624 /\
  get_sun_data ideal equator 2451624 (in_lmst ideal i) (in_gmst ideal i) (in_zra ideal i) = Ok u /\ sunlit ideal i u = true /\
  event_at ideal 5 equator 2451624 2451624 i = Ok e /\ 2500 < norm (minus (in_pos ideal i) (site 0 0 0 2451624)).
Proof. exact ex_watch. Qed.

(** C100: a sample counts as sunlit if and only if the Earth does not hide the Sun of that instant from the satellite at that instant. *)
Theorem C100_sunlit : forall n (w : watch ideal) t old h h' jd i, date_ok w jd -> instant_at ideal n w t old h jd = Ok (h', i) ->
  forall u, get_sun_data ideal w jd (in_lmst ideal i) (in_gmst ideal i) (in_zra ideal i) = Ok u ->
  minus (sun_at jd) (in_pos ideal i) <> (0, 0, 0) -> (sunlit ideal i u = true <-> ~ blocked erad (in_pos ideal i) (sun_at jd)).
Proof. exact lit_then. Qed.
Print Assumptions C100_sunlit.
Theorem C100_sun_defined : forall (w : watch ideal) jd lmst gmst zra, exists u, get_sun_data ideal w jd lmst gmst zra = Ok u.
Proof. exact sun_defined. Qed.
Print Assumptions C100_sun_defined.
Example C100_example : exists h' i u e, instant_at ideal 0 equator low_now None (cache0 ideal) 2451624 = Ok (h', i) /\ in_code ideal i = 0%Z /\ date_ok equator 2451624 /\
  get_sun_data ideal equator 2451624 (in_lmst ideal i) (in_gmst ideal i) (in_zra ideal i) = Ok u /\ sunlit ideal i u = true /\
  event_at ideal 5 equator 2451624 2451624 i = Ok e /\ 2500 < norm (minus (in_pos ideal i) (site 0 0 0 2451624)).
Proof. exact ex_watch. Qed.

(** C101: the data of an event are defined outside the Earth ... *)
Theorem C101_defined : forall n (w : watch ideal) t old h h' jd i k jdp, date_ok w jd -> instant_at ideal n w t old h jd = Ok (h', i) -> (5 <= k)%nat -> 2451545 <= jd ->
  (let '(x, y, z) := in_pos ideal i in 0 < x * x + y * y /\ 81 / 100 * (erad * erad) <= x * x + y * y + z * z) -> exists e, event_at ideal k w jd jdp i = Ok e.
Proof. exact event_defined. Qed.
Print Assumptions C101_defined.
(** ... altitude and azimuth are those of the satellite's direction, and the altitude is 90 degrees less the zenith distance ... *)
Theorem C101_horizon : forall n (w : watch ideal) t old h h' jd i, date_ok w jd -> instant_at ideal n w t old h jd = Ok (h', i) ->
  let lat := w_lat ideal w in let lon := w_lon ideal w in let place := dir (in_ra ideal i) (in_dec ideal i) in
  forall k jdp e, event_at ideal k w jd jdp i = Ok e -> 1 / 1000000 <= cos (radians lat) ->
  (1 / 1000000 <= Rabs (in_dec ideal i - radians lat) ->
     altitude_of place lat lon jd (hz_alt ideal (ev_hz ideal e)) /\ hz_alt ideal (ev_hz ideal e) = 90 - in_sep ideal i :> R) /\
  (in_lmst ideal i <> in_ra ideal i * (12 / PI) :> R -> azimuth_of place lat lon jd (hz_az ideal (ev_hz ideal e))).
Proof. exact event_horizon. Qed.
Print Assumptions C101_horizon.
(** ... the printed right ascension and declination are those of date precessed, to first order, from the date given to the precession ... *)
Theorem C101_j2000 : forall (w : watch ideal) jd i k jdp e, event_at ideal k w jd jdp i = Ok e ->
  j2000_of jdp (in_ra ideal i) (in_dec ideal i) (ev_ra ideal e) (ev_dec ideal e).
Proof. exact event_j2000. Qed.
Print Assumptions C101_j2000.
(** ... the point below is the one below, within 2 mm in every coordinate ... *)
Theorem C101_below : forall n (w : watch ideal) t old h h' jd i, date_ok w jd -> instant_at ideal n w t old h jd = Ok (h', i) ->
  forall k jdp e, event_at ideal k w jd jdp i = Ok e -> (5 <= k)%nat -> 2451545 <= jd ->
  let '(x, y, z) := in_pos ideal i in 0 < x * x + y * y -> 81 / 100 * (erad * erad) <= x * x + y * y + z * z ->
  let g := ev_geo ideal e in -180 <= pl_lon ideal g <= 180 /\ -90 < pl_lat ideal g < 90 /\
  near (2 / 1000000) (geodetic erad ecc2 (radians (pl_lon ideal g) + sidereal jd) (radians (pl_lat ideal g)) (pl_alt ideal g)) (in_pos ideal i).
Proof. exact event_below. Qed.
Print Assumptions C101_below.
(** ... and the Sun is where the Almanac has it, with its altitude, azimuth, the longitude below it and its zenith distance. *)
Theorem C101_sun : forall n (w : watch ideal) t old h h' jd i, date_ok w jd -> instant_at ideal n w t old h jd = Ok (h', i) ->
  let lat := w_lat ideal w in let lon := w_lon ideal w in
  forall u, get_sun_data ideal w jd (in_lmst ideal i) (in_gmst ideal i) (in_zra ideal i) = Ok u ->
  let sun := dir (radians (sd_ra ideal u)) (radians (sd_dec ideal u)) in
  0 <= sd_ra ideal u < 360 /\ -90 <= sd_dec ideal u <= 90 /\ scale 149597870.700 sun = sun_at jd /\
  (exists a, angle_between (vertical lat lon jd) sun a /\ sd_sep ideal u = degrees a :> R) /\
  (2451545 <= jd -> -180 < sd_lon ideal u <= 180 /\ dir (radians (sd_lon ideal u) + sidereal jd) (radians (sd_dec ideal u)) = sun) /\
  (1 / 1000000 <= cos (radians lat) ->
    (1 / 1000000 <= Rabs (radians (sd_dec ideal u) - radians lat) -> altitude_of sun lat lon jd (hz_alt ideal (sd_hz ideal u))) /\
    (in_lmst ideal i <> sd_ra ideal u / 15 :> R -> azimuth_of sun lat lon jd (hz_az ideal (sd_hz ideal u)))).
Proof. exact sun_there. Qed.
Print Assumptions C101_sun.
Example C101_example : exists h' i u e, instant_at ideal 0 equator low_now None (cache0 ideal) 2451624 = Ok (h', i) /\ in_code ideal i = 0%Z /\ date_ok equator 2451624 /\
  get_sun_data ideal equator 2451624 (in_lmst ideal i) (in_gmst ideal i) (in_zra ideal i) = Ok u /\ sunlit ideal i u = true /\
  event_at ideal 5 equator 2451624 2451624 i = Ok e /\ 2500 < norm (minus (in_pos ideal i) (site 0 0 0 2451624)).
Proof. exact ex_watch. Qed.

(** C102: refuted, the speed is not that with which the observer sees the satellite move: one straight overhead at 2900 km is said to be
    more than 5 per cent faster than it is ... *)
Theorem C102_speed_refuted : exists (w : watch ideal) t n jd h h' i h1 pa speed pos1 ra1 dec1 dist1 a,
  let jd1 := jd + IZR (w_delta ideal w) / 86400 in let lat := w_lat ideal w in let lon := w_lon ideal w in let ht := w_ht ideal w in
  select_ephemeris ideal (d_orb ideal t) = 0%Z /\ w_delta ideal w = 60%Z /\ date_ok w jd /\
  instant_at ideal n w t None h jd = Ok (h', i) /\ in_code ideal i = 0%Z /\ in_sep ideal i = 0 :> R /\ get_sat_PA_and_speed ideal n w t h' jd i = Ok (h1, pa, speed) /\
  position n t None h' jd1 pos1 0%Z /\ seen_at (site lat lon ht jd) (in_pos ideal i) (in_ra ideal i) (in_dec ideal i) (in_dist ideal i) /\
  seen_at (site lat lon ht jd1) pos1 ra1 dec1 dist1 /\ angle_between (dir (in_ra ideal i) (in_dec ideal i)) (dir ra1 dec1) a /\
  105 / 100 * (degrees a * 60 / IZR (w_delta ideal w)) < speed.
Proof. exact speed_wrong. Qed.
Print Assumptions C102_speed_refuted.
(** ... because the second place is seen from where the observer was at the first instant: from there it is the right angle per time
    step, and the right position angle unless the two right ascensions are more than half a turn apart. *)
Theorem C102_from_one_place : forall n (w : watch ideal) t old h h' h1 jd i pa speed, date_ok w jd -> instant_at ideal n w t old h jd = Ok (h', i) ->
  get_sat_PA_and_speed ideal n w t h' jd i = Ok (h1, pa, speed) ->
  let lat := w_lat ideal w in let lon := w_lon ideal w in let ht := w_ht ideal w in let jd1 := jd + IZR (w_delta ideal w) / 86400 in
  0 < cos (radians lat) -> exists pos code ra1 dec1 dist1, position n t None h' jd1 pos code /\
  (minus pos (site lat lon ht jd) <> (0, 0, 0) -> seen_at (site lat lon ht jd) pos ra1 dec1 dist1) /\
  (exists a, angle_between (dir (in_ra ideal i) (in_dec ideal i)) (dir ra1 dec1) a /\ speed = degrees a * 60 / IZR (w_delta ideal w)) /\
  (0 <= in_ra ideal i < 2 * PI -> 0 <= ra1 < 2 * PI -> ra1 - in_ra ideal i <= PI -> dec1 <> in_dec ideal i :> R ->
   position_angle (in_ra ideal i) (in_dec ideal i) ra1 dec1 pa).
Proof. exact motion_seen. Qed.
Print Assumptions C102_from_one_place.
