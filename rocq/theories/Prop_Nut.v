(** Nutation (earthtilt.c), sidereal time and the zenith (zenith_site_ra.c).  Nothing here but the statements. *)
From Coq Require Import ZArith List Reals.
From Flocq Require Import Core IEEE754.BinarySingleNaN.
From Verif Require Import CLib FloatModel ArithModel FloatLemmas GeoSpec NutModel NutSpec NutProofs1 NutProofs4 NutProofs5 NutExamples.
Import ListNotations.
Open Scope R_scope.

(** C73: in every arithmetic the tables are written before they are read, inside their bounds ... *)
Theorem C73_defined : forall A t, exists r, calcnutation A t = Ok r.
Proof. exact defined. Qed.
Print Assumptions C73_defined.
(** ... they hold the cosines and sines of 106 different combinations of the fundamental arguments, those of the theory among
    them, and the results are the sums of the 1980 theory ... *)
Theorem C73_tables : exists ks, length ks = 106%nat /\ NoDup ks /\ (forall r, In r iau1980 -> In (fst r) ks \/ In (opposite (fst r)) ks) /\
  forall t, exists a, near5 ((1000 + 1260000 * Rabs t + Rabs t ^ 2 + 0.01 * Rabs t ^ 3) / 10 ^ 18) a (fundamental t) /\
    fill ideal t = Ok (106%Z, map (fun k => Some (cos (phase k a))) ks, map (fun k => Some (sin (phase k a))) ks) /\
    calcnutation ideal t = Ok (nutation_lon a t, nutation_obl a t).
Proof. exact tables_hold. Qed.
Print Assumptions C73_tables.
(** ... to 1e-8 seconds of arc within 100 centuries. *)
Theorem C73_theory : forall t, Rabs t <= 100 -> exists psi eps, calcnutation ideal t = Ok (psi, eps) /\
  Rabs (psi - nutation_lon (fundamental t) t) <= 1 / 10 ^ 8 /\ Rabs (eps - nutation_obl (fundamental t) t) <= 1 / 10 ^ 8.
Proof. exact series_close. Qed.
Print Assumptions C73_theory.
Example C73_example : exists psi eps, calcnutation ideal 0 = Ok (psi, eps) /\ -16.7 < psi < -11.5.
Proof. exact nutation_2000. Qed.

(** C74: in every arithmetic, after every history, the answer is the one a call that computes for a date not more than
    0.01 day away gives, or zeros if no date so far was more than 0.01 ... *)
Theorem C74_cache : forall A dates jd, exists st st' out, tilt_after A dates = Ok st /\ earthtilt A st jd = Ok (st', out) /\
  ((out = (int A 0, int A 0, int A 0, int A 0, int A 0) /\ forall j, In j (jd :: dates) -> ltn A (cst A 1 100) (c_fabs A (sub A j (int A 0))) = false) \/
   exists j, In j (jd :: dates) /\ (j = jd \/ ltn A (cst A 1 100) (c_fabs A (sub A jd j)) = false) /\
     forall s, ltn A (cst A 1 100) (c_fabs A (sub A j (tjd_last A s))) = true -> exists s', earthtilt A s j = Ok (s', out)).
Proof. exact cache. Qed.
Print Assumptions C74_cache.
(** ... in the reals the values are those of the theory ... *)
Theorem C74_theory : forall dates jd, (forall j, In j (jd :: dates) -> Rabs (centuries j) <= 100) ->
  exists st st' out, tilt_after ideal dates = Ok st /\ earthtilt ideal st jd = Ok (st', out) /\
  (out = (0, 0, 0, 0, 0) /\ (forall j, In j (jd :: dates) -> Rabs j <= 0.01) \/
   exists j, In j (jd :: dates) /\ Rabs (jd - j) <= 0.01 /\ near5 (1 / 10 ^ 8) out (theory j)).
Proof. exact recent. Qed.
Print Assumptions C74_theory.
(** ... in binary64 the distance is the same up to rounding ... *)
Theorem C74_rounded : forall m dates jd, fin jd -> (forall j, In j dates -> fin j) -> exists st st' out,
  tilt_after (machine m) dates = Ok st /\ earthtilt (machine m) st jd = Ok (st', out) /\
  (out = (int (machine m) 0, int (machine m) 0, int (machine m) 0, int (machine m) 0, int (machine m) 0) /\ (forall j, In j (jd :: dates) -> Rabs (toR j) <= 0.010000000000000002) \/
   exists j, In j (jd :: dates) /\ Rabs (toR jd - toR j) <= 0.010000000000000002 /\
     forall s, ltn (machine m) (cst (machine m) 1 100) (c_fabs (machine m) (sub (machine m) j (tjd_last (machine m) s))) = true -> exists s', earthtilt (machine m) s j = Ok (s', out)).
Proof. exact rounded_distance. Qed.
Print Assumptions C74_rounded.
(** ... but a first call for JD 0 returns zeros, and a date that is not a number returns whatever was kept. *)
Theorem C74_first_call_refuted : exists jd, earthtilt ideal (tilt0 ideal) jd = Ok (tilt0 ideal, (0, 0, 0, 0, 0)) /\ mean_obliquity (centuries jd) > 20.
Proof. exact (ex_intro _ 0 first_call). Qed.
Print Assumptions C74_first_call_refuted.
Theorem C74_not_a_number : forall m st, earthtilt (machine m) st B754_nan =
  Ok (st, (mean_obliq (machine m) st, true_obliq (machine m) st, eq_eq (machine m) st, d_psi (machine m) st, d_eps (machine m) st)).
Proof. exact not_a_number. Qed.
Print Assumptions C74_not_a_number.
Example C74_example : exists st out, tilt_after ideal [2460000.5; 2451545] = Ok st /\ tjd_last ideal st = 2460000.5 /\
  earthtilt ideal st 2460000.505 = Ok (st, out) /\ near5 (1 / 10 ^ 8) out (theory 2460000.5).
Proof. exact kept_example. Qed.

(** C89: the sidereal time of ut2gmst is in [0, 24) and follows Williams' formula up to what its two constants of type float lose ... *)
Theorem C89_gmst : forall ut1 n, let mid := IZR n + 0.5 in mid <= ut1 < mid + 1 -> let T := centuries mid in
  0 <= ut2gmst ideal ut1 < 24 /\
  exists k, Rabs (3600 * ut2gmst ideal ut1 - 86400 * IZR k - (sidereal_0h T + sidereal_rate T * ((ut1 - mid) * 86400))) <= 0.00043 + 0.2058 * Rabs T.
Proof. exact gmst_close. Qed.
Print Assumptions C89_gmst.
(** ... which is 0.05 s at the end of 2024. *)
Theorem C89_gmst_refuted : exists n, let mid := IZR n + 0.5 in
  forall k, 0.0518 < Rabs (3600 * ut2gmst ideal mid - 86400 * IZR k - sidereal_0h (centuries mid)).
Proof. exact (ex_intro _ 2460675%Z gmst_off). Qed.
Print Assumptions C89_gmst_refuted.
Example C89_example : 18.69737 < ut2gmst ideal 2451545 < 18.69738.
Proof. exact gmst_2000. Qed.

(** C90: the right ascension of the zenith is 15 x the sidereal time + the longitude in degrees, reduced to [0, 360) ... *)
Theorem C90_mean : forall mjd lon, -360 <= lon <= 360 ->
  0 <= zenith_site_ra ideal mjd lon < 360 /\ exists k, zenith_site_ra ideal mjd lon = 15 * ut2gmst ideal (mjd + 2400000.5) + lon + 360 * IZR k.
Proof. exact zenith_ok. Qed.
Print Assumptions C90_mean.
(** ... with the equation of the equinoxes of a date not more than 0.01 day away in the other function ... *)
Theorem C90_apparent : forall dates mjd lon, (forall j, In j (mjd + 2400000.5 :: dates) -> Rabs (centuries j) <= 100) -> Rabs lon <= 350 ->
  exists st st' ra eq, tilt_after ideal dates = Ok st /\ zenith_site_ra_last ideal st mjd lon = Ok (st', ra) /\ 0 <= ra < 360 /\
  (exists k, ra = 15 * ut2gmst ideal (mjd + 2400000.5) + eq / 240 + lon + 360 * IZR k) /\
  (eq = 0 /\ (forall j, In j (mjd + 2400000.5 :: dates) -> Rabs j <= 0.01) \/
   exists j, In j (mjd + 2400000.5 :: dates) /\ Rabs (mjd + 2400000.5 - j) <= 0.01 /\ Rabs (eq - equinoxes j) <= 1 / 10 ^ 8).
Proof. exact zenith_last. Qed.
Print Assumptions C90_apparent.
(** ... but one turn only is taken off. *)
Theorem C90_range_refuted : exists mjd lon, 0 <= lon <= 720 /\ 360 <= zenith_site_ra ideal mjd lon.
Proof. exact zenith_far_2. Qed.
Print Assumptions C90_range_refuted.
Example C90_example : 265.46 < zenith_site_ra ideal 51544.5 (-15) < 265.47.
Proof. exact zenith_2000. Qed.

(** C91: sph2v gives the unit vector of a direction; slaDh2e the hour angle and declination of the direction with the given azimuth and elevation. *)
Theorem C91_unit_vector : forall ra dec, let '(x, y, z) := sph2v ideal ra dec in x * x + y * y + z * z = 1 /\ z = sin (dec * (PI / 180)) /\
  x = cos (ra * (PI / 180)) * cos (dec * (PI / 180)) /\ y = sin (ra * (PI / 180)) * cos (dec * (PI / 180)).
Proof. exact sph2v_unit. Qed.
Print Assumptions C91_unit_vector.
Theorem C91_hour_angle : forall az el phi, let '(ha, dec) := slaDh2e ideal az el phi in
  - PI / 2 <= dec <= PI / 2 /\ dot (ha_dir dec ha) (zenith phi) = sin el /\ dot (ha_dir dec ha) (north phi) = cos el * cos az /\ dot (ha_dir dec ha) east = cos el * sin az.
Proof. exact dh2e_frame. Qed.
Print Assumptions C91_hour_angle.
Example C91_example : slaDh2e ideal (PI / 2) 0 0.7 = (- (PI / 2), 0).
Proof. exact zenith_east. Qed.
