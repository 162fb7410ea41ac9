(** Concrete values of the coordinate geometry, and the forms of the lemmas used in Prop_Geometry.v. *)
From Coq Require Import ZArith Reals Lra Lia Bool Psatz.
From Verif Require Import CLib FloatModel ArithModel GeoModel GeoSpec GeoLemmas GeoProofs1 GeoProofs2 GeoProofs3 GeoProofs4 GeoProofs5 GeoProofs6 GeoRuns.
Open Scope R_scope.

Lemma sun_almanac jd ra dec : lpsun_radec ideal jd = (ra, dec) ->
  0 <= ra < 2 * PI /\ - (PI / 2) <= dec <= PI / 2 /\
  dir ra dec = ecliptic_dir (almanac_longitude (jd - 2451545)) (almanac_obliquity (jd - 2451545)).
Proof.
  intros E. destruct (sun_direction _ _ _ E) as (A & B & C). split; [exact A|]. split; [exact B|]. rewrite C.
  assert (L : sun_lambda ideal jd = almanac_longitude (jd - 2451545)).
  { unfold sun_lambda, almanac_longitude, radians. cbv zeta. ideal_. lits.
    replace 357.528 with (357528 / 1000) by lra. replace 0.9856003 with (9856003 / 10000000) by lra.
    replace 280.460 with (280460 / 1000) by lra. replace 0.9856474 with (9856474 / 10000000) by lra.
    replace 1.915 with (1915 / 1000) by lra. replace 0.020 with (20 / 1000) by lra. reflexivity. }
  assert (O : sun_epsilon ideal jd = almanac_obliquity (jd - 2451545)).
  { unfold sun_epsilon, almanac_obliquity, radians. cbv zeta. ideal_. lits.
    replace 23.439 with (23439 / 1000) by lra. replace 0.0000004 with (4 / 10000000) by lra. reflexivity. }
  rewrite L, O. reflexivity.
Qed.

Lemma shadow_erad (sat sun : rvec) : minus sun sat <> (0, 0, 0) ->
  (fst (fst (intersect_satsun_sphere ideal sat sun)) = true <-> blocked erad sat sun).
Proof. rewrite <- erad_eq. exact (shadow_iff sat sun). Qed.
Lemma shadow_points_erad (sat sun : rvec) r0 r1 : minus sun sat <> (0, 0, 0) ->
  intersect_satsun_sphere ideal sat sun = (true, r0, r1) ->
  forall r, (r = r0 \/ r = r1) -> norm (plus sat (scale (r / norm (minus sun sat)) (minus sun sat))) = erad.
Proof. rewrite <- erad_eq. exact (shadow_points sat sun r0 r1). Qed.

Lemma geo_haversine lon lat tlon tlat : exists a,
  angle_between (dir tlon tlat) (dir (radians lon) (radians lat)) a /\
  skysep_h ideal tlon tlat (mul ideal lon (c_deg ideal)) (mul ideal lat (c_deg ideal)) = degrees a.
Proof. exact (skysep_angle tlon tlat (radians lon) (radians lat)). Qed.

(** *** Separation *)
Lemma acos_unique c a : 0 <= a <= PI -> cos a = c -> acos c = a.
Proof. intros A <-. apply acos_cos. exact A. Qed.
Lemma ex_sep_quarter : skysep_h ideal (- (PI / 4)) 0 (PI / 4) 0 = 90.
Proof.
  rewrite skysep_acos, (acos_unique _ (PI / 2)).
  - change (@eq R (degrees (PI / 2)) 90). unfold degrees. field. apply PI_neq0.
  - pose proof PI_RGT_0. lra.
  - rewrite dot_dir, sin_0, cos_0. replace (PI / 4 - - (PI / 4)) with (PI / 2) by field. rewrite cos_PI2. ring.
Qed.
Lemma ex_sep_opposite : skysep_h ideal 0 0 PI 0 = 180.
Proof.
  rewrite skysep_acos, (acos_unique _ PI).
  - change (@eq R (degrees PI) 180). exact degrees_pi.
  - pose proof PI_RGT_0. lra.
  - rewrite dot_dir, sin_0, cos_0, Rminus_0_r, cos_PI. ring.
Qed.
(** All right ascensions at the pole are one direction. *)
Lemma ex_sep_pole : skysep_h ideal 1 (PI / 2) 2 (PI / 2) = 0 /\ skysep_h ideal 1 0 2 0 <> 0.
Proof.
  split.
  - apply skysep_zero. unfold dir. rewrite cos_PI2, sin_PI2, !Rmult_0_l. reflexivity.
  - rewrite skysep_zero. unfold dir. rewrite cos_0, !Rmult_1_l. intros E. injection E as E1 E2.
    pose proof pi_bounds. assert (1 = 2) by (apply angle_unique; [rewrite Rabs_left; lra|exact E1|exact E2]). lra.
Qed.

(** *** Polar angle *)
Lemma ex_circ : atan_circ ideal (-1) 1 = 3 * (PI / 4) /\ atan_circ ideal 0 (-2) = 3 * (PI / 2).
Proof.
  pose proof pi_bounds. split; unfold atan_circ; ideal_; lits.
  - replace (Reqb (-1) 0) with false by (symmetry; apply Reqb_f; lra).
    replace (Rltb (-1) 0) with true by (symmetry; apply Rltb_t; lra).
    replace (1 / -1) with (-(1)) by field. rewrite atan_opp, atan_1.
    replace (Rltb (- (PI / 4) + PI) 0) with false by (symmetry; apply Rltb_f; lra).
    change (@eq R (- (PI / 4) + PI) (3 * (PI / 4))). field.
  - replace (Reqb 0 0) with true by (symmetry; apply Reqb_t; reflexivity).
    replace (Rltb 0 (-2)) with false by (symmetry; apply Rltb_f; lra).
    replace (Rltb (-2) 0) with true by (symmetry; apply Rltb_t; lra).
    replace (Rltb 0 0) with false by (symmetry; apply Rltb_f; lra).
    replace (Rltb (3 * (PI / 2)) 0) with false by (symmetry; apply Rltb_f; lra). reflexivity.
Qed.

(** *** Topocentric place: a satellite 2 km down the y axis from the observer *)
Lemma ex_topocentric : get_satellite_ra_dec_delta ideal (1, 2, 3) (1, 0, 3) = (3 * (PI / 2), 0, 2).
Proof.
  pose proof pi_bounds. unfold get_satellite_ra_dec_delta. ideal_. lits.
  replace (1 - 1) with 0 by ring. replace (0 - 2) with (-2) by ring. replace (3 - 3) with 0 by ring.
  replace (Ratan2 (-2) 0) with (- (PI / 2)).
  2:{ unfold Ratan2. destruct (Rlt_dec 0 0); [lra|]. destruct (Rlt_dec 0 (-2)); [lra|]. destruct (Rlt_dec (-2) 0); [reflexivity|lra]. }
  replace (Rltb (- (PI / 2)) 0) with true by (symmetry; apply Rltb_t; lra).
  replace (sqrt (0 + 0 * 0 + -2 * -2 + 0 * 0)) with 2.
  2:{ replace (0 + 0 * 0 + -2 * -2 + 0 * 0) with (2 * 2) by ring. rewrite sqrt_square; lra. }
  replace (0 / 2) with 0 by field. rewrite asin_0. f_equal. f_equal. change (@eq R (- (PI / 2) + 2 * PI) (3 * (PI / 2))). field.
Qed.

(** *** Shadow: behind the Earth, and in front of it *)
Lemma ex_shadow : blocked erad (-7000, 0, 0) (149597870, 0, 0) /\ ~ blocked erad (7000, 0, 0) (149597870, 0, 0).
Proof.
  split.
  - exists (7000 / 149604870). split; [lra|]. unfold norm, plus, scale, minus, dot.
    replace (_ + _ + _) with 0 by field. rewrite sqrt_0. unfold erad. lra.
  - intros (d & D0 & D). unfold norm, plus, scale, minus, dot in D.
    replace (_ + _ + _) with (Rsqr (7000 + d * (149597870 - 7000))) in D by (unfold Rsqr; ring).
    rewrite sqrt_Rsqr in D by nra. unfold erad in D. nra.
Qed.
Lemma ex_sunlit : fst (fst (intersect_satsun_sphere ideal (-7000, 0, 0) (149597870, 0, 0))) = true /\
  fst (fst (intersect_satsun_sphere ideal (7000, 0, 0) (149597870, 0, 0))) = false.
Proof.
  destruct ex_shadow as [A B]. split.
  - apply shadow_erad; [|exact A]. unfold minus. intros E. injection E as E _ _. lra.
  - apply Bool.not_true_iff_false. rewrite shadow_erad; [exact B|]. unfold minus. intros E. injection E as E _ _. lra.
Qed.

(** *** Horizon *)
Lemma ex_altitude : exists h, dechalat2alt ideal 0 0 45 = Ok h /\ hz_alt ideal h = 45.
Proof.
  destruct (horizon_defined 0 0 45) as [h E]. exists h. split; [exact E|]. pose proof pi_bounds as PB.
  assert (R45 : radians 45 = PI / 4) by (unfold radians; field).
  destruct (altitude _ _ _ _ E) as [B S].
  - unfold regular_alt. rewrite R45, Rabs_left; lra.
  - left. reflexivity.
  - replace (hour_angle 0) with 0 in S by (unfold hour_angle, radians; ring). rewrite sin_ha_dir, R45, cos_0, sin_0 in S.
    assert (sin (radians (hz_alt ideal h)) = sin (PI / 4)). { rewrite S, sin_PI4, cos_PI4. ring. }
    assert (Q : radians (hz_alt ideal h) = PI / 4).
    { set (x := hz_alt ideal h) in *. assert (- (PI / 2) <= radians x <= PI / 2) by (unfold radians; split; nra).
      rewrite <- (asin_sin (radians x)), H by lra. apply asin_sin. lra. }
    rewrite <- (radians_deg (PI / 4)) in Q. unfold radians in Q.
    apply Rmult_eq_reg_r in Q; [|apply Rgt_not_eq, Rdiv_lt_0_compat; lra].
    transitivity (180 / PI * (PI / 4)); [exact Q|]. change (@eq R (180 / PI * (PI / 4)) 45). field. lra.
Qed.

(** On the western horizon. *)
Lemma ex_west : exists h, dechalat2alt ideal 0 6 45 = Ok h /\ bearing 0 (hour_angle 6) (radians 45) (hz_az ideal h) /\
  bearing 0 (hour_angle 6) (radians 45) 270.
Proof.
  destruct (horizon_defined 0 6 45) as [h E]. exists h. split; [exact E|].
  replace (radians 45) with (PI / 4) by (unfold radians; field).
  assert (Q : radians 45 = PI / 4) by (unfold radians; field). split.
  - rewrite <- Q. apply (azimuth _ _ _ _ E); [lra|]. unfold not_polar. rewrite Q, cos_PI4.
    assert (sqrt 2 <= 2) by (rewrite <- (sqrt_square 2) at 2 by lra; apply sqrt_le_1; lra).
    assert (0 < sqrt 2) by (apply sqrt_lt_R0; lra).
    apply Rmult_le_reg_r with (sqrt 2); [lra|]. unfold Rdiv. rewrite Rmult_assoc. rewrite (Rmult_comm 1 (/ sqrt 2)). rewrite Rmult_1_r, Rinv_l; lra.
  - unfold bearing. split; [lra|]. exists 1. split; [lra|].
    replace (hour_angle 6) with (PI / 2) by (unfold hour_angle, radians; field).
    replace (radians 270) with (3 * (PI / 2)) by (unfold radians; field). rewrite cos_3PI2, sin_3PI2.
    unfold dot, ha_dir, north, east. rewrite cos_0, sin_0, cos_PI2, sin_PI2. split; ring.
Qed.

(** *** Precession: half a century from J2000 *)
Lemma ex_j2000 : exists ra' dec', epoch_of_date_to_j2000 ideal (2451545 + 36525) 0 0 = (ra', dec') /\ 6 < ra' < 2 * PI /\ - (1 / 100) < dec' < 0.
Proof.
  pose proof pi_bounds as PB. pose proof (j2000_eq (2451545 + 36525) 0 0) as J. cbv zeta in J. rewrite j2100, sin_0, cos_0, tan_0 in J.
  set (raw := 0 - 1 * (prec_m 1 + prec_n 1 * 0 * 0) * 100) in J.
  assert (B : - (3 / 100) < raw < 0) by (unfold raw, prec_m; split; nra).
  replace (Rltb raw 0) with true in J by (symmetry; apply Rltb_t; lra).
  do 2 eexists. split; [exact J|]. split; [lra|]. unfold prec_n. split; nra.
Qed.

(** *** Flat separation and motion *)
Lemma ex_flat : flat_sep ideal (2 / 10) 0 (1 / 10) 0 = degrees (1 / 10) /\ flat_sep ideal (1 / 10) 0 (2 * PI - 1 / 10) 0 = degrees (2 / 10).
Proof.
  pose proof pi_bounds as PB. split.
  - rewrite (proj2 (flat_sep_equator (2 / 10) (1 / 10) ltac:(lra) ltac:(lra) ltac:(lra))), ra_diff_eq. cbv zeta.
    replace (Rltb PI (2 / 10 - 1 / 10 + 2 * PI)) with true by (symmetry; apply Rltb_t; lra).
    rewrite Rabs_right by lra. f_equal. lra.
  - rewrite (proj2 (flat_sep_equator (1 / 10) (2 * PI - 1 / 10) ltac:(lra) ltac:(lra) ltac:(lra))), ra_diff_eq. cbv zeta.
    replace (Rltb PI (1 / 10 - (2 * PI - 1 / 10) + 2 * PI)) with false by (symmetry; apply Rltb_f; lra).
    rewrite Rabs_right by lra. f_equal. lra.
Qed.
Lemma ex_motion : position_angle 1 0 1 (1 / 10) 0 /\ position_angle (2 * PI - 1 / 1000) 0 (1 / 1000) 0 (PI / 2).
Proof.
  pose proof pi_bounds as PB. split.
  - exists 0. split; [split; [exists 0%Z; lra|lra]|]. split; [lra|]. rewrite cos_0, sin_0.
    replace ((1 / 10 - 0) * (1 / 10 - 0) + 0 * 1 * (0 * 1)) with (Rsqr (1 / 10)) by (unfold Rsqr; field). rewrite sqrt_Rsqr by lra. lra.
  - exists (2 / 1000). split; [split; [exists 1%Z; lra|lra]|]. split; [lra|]. rewrite cos_0, cos_PI2, sin_PI2.
    replace ((0 - 0) * (0 - 0) + 2 / 1000 * 1 * (2 / 1000 * 1)) with (Rsqr (2 / 1000)) by (unfold Rsqr; field). rewrite sqrt_Rsqr by lra. lra.
Qed.

(** *** Observer at 0 N 0 E at sidereal time 0 *)
Lemma ex_observer : exists rc rs, earth_lat_alt_to_parallax ideal 0 0 = (rc, rs) /\
  observer_cartesian_coords ideal 0 0 rc rs = (6378.140, 0, 0).
Proof.
  do 2 eexists. split; [apply surjective_pairing|].
  rewrite (observer_place 0 0 0 0 _ _ ltac:(rewrite cos_0; lra) (surjective_pairing _)).
  unfold geodetic, prime_vertical. rewrite Rplus_0_l, cos_0, sin_0.
  replace (1 - (1 - 6356755 / 6378140 * (6356755 / 6378140)) * (0 * 0)) with 1 by ring. rewrite sqrt_1. f_equal; [f_equal|]; lra.
Qed.

(** *** Longitude of the Sun *)
Lemma ex_sun_lon : sun_lon ideal (3 * (PI / 2)) 0 = -90.
Proof.
  pose proof pi_bounds as PB. destruct (sun_longitude (3 * (PI / 2)) 0 ltac:(lra) ltac:(lra)) as (B & k & K).
  set (x := sun_lon ideal (3 * (PI / 2)) 0) in *.
  assert (D : degrees (3 * (PI / 2)) = 270) by (unfold degrees; field; lra). rewrite D in K.
  assert (k = -1)%Z. { assert (-180 < 270 - 15 * 0 + 360 * IZR k <= 180) by (rewrite <- K; exact B).
    assert (IZR k < 0) by lra. assert (-2 < IZR k) by lra. apply lt_IZR in H0. apply lt_IZR in H1. lia. }
  subst k. rewrite K. change (@eq R (270 - 15 * 0 + 360 * -1) (-90)). ring.
Qed.

(** *** In January the Sun is south of the equator *)
Lemma ex_sun : exists ra dec, lpsun_radec ideal 2451545 = (ra, dec) /\ dec < 0.
Proof.
  exists (fst (lpsun_radec ideal 2451545)), (snd (lpsun_radec ideal 2451545)). split; [apply surjective_pairing|].
  destruct (sun_almanac 2451545 _ _ (surjective_pairing _)) as (_ & B & D). pose proof pi_bounds as PB.
  set (dec := snd (lpsun_radec ideal 2451545)) in *.
  assert (S : sin dec < 0).
  { unfold dir, ecliptic_dir in D. injection D as _ _ D. change (sin dec = sin (almanac_obliquity (2451545 - 2451545)) * sin (almanac_longitude (2451545 - 2451545))) in D.
    rewrite D. replace (2451545 - 2451545) with 0 by ring.
    assert (0 < sin (almanac_obliquity 0)) by (apply sin_gt_0; unfold almanac_obliquity, radians; lra).
    assert (sin (almanac_longitude 0) < 0).
    { unfold almanac_longitude. cbv zeta. set (g := radians (357.528 + 0.9856003 * 0)). set (s1 := sin g). set (s2 := sin (2 * g)).
      assert (-1 <= s1 <= 1) by apply SIN_bound. assert (-1 <= s2 <= 1) by apply SIN_bound.
      apply sin_lt_0; unfold radians; nra. }
    nra. }
  destruct (Rlt_le_dec dec 0) as [|N]; [assumption|exfalso]. assert (0 <= sin dec) by (apply sin_ge_0; [exact N|change (dec <= PI); lra]). lra.
Qed.

(** *** The sub-satellite point of a satellite over the equator *)
Lemma ex_place : exists p, sat_geoLocation ideal 5 0 (7000, 0, 0) = Ok p /\
  near (2 / 1000000) (geodetic erad ecc2 (radians (pl_lon ideal p)) (radians (pl_lat ideal p)) (pl_alt ideal p)) (7000, 0, 0).
Proof.
  destruct (place_right 5 0 7000 0 0) as (p & E & _ & _ & N); [lia|lra|lra|unfold erad; lra|].
  exists p. split; [exact E|]. rewrite Rmult_0_r, Rplus_0_r in N. exact N.
Qed.
