(** Witnesses: places where the coordinate geometry does not compute what it is meant to. *)
From Coq Require Import ZArith Reals Lra Lia Bool Psatz.
From Verif Require Import CLib FloatModel ArithModel GeoModel GeoSpec GeoLemmas GeoProofs1 GeoProofs2 GeoProofs3 GeoProofs4 GeoProofs5.
Open Scope R_scope.

(** A star on the equator, six hours west of the meridian, seen from the equator: on the horizon, reported at the zenith. *)
Lemma wrong_zenith : exists dec ha lat h, dechalat2alt ideal dec ha lat = Ok h /\ hz_alt ideal h = 90 /\
  elevation dec (hour_angle ha) (radians lat) 0.
Proof.
  destruct (horizon_defined 0 6 0) as [h E]. exists 0, 6, 0, h. split; [exact E|]. split.
  - apply (altitude_shortcut 0 6 0); [exact E|]. unfold regular_alt, radians. rewrite Rmult_0_l, Rminus_0_r, Rabs_R0. lra.
  - unfold elevation, hour_angle. replace (radians (6 * 15)) with (PI / 2) by (unfold radians; field).
    replace (radians 0) with 0 by (unfold radians; ring). split; [lra|].
    rewrite sin_ha_dir, cos_PI2, sin_0. ring.
Qed.

(** On the meridian south of the zenith: azimuth 0, the bearing is 180. *)
Lemma wrong_meridian : exists dec lat h, dechalat2alt ideal dec 0 lat = Ok h /\ hz_az ideal h = 0 /\ ~ bearing dec (hour_angle 0) (radians lat) 0 /\
  bearing dec (hour_angle 0) (radians lat) 180.
Proof.
  destruct (horizon_defined 0 0 45) as [h E]. exists 0, 45, h. split; [exact E|]. split; [exact (az_meridian _ _ _ E)|].
  assert (S : sin (0 - radians 45) < 0).
  { replace (0 - radians 45) with (- (PI / 4)) by (unfold radians; field). rewrite sin_neg, sin_PI4.
    assert (0 < 1 / sqrt 2) by (apply Rdiv_lt_0_compat; [lra|apply sqrt_lt_R0; lra]). lra. }
  replace (hour_angle 0) with 0 by (unfold hour_angle, radians; ring).
  split; [rewrite bearing_meridian; lra|].
  unfold bearing. split; [lra|]. exists (- sin (0 - radians 45)). split; [lra|].
  replace (radians 180) with PI by (unfold radians; field). rewrite cos_PI, sin_PI.
  unfold dot, ha_dir, north, east. rewrite cos_0, sin_0, sin_minus, cos_0, sin_0. split; ring.
Qed.

(** At the pole: the hour angle in radians is reported as azimuth in degrees. *)
Lemma wrong_polar : exists dec ha lat h, dechalat2alt ideal dec ha lat = Ok h /\ hz_az ideal h = - (PI / 12) /\
  hz_az ideal h < 0 /\ bearing dec (hour_angle ha) (radians lat) 165.
Proof.
  destruct (horizon_defined 0 (-1) 90) as [h E]. exists 0, (-1), 90, h. split; [exact E|].
  assert (Z : hz_az ideal h = hour_angle (-1)).
  { apply (azimuth_polar 0 (-1) 90); [exact E|lra|]. unfold not_polar. replace (radians 90) with (PI / 2) by (unfold radians; field).
    rewrite cos_PI2. lra. }
  assert (H1 : hour_angle (-1) = - (PI / 12)) by (unfold hour_angle, radians; field).
  rewrite Z, H1. split; [reflexivity|]. pose proof PI_RGT_0. split; [lra|].
  unfold bearing. split; [lra|]. exists 1. split; [lra|].
  replace (radians 90) with (PI / 2) by (unfold radians; field).
  replace (radians 165) with (PI - PI / 12) by (unfold radians; field).
  unfold dot, ha_dir, north, east. rewrite cos_0, sin_0, cos_PI2, sin_PI2, cos_neg, sin_neg.
  rewrite sin_PI_x. replace (cos (PI - PI / 12)) with (- cos (PI / 12)) by (rewrite cos_minus, cos_PI, sin_PI; ring).
  split; ring.
Qed.

(** *** Precession *)
Lemma j2100 : centuries (2451545 + 36525) = 1.
Proof. unfold centuries. field. Qed.

Lemma wrong_dec : exists jd ra dec ra' dec', Rabs (centuries jd) <= 1 /\ 0 <= ra < 2 * PI /\ - (PI / 2) < dec < PI / 2 /\
  epoch_of_date_to_j2000 ideal jd ra dec = (ra', dec') /\ PI / 2 < dec'.
Proof.
  pose proof pi_bounds as PB.
  exists (2451545 + 36525), PI, (PI / 2 - 1 / 1000).
  pose proof (j2000_eq (2451545 + 36525) PI (PI / 2 - 1 / 1000)) as J. cbv zeta in J. rewrite j2100 in J.
  do 2 eexists. split; [rewrite j2100, Rabs_R1; lra|]. split; [lra|]. split; [lra|]. split; [exact J|].
  rewrite cos_PI. unfold prec_n. nra.
Qed.

Lemma wrong_ra : exists jd ra dec ra' dec', Rabs (centuries jd) <= 1 /\ 0 <= ra < 2 * PI /\ - (PI / 2) < dec < PI / 2 /\
  epoch_of_date_to_j2000 ideal jd ra dec = (ra', dec') /\ 2 * PI <= ra'.
Proof.
  pose proof pi_bounds as PB.
  exists (2451545 + 36525), (3 * (PI / 2)), (atan 10000).
  pose proof (j2000_eq (2451545 + 36525) (3 * (PI / 2)) (atan 10000)) as J. cbv zeta in J. rewrite j2100 in J.
  rewrite atan_right_inv in J. rewrite sin_3PI2 in J.
  set (raw := 3 * (PI / 2) - 1 * (prec_m 1 + prec_n 1 * -1 * 10000) * 100) in J.
  assert (B : 6 * PI < raw). { unfold raw, prec_m, prec_n. nra. }
  replace (Rltb raw 0) with false in J by (symmetry; apply Rltb_f; lra).
  replace (Rleb (2 * PI) raw) with true in J by (symmetry; apply Rleb_t; lra).
  do 2 eexists. split; [rewrite j2100, Rabs_R1; lra|]. split; [lra|]. pose proof (atan_bound 10000). split; [lra|]. split; [exact J|]. lra.
Qed.

(** *** Right ascension across 0h *)
Lemma wrong_side : exists ra target, 0 <= ra < 2 * PI /\ 0 <= target < 2 * PI /\
  angle_between (dir target 0) (dir ra 0) (2 / 10) /\ degrees (2 / 10) < 12 /\ 340 < flat_sep ideal ra 0 target 0.
Proof.
  pose proof pi_bounds as PB. exists (2 * PI - 1 / 10), (1 / 10). split; [lra|]. split; [lra|]. split; [|split].
  - split; [lra|]. rewrite dot_dir, sin_0, cos_0. replace (2 * PI - 1 / 10 - 1 / 10) with (2 * PI - 2 / 10) by lra. rewrite cos_2pi_minus. ring.
  - unfold degrees. apply Rmult_lt_reg_r with PI; [lra|]. field_simplify; lra.
  - rewrite flat_sep_eq, ra_diff_long by lra.
    replace ((2 * PI - 1 / 10 - 1 / 10) * (2 * PI - 1 / 10 - 1 / 10) + (0 - 0) * (0 - 0)) with (Rsqr (2 * PI - 2 / 10)) by (unfold Rsqr; field).
    rewrite sqrt_Rsqr by lra. unfold degrees. apply Rmult_lt_reg_r with PI; [lra|]. field_simplify; lra.
Qed.

(** Close to the pole the difference of right ascension is not shortened by cos(dec): 0.81 degrees apart at most, reported 90. *)
Lemma wrong_scale : exists ra dec target g, 0 <= ra < 2 * PI /\ 0 <= target < 2 * PI /\ - (PI / 2) <= dec <= PI / 2 /\
  angle_between (dir target dec) (dir ra dec) g /\ degrees g < 1 /\ flat_sep ideal ra dec target dec = 90.
Proof.
  pose proof pi_bounds as PB. set (y := 1 / 100).
  set (c := dot (dir 0 (PI / 2 - y)) (dir (PI / 2) (PI / 2 - y))).
  assert (C : c = cos y * cos y).
  { unfold c. rewrite dot_dir, Rminus_0_r, cos_PI2, <- cos_shift, Rmult_0_r, Rplus_0_r. rewrite cos_shift. rewrite <- (cos_shift (PI / 2 - y)).
    replace (PI / 2 - (PI / 2 - y)) with y by ring. reflexivity. }
  assert (CB : -1 <= c <= 1) by (apply dot_dir_bound).
  exists (PI / 2), (PI / 2 - y), 0, (acos c). split; [lra|]. split; [lra|]. split; [unfold y; lra|]. split; [|split].
  - split; [apply acos_bound|]. apply cos_acos. exact CB.
  - assert (L : acos c < 16 / 1000).
    { destruct (Rlt_le_dec (acos c) (16 / 1000)) as [|L]; [assumption|exfalso].
      assert (cos (acos c) <= cos (16 / 1000)). { destruct L as [L|L]; [left; apply cos_decreasing_1; pose proof (acos_bound c); lra|rewrite L; lra]. }
      rewrite cos_acos in H by exact CB. rewrite C in H.
      assert (K : 1 - y * y / 2 <= cos y). { unfold y. pose proof (cos_bound (1/100) 0). destruct H0 as [H0 _]; [lra|lra|]. revert H0. unfold cos_approx, cos_term. cbn. lra. }
      assert (K2 : cos (16 / 1000) <= 1 - (16/1000) * (16/1000) / 2 + (16/1000)*(16/1000)*(16/1000)*(16/1000) / 24).
      { pose proof (cos_bound (16/1000) 0). destruct H0 as [_ H0]; [lra|lra|]. revert H0. unfold cos_approx, cos_term. cbn. lra. }
      unfold y in K. unfold y in H. nra. }
    unfold degrees. apply Rmult_lt_reg_r with PI; [lra|]. field_simplify; lra.
  - rewrite flat_sep_eq, ra_diff_eq. cbv zeta. replace (Rltb PI (PI / 2 - 0 + 2 * PI)) with true by (symmetry; apply Rltb_t; lra).
    replace ((PI / 2 - 0 + 2 * PI - 2 * PI) * (PI / 2 - 0 + 2 * PI - 2 * PI) + (PI / 2 - y - (PI / 2 - y)) * (PI / 2 - y - (PI / 2 - y))) with (Rsqr (PI / 2)) by (unfold Rsqr; field).
    rewrite sqrt_Rsqr by lra. unfold degrees. change (@eq R (PI / 2 * (180 / PI)) 90). field. lra.
Qed.

(** Moving west across 0h on the equator: reported as motion to the east. *)
Lemma wrong_motion : exists ra ra1, 0 <= ra < 2 * PI /\ 0 <= ra1 < 2 * PI /\
  motion_angle ideal ra 0 ra1 0 = PI / 2 /\ position_angle ra 0 ra1 0 (3 * (PI / 2)).
Proof.
  pose proof pi_bounds as PB. exists (1 / 1000), (2 * PI - 1 / 1000). split; [lra|]. split; [lra|]. split.
  - unfold motion_angle. rewrite ra_diff_long by lra. ideal_. rewrite cos_0.
    replace ((2 * PI - 1 / 1000 - 1 / 1000) * 1) with (2 * PI - 2 / 1000) by field. replace (0 - 0) with 0 by ring.
    replace (Ratan2 (2 * PI - 2 / 1000) 0) with (PI / 2).
    + replace (Rltb (PI / 2) (0 / 1)) with false by (symmetry; apply Rltb_f; lra). reflexivity.
    + unfold Ratan2. destruct (Rlt_dec 0 0); [lra|]. destruct (Rlt_dec 0 (2 * PI - 2 / 1000)); [reflexivity|lra].
  - exists (- (2 / 1000)). split; [split; [exists (-1)%Z; lra|lra]|].
    unfold polar_angle. split; [lra|]. rewrite cos_0, Rmult_1_r. replace (0 - 0) with 0 by ring.
    replace (0 * 0 + - (2 / 1000) * - (2 / 1000)) with (Rsqr (2 / 1000)) by (unfold Rsqr; ring). rewrite sqrt_Rsqr by lra.
    rewrite sin_3PI2, cos_3PI2. split; ring.
Qed.

(** A satellite exactly above the requested point at latitude 10 degrees: 562 degrees away. *)
Lemma wrong_units : exists lon lat, flat_geo_sep ideal lon lat (radians lon) (radians lat) > 562.
Proof.
  pose proof pi_bounds as PB. exists 0, 10. rewrite flat_geo_same by lra. unfold degrees, radians.
  rewrite Rabs_right by lra. apply Rmult_gt_reg_l with PI; [lra|]. field_simplify; lra.
Qed.

(** In binary64, whatever the functions of <math.h>. *)
Lemma wrong_side_64 m : flt PI64 (ra_diff (machine m) (round_ratio 62 10) (round_ratio 1 10)) = true.
Proof. vm_compute. reflexivity. Qed.
Lemma wrong_units_64 m :
  flt (round_ratio 562 1) (flat_geo_sep (machine m) (round_ratio 0 1) (round_ratio 10 1) (round_ratio 0 1) (fmul (round_ratio 10 1) DEG64)) = true.
Proof. vm_compute. reflexivity. Qed.

(** Over the pole: a satellite 7000 km from the centre of the Earth is given an altitude below -6399 km.  The hypotheses are
    what <math.h> returns: atan2(y, 0) = PI/2 for y > 0, sin(PI/2) = 1, and a cosine of PI/2 that is a small positive number. *)
Definition half_pi64 : b64 := fdiv PI64 (round_ratio 2 1).
Lemma geo_turn (A : arith) f e2 z r lat : geo_lat A (S f) e2 z r lat =
  let c := div A (int A 1) (c_sqrt A (sub A (int A 1) (mul A (mul A e2 (c_sin A lat)) (c_sin A lat)))) in
  let lat' := c_atan2 A (add A z (mul A (mul A (mul A (ERAD A) c) e2) (c_sin A lat))) r in
  if len A (cst A 1 10000000000) (c_fabs A (sub A lat' lat)) then geo_lat A f e2 z r lat' else Ok (lat', c).
Proof. reflexivity. Qed.

Lemma wrong_pole_64 m fuel gmst : (1 <= fuel)%nat ->
  (forall y x, flt (round_ratio 0 1) y = true -> feq x (round_ratio 0 1) = true -> m_atan2 m y x = half_pi64) ->
  m_sin m half_pi64 = round_ratio 1 1 ->
  m_cos m half_pi64 = round_ratio 6123233995736766 100000000000000000000000000000000 ->
  exists p, sat_geoLocation (machine m) fuel gmst (round_ratio 0 1, round_ratio 0 1, round_ratio 7000 1) = Ok p /\
    flt (pl_alt (machine m) p) (round_ratio (-6399) 1) = true.
Proof.
  intros F At Sn Cs. destruct fuel as [|f]; [lia|].
  unfold sat_geoLocation.
  match goal with |- context [geo_lat _ _ ?e ?z ?r (c_atan2 _ ?y ?x)] =>
    change (c_atan2 (machine m) y x) with (m_atan2 m y x); rewrite (At y x) by (vm_compute; reflexivity);
    set (e2 := e); set (zz := z); set (rr := r) end.
  rewrite geo_turn. cbv zeta.
  change (c_sin (machine m) half_pi64) with (m_sin m half_pi64). rewrite Sn.
  match goal with |- context [c_atan2 (machine m) ?y rr] =>
    change (c_atan2 (machine m) y rr) with (m_atan2 m y rr); rewrite (At y rr) by (vm_compute; reflexivity) end.
  match goal with |- context [len (machine m) ?a ?b] => replace (len (machine m) a b) with false by (vm_compute; reflexivity) end.
  cbn [bind]. eexists. split; [reflexivity|]. cbn [pl_alt].
  change (c_cos (machine m) half_pi64) with (m_cos m half_pi64). rewrite Cs. vm_compute. reflexivity.
Qed.
