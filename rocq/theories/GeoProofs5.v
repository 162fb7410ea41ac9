(** The observer, the longitude of the Sun, and the special cases of the horizon coordinates. *)
From Coq Require Import ZArith Reals Lra Lia Bool Psatz.
From Verif Require Import CLib ArithModel GeoModel GeoSpec GeoLemmas GeoProofs1 GeoProofs2 GeoProofs3 GeoProofs4.
Open Scope R_scope.

(** *** The observer on the ellipsoid *)
Lemma parallax lat ht rc rs : 0 < cos lat -> earth_lat_alt_to_parallax ideal lat ht = (rc, rs) ->
  let e2 := 1 - (6356755 / 6378140) * (6356755 / 6378140) in
  6378140 * rc = (prime_vertical 6378140 e2 lat + ht) * cos lat /\
  6378140 * rs = (prime_vertical 6378140 e2 lat * (1 - e2) + ht) * sin lat.
Proof.
  intros C. unfold earth_lat_alt_to_parallax. ideal_. lits. set (q := 6356755 / 6378140).
  set (u := atan (sin lat * q / cos lat)). intros E.
  assert (E1 := f_equal fst E). assert (E2 := f_equal snd E). cbn [fst snd] in E1, E2. clear E. cbv zeta.
  destruct (atan_dir (cos lat) (sin lat * q) C) as [A B]. fold u in A, B.
  assert (Q : 0 < q < 1) by (unfold q; lra). assert (S := sc2 lat).
  set (k := cos lat * cos lat + sin lat * q * (sin lat * q)) in *.
  assert (K : k = 1 - (1 - q * q) * (sin lat * sin lat)) by (unfold k; nra).
  assert (KP : 0 < k). { unfold k. assert (0 < cos lat * cos lat) by nra. nra. }
  assert (SK : 0 < sqrt k) by (apply sqrt_lt_R0; exact KP).
  unfold prime_vertical. rewrite <- K.
  assert (CU : cos u = cos lat / sqrt k). { apply (Rmult_eq_reg_l (sqrt k)); [|lra]. rewrite <- A. field. lra. }
  assert (SU : sin u = sin lat * q / sqrt k). { apply (Rmult_eq_reg_l (sqrt k)); [|lra]. rewrite <- B. field. lra. }
  rewrite <- E1, <- E2, CU, SU. split; field; lra.
Qed.

Lemma observer_place theta lon lat ht rc rs : 0 < cos lat -> earth_lat_alt_to_parallax ideal lat ht = (rc, rs) ->
  observer_cartesian_coords ideal theta lon rc rs =
  geodetic (6378140 / 1000) (1 - (6356755 / 6378140) * (6356755 / 6378140)) (lon + theta) lat (ht / 1000).
Proof.
  intros C E. destruct (parallax lat ht rc rs C E) as [A B]. unfold observer_cartesian_coords, geodetic. ideal_. lits.
  set (e2 := 1 - 6356755 / 6378140 * (6356755 / 6378140)) in *.
  assert (PV : prime_vertical (6378140 / 1000) e2 lat = prime_vertical 6378140 e2 lat / 1000) by (unfold prime_vertical, Rdiv; ring).
  rewrite PV. set (N := prime_vertical 6378140 e2 lat) in *.
  f_equal; [f_equal|].
  - replace (cos (lon + theta) * rc * 6378140 / 1000) with (6378140 * rc * cos (lon + theta) / 1000) by field. rewrite A. field.
  - replace (sin (lon + theta) * rc * 6378140 / 1000) with (6378140 * rc * sin (lon + theta) / 1000) by field. rewrite A. field.
  - replace (rs * 6378140 / 1000) with (6378140 * rs / 1000) by field. rewrite B. field.
Qed.

(** *** Longitude of the Sun *)
Lemma Rtrunc_nonneg x : 0 <= x -> IZR (Rtrunc x) <= x < IZR (Rtrunc x) + 1.
Proof. intros H. unfold Rtrunc. destruct (Rle_dec 0 x); [|lra]. destruct (base_Int_part x). lra. Qed.

Lemma Rfmod_range x y : 0 <= x -> 0 < y -> 0 <= Rfmod x y < y /\ exists k : Z, Rfmod x y = x - IZR k * y.
Proof.
  intros X Y. unfold Rfmod. assert (0 <= x / y) by (apply Rmult_le_pos; [lra | apply Rlt_le, Rinv_0_lt_compat; lra]).
  destruct (Rtrunc_nonneg (x / y) H) as [L U]. split; [|eexists; reflexivity].
  assert (E : x = x / y * y) by (field; lra). nra.
Qed.

Lemma sun_longitude ra gmst : 0 <= ra < 2 * PI -> 0 <= gmst <= 24 ->
  -180 < sun_lon ideal ra gmst <= 180 /\ exists k : Z, sun_lon ideal ra gmst = degrees ra - 15 * gmst + 360 * IZR k :> R.
Proof.
  intros R G. unfold sun_lon. ideal_. lits. fold (degrees ra). assert (P := PI_RGT_0).
  assert (D : 0 <= degrees ra). { unfold degrees. apply Rmult_le_pos; [lra|]. apply Rlt_le, Rdiv_lt_0_compat; lra. }
  destruct (Rfmod_range (degrees ra - gmst * 15 + 360) 360) as [B [k K]]; [lra | lra |].
  set (f := Rfmod (degrees ra - gmst * 15 + 360) 360) in *.
  destruct (Rltb 180 f) eqn:E; [apply Rltb_t in E | apply Rltb_f in E].
  - split; [lra|]. exists (- k)%Z. rewrite opp_IZR, K. ring.
  - split; [lra|]. exists (1 - k)%Z. rewrite minus_IZR, K. ring.
Qed.

(** *** Horizon: meridian and poles *)
Lemma az_meridian dec lat h : dechalat2alt ideal dec 0 lat = Ok h -> hz_az ideal h = 0.
Proof.
  unfold dechalat2alt. ideal_. lits. replace (Reqb 0 0) with true by (symmetry; apply Reqb_t; reflexivity). intros E.
  destruct (Reqb (cos dec) 0); cbn [bind] in E; injection E as <-; reflexivity.
Qed.

Lemma bearing_meridian dec la : bearing dec 0 la 0 <-> 0 <= sin (dec - la).
Proof.
  unfold bearing. assert (N : dot (ha_dir dec 0) (north la) = sin (dec - la)).
  { unfold dot, ha_dir, north. rewrite sin_minus, cos_0, sin_0. ring. }
  assert (E : dot (ha_dir dec 0) east = 0). { unfold dot, ha_dir, east. rewrite sin_0. ring. }
  rewrite N, E. unfold radians. rewrite Rmult_0_l, cos_0, sin_0. split.
  - intros [_ [k [K [A _]]]]. lra.
  - intros H. split; [lra|]. exists (sin (dec - la)). lra.
Qed.

Lemma azimuth_meridian dec lat h : dechalat2alt ideal dec 0 lat = Ok h ->
  (bearing dec (hour_angle 0) (radians lat) (hz_az ideal h) <-> 0 <= sin (dec - radians lat)).
Proof.
  intros E. rewrite (az_meridian _ _ _ E). unfold hour_angle. replace (radians (0 * 15)) with 0 by (unfold radians; ring). apply bearing_meridian.
Qed.

Lemma azimuth_polar dec ha lat h : dechalat2alt ideal dec ha lat = Ok h -> ha <> 0 -> ~ not_polar lat -> hz_az ideal h = hour_angle ha.
Proof.
  unfold dechalat2alt, not_polar, hour_angle. ideal_. lits. fold (radians lat). set (la := radians lat). intros E H N.
  replace (Reqb ha 0) with false in E by (symmetry; apply Reqb_f; exact H).
  replace (Rltb (cos la) (1 / 1000000)) with true in E by (symmetry; apply Rltb_t; lra).
  destruct (Reqb (cos dec) 0); cbn [bind] in E; injection E as <-; reflexivity.
Qed.

(** Near a pole the altitude is right to 1.1e-6 in its sine. *)
Lemma altitude_polar dec ha lat h : dechalat2alt ideal dec ha lat = Ok h -> regular_alt dec lat -> ha <> 0 -> ~ not_polar lat -> -90 <= lat <= 90 ->
  -90 <= hz_alt ideal h <= 90 /\ Rabs (sin (radians (hz_alt ideal h)) - dot (ha_dir dec (hour_angle ha)) (zenith (radians lat))) <= 11 / 10000000.
Proof.
  unfold dechalat2alt, regular_alt, not_polar, hour_angle. ideal_. lits. fold (radians lat). intros E RA H N LAT. assert (P := PI_RGT_0).
  assert (LB : - (PI / 2) <= radians lat <= PI / 2). { unfold radians. nra. }
  assert (LS : lat < 0 <-> radians lat < 0). { unfold radians. split; intros; nra. }
  set (la := radians lat) in *.
  replace (Reqb ha 0) with false in E by (symmetry; apply Reqb_f; exact H).
  replace (Rltb (cos la) (1 / 1000000)) with true in E by (symmetry; apply Rltb_t; lra).
  assert (CL : 0 <= cos la < 1 / 1000000) by (split; [apply cos_ge_0; lra | lra]).
  set (sl := if Rltb la 0 then -1 else 1) in *.
  assert (X : hz_alt ideal h = 180 / PI * asin (cos dec * cos (ha * 15 * (PI / 180)) * 0 + sin dec * sl)).
  { destruct (Reqb (cos dec) 0); cbn [bind] in E; injection E as <-; cbn [hz_alt];
    replace (Rltb (Rabs (dec - la)) (1 / 1000000)) with false by (symmetry; apply Rltb_f; exact RA); reflexivity. }
  rewrite Rmult_0_r, Rplus_0_l in X. assert (SB := SIN_bound dec). assert (CB := COS_bound dec).
  assert (SLB : -1 <= sin dec * sl <= 1) by (unfold sl; destruct (Rltb la 0); lra).
  rewrite X. split.
  - destruct (asin_bound (sin dec * sl)) as [L U]. assert (0 < 180 / PI) by (apply Rdiv_lt_0_compat; lra).
    replace (-90) with (180 / PI * - (PI / 2)) by (field; lra). replace 90 with (180 / PI * (PI / 2)) by (field; lra).
    split; apply Rmult_le_compat_l; lra.
  - rewrite radians_deg, sin_asin by exact SLB. rewrite sin_ha_dir. fold (radians (ha * 15)). set (hr := radians (ha * 15)).
    assert (HB := COS_bound hr). assert (S2 := sc2 la).
    assert (SD : Rabs (sl - sin la) <= 1 / 1000000000000).
    { unfold sl. destruct (Rltb la 0) eqn:T; [apply Rltb_t in T | apply Rltb_f in T].
      - assert (sin la < 0). { assert (0 < sin (- la)) by (apply sin_gt_0; lra). rewrite sin_neg in H0. lra. }
        unfold Rabs; destruct (Rcase_abs (-1 - sin la)); nra.
      - assert (0 <= sin la) by (apply sin_ge_0; lra). unfold Rabs; destruct (Rcase_abs (1 - sin la)); nra. }
    replace (sin dec * sl - (cos dec * cos hr * cos la + sin dec * sin la)) with (sin dec * (sl - sin la) - cos dec * cos hr * cos la) by ring.
    assert (A1 : Rabs (sin dec * (sl - sin la)) <= 1 / 1000000000000).
    { rewrite Rabs_mult. assert (Rabs (sin dec) <= 1) by (apply Rabs_le; lra). assert (0 <= Rabs (sl - sin la)) by apply Rabs_pos.
      assert (0 <= Rabs (sin dec)) by apply Rabs_pos. nra. }
    assert (A2 : Rabs (cos dec * cos hr * cos la) <= 1 / 1000000).
    { rewrite !Rabs_mult. assert (Rabs (cos dec) <= 1) by (apply Rabs_le; lra). assert (Rabs (cos hr) <= 1) by (apply Rabs_le; lra).
      assert (0 <= Rabs (cos dec)) by apply Rabs_pos. assert (0 <= Rabs (cos hr)) by apply Rabs_pos. rewrite (Rabs_right (cos la)) by lra.
      assert (Rabs (cos dec) * Rabs (cos hr) <= 1) by nra. nra. }
    eapply Rle_trans; [apply Rabs_triang|]. rewrite Rabs_Ropp. lra.
Qed.

(** *** The -E separation *)
Lemma flat_geo_same lon lat : -180 <= lon < 180 ->
  flat_geo_sep ideal lon lat (radians lon) (radians lat) = degrees (Rabs (lat - radians lat)).
Proof.
  intros L. unfold flat_geo_sep. ideal_. fold (radians lon). assert (P := PI_RGT_0).
  assert (D : ra_diff ideal (radians lon) (radians lon) = 0 :> R).
  { rewrite ra_diff_eq. cbv zeta. replace (radians lon - radians lon + 2 * PI) with (2 * PI) by ring.
    replace (Rltb PI (2 * PI)) with true by (symmetry; apply Rltb_t; lra). ring. }
  rewrite D. unfold degrees. f_equal. replace (0 * 0 + (lat - radians lat) * (lat - radians lat)) with (Rsqr (lat - radians lat)) by (unfold Rsqr; ring).
  apply sqrt_Rsqr_abs.
Qed.
