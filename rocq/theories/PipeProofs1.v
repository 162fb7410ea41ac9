(** The observer, the zenith, the Sun and the precession, in real numbers. *)
From Coq Require Import ZArith Reals Lra Lia Bool Psatz.
From Verif Require Import CLib ArithModel GeoLemmas GeoModel GeoSpec TimeModel TimeSpec TimeProofs TimeProofs2 OrbModel OrbProofs4 DeepModel DeepProofs1 DeepProofs7 PipeModel PipeSpec PipeTerms.
From Verif Require Import GeoProofs1 GeoProofs2 GeoProofs3 GeoProofs4 GeoProofs5 GeoExamples.
Open Scope R_scope.

(** ** theta_g *)
Lemma theta_g_turns jd : -1/2 <= jd -> exists k : Z, theta_g ideal jd = sidereal jd - 2 * PI * IZR k :> R /\ 0 <= theta_g ideal jd < 2 * PI.
Proof.
  intros J. assert (P := PI_RGT_0).
  set (ut := Rfmod (jd + 1 / 2) 1).
  assert (U : ut = jd - day_start jd).
  { unfold ut, Rfmod, Rtrunc. destruct (Rle_dec 0 ((jd + 1 / 2) / 1)) as [L|L]; [|lra]. unfold day_start.
    assert (E : Int_part ((jd + 1 / 2) / 1) = (Int_part (jd - 1 / 2) + 1)%Z).
    { apply Int_part_unique. rewrite plus_IZR. destruct (base_Int_part (jd - 1 / 2)). lra. }
    rewrite E, plus_IZR. lra. }
  set (T := (day_start jd - 2451545) / 36525).
  set (G := 2411054841 / 100000 + T * (8640184812866 / 1000000 + T * (93104 / 1000000 - T * (62 / 10000000))) + 86400 * (100273790934 / 100000000000) * ut).
  assert (E : theta_g ideal jd = 2 * PI * (if Rltb (Rfmod G 86400) 0 then Rfmod G 86400 + 86400 else Rfmod G 86400) / 86400 :> R).
  { unfold theta_g. rewrite !int_ideal, !cst_ideal.
    change (c_fmod ideal (add ideal jd (5 / 10)) 1) with (Rfmod (jd + 5 / 10) 1). replace (5 / 10) with (1 / 2) by lra. fold ut.
    change (2 * PI * (let t_cen := (jd - ut - 2451545) / 36525 in
        let GMST := Rfmod (2411054841 / 100000 + t_cen * (8640184812866 / 1000000 + t_cen * (93104 / 1000000 - t_cen * (62 / 10000000))) + 86400 * (100273790934 / 100000000000) * ut) 86400 in
        if Rltb GMST 0 then GMST + 86400 else GMST) / 86400 = 2 * PI * (if Rltb (Rfmod G 86400) 0 then Rfmod G 86400 + 86400 else Rfmod G 86400) / 86400).
    cbn zeta. replace (jd - ut) with (day_start jd) by lra. reflexivity. }
  assert (GH : sidereal jd = 2 * PI * G / 86400).
  { assert (H : gmst_hours jd / 24 = G / 86400). { unfold gmst_hours, sidereal_at_midnight, G. rewrite U. fold T. cbn zeta. field_simplify; lra || idtac. }
    unfold sidereal, radians. replace (gmst_hours jd) with (24 * (gmst_hours jd / 24)) by field. rewrite H. field. }
  rewrite E, GH.
  assert (F : exists k : Z, (if Rltb (Rfmod G 86400) 0 then Rfmod G 86400 + 86400 else Rfmod G 86400) = G - IZR k * 86400 /\ 0 <= G - IZR k * 86400 < 86400).
  { assert (N := Rtrunc_near (G / 86400)). unfold Rfmod in *. apply Rabs_def2 in N. set (z := Rtrunc (G / 86400)) in *.
    assert (NN : -86400 < G - IZR z * 86400 < 86400). { assert (X : G / 86400 * 86400 = G) by field. lra. }
    destruct (Rltb (G - IZR z * 86400) 0) eqn:L; [apply Rltb_t in L | apply Rltb_f in L].
    - exists (z - 1)%Z. rewrite minus_IZR. lra.
    - exists z. lra. }
  destruct F as (k & -> & B). exists k. split; [field|]. split; [apply Rmult_le_pos; nra | nra].
Qed.

Lemma cos_back x (k : Z) : cos (x - 2 * PI * IZR k) = cos x.
Proof. rewrite <- (cos_turns (x - 2 * PI * IZR k) k). f_equal. ring. Qed.
Lemma sin_back x (k : Z) : sin (x - 2 * PI * IZR k) = sin x.
Proof. rewrite <- (sin_turns (x - 2 * PI * IZR k) k). f_equal. ring. Qed.
Lemma dir_back ra dec (k : Z) : dir (ra - 2 * PI * IZR k) dec = dir ra dec.
Proof. unfold dir. rewrite cos_back, sin_back. reflexivity. Qed.

(** ** The observer *)
Lemma observer_site (q : request ideal) jd : 0 < cos (radians (rq_lat ideal q)) -> -1/2 <= jd ->
  observer ideal q jd = site (rq_lat ideal q) (rq_lon ideal q) (rq_ht ideal q) jd.
Proof.
  intros C J. unfold observer. destruct (earth_lat_alt_to_parallax ideal _ _) as [rc rs] eqn:E.
  rewrite (observer_place _ _ _ _ _ _ C E). destruct (theta_g_turns jd J) as (k & T & _).
  change (mul ideal (rq_lon ideal q) (c_deg ideal)) with (radians (rq_lon ideal q)).
  change (mul ideal (rq_lat ideal q) (c_deg ideal)) with (radians (rq_lat ideal q)).
  unfold site. replace (6378140 / 1000) with 6378.140 by lra. unfold geodetic.
  change (num ideal) with R in *. rewrite T.
  replace (radians (rq_lon ideal q) + (sidereal jd - 2 * PI * IZR k)) with (radians (rq_lon ideal q) + sidereal jd - 2 * PI * IZR k) by ring.
  rewrite cos_back, sin_back. reflexivity.
Qed.

(** ** Before the satellites *)
Lemma jd_eq (q : request ideal) : jd_of ideal q = 2400000.5 + rq_mjd ideal q :> R.
Proof. unfold jd_of. rewrite cst_ideal. change (24000005 / 10 + rq_mjd ideal q = 2400000.5 + rq_mjd ideal q). lra. Qed.

Lemma prepare_ok (q : request ideal) : jd_ok q -> exists f, prepare ideal q = Ok f.
Proof.
  intros [J L]. unfold prepare. destruct (sidereal_ideal (jd_of ideal q) (rq_lon ideal q) J L) as (l & g & E & _). rewrite E. cbn [bind].
  destruct (if at_zenith ideal q then _ else _) as [[ra dec] ha].
  destruct (horizon_defined dec ha (rq_lat ideal q)) as [hz ->]. cbn [bind].
  destruct (lpsun_radec ideal (jd_of ideal q)) as [sra sdec].
  match goal with |- context [dechalat2alt ideal sdec ?h ?l] => destruct (horizon_defined sdec h l) as [shz ->] end. cbn [bind].
  destruct (sphrad2v ideal sra sdec) as [[x y] z]. eexists. reflexivity.
Qed.

Lemma prepared (q : request ideal) f : jd_ok q -> prepare ideal q = Ok f ->
  let jd := jd_of ideal q in
  fr_obs ideal f = observer ideal q jd /\ fr_obs2 ideal f = observer ideal q (jd + IZR (rq_delta ideal q) / 86400) /\
  0 <= fr_lmst ideal f < 24 /\ (exists k, fr_lmst ideal f = gmst_hours jd + rq_lon ideal q / 15 - 24 * IZR k :> R) /\
  -24 < fr_gmst ideal f <= 24 /\ (exists k, fr_gmst ideal f = gmst_hours jd - 24 * IZR k :> R) /\ (2451545 <= jd -> 0 <= fr_gmst ideal f) /\
  (if at_zenith ideal q then 0 <= fr_ra ideal f < 2 * PI /\ dir (fr_ra ideal f) (fr_dec ideal f) = vertical (rq_lat ideal q) (rq_lon ideal q) jd
     /\ fr_dec ideal f = radians (rq_lat ideal q) :> R
   else fr_ra ideal f = radians (rq_ra ideal q) :> R /\ fr_dec ideal f = radians (rq_de ideal q) :> R) /\
  dir (fr_sun_ra ideal f) (fr_sun_dec ideal f) = ecliptic_dir (almanac_longitude (jd - 2451545)) (almanac_obliquity (jd - 2451545)) /\
  0 <= fr_sun_ra ideal f < 2 * PI /\
  fr_sun_km ideal f = sun_at jd /\
  exists a, angle_between (dir (fr_ra ideal f) (fr_dec ideal f)) (dir (fr_sun_ra ideal f) (fr_sun_dec ideal f)) a /\ fr_sun_sep ideal f = degrees a :> R.
Proof.
  intros [J L] H jd. assert (P := PI_RGT_0). unfold prepare in H.
  destruct (sidereal_ideal (jd_of ideal q) (rq_lon ideal q) J L) as (l & g & E & L1 & G1 & [kl LL] & GG & GP). rewrite E in H. cbn [bind] in H.
  destruct (if at_zenith ideal q then _ else _) as [[ra dec] ha] eqn:Z in H.
  destruct (horizon_defined dec ha (rq_lat ideal q)) as [hz HZ]. rewrite HZ in H. cbn [bind] in H.
  destruct (lpsun_radec ideal (jd_of ideal q)) as [sra sdec] eqn:S. destruct (sun_almanac _ _ _ S) as (S1 & S2 & S3).
  match type of H with context [dechalat2alt ideal sdec ?h ?l] => destruct (horizon_defined sdec h l) as [shz SZ]; rewrite SZ in H end. cbn [bind] in H.
  destruct (sphrad2v ideal sra sdec) as [[x y] z] eqn:V. injection H as <-.
  cbn [fr_obs fr_obs2 fr_lmst fr_gmst fr_ra fr_dec fr_sun_ra fr_sun_dec fr_sun_km fr_sun_sep].
  split; [reflexivity|]. split. { f_equal. change (jd_of ideal q + IZR (rq_delta ideal q) / (86400 / 1) = jd + IZR (rq_delta ideal q) / 86400). unfold jd. change (num ideal) with R. field. }
  split; [exact L1|]. split; [exists kl; exact LL|]. split; [exact G1|]. split; [exact GG|]. split; [exact GP|]. split; [|split; [exact S3|split; [exact S1|split]]].
  - destruct (at_zenith ideal q); injection Z as <- <- _.
    + change (div ideal l (c_hrs ideal)) with (l / (12 / PI)). change (mul ideal (rq_lat ideal q) (c_deg ideal)) with (radians (rq_lat ideal q)).
      replace (l / (12 / PI)) with (l * PI / 12) by (field; lra). split; [split; nra|]. split; [|reflexivity].
      unfold vertical. replace (l * PI / 12) with (radians (rq_lon ideal q) + sidereal jd - 2 * PI * IZR kl); [apply dir_back|].
      rewrite LL. unfold radians, sidereal, radians, jd. change (num ideal) with R. field.
    + split; reflexivity.
  - unfold sun_at, jd. rewrite <- S3. unfold sphrad2v in V. injection V as <- <- <-. unfold AU_KM, scale, dir.
    f_equal; [f_equal|].
    + change (cos sra * cos sdec * (149597870700 / 1000) = 149597870.700 * (cos sdec * cos sra)). lra.
    + change (sin sra * cos sdec * (149597870700 / 1000) = 149597870.700 * (cos sdec * sin sra)). lra.
    + change (sin sdec * (149597870700 / 1000) = 149597870.700 * sin sdec). lra.
  - apply skysep_angle.
Qed.
