(** Altitude and azimuth of the target and of the Sun, and the point below the Sun. *)
From Coq Require Import ZArith Reals Lra Lia Bool Psatz.
From Verif Require Import CLib ArithModel GeoLemmas GeoModel GeoSpec TimeModel TimeSpec DeepProofs1 DeepProofs7 PipeModel PipeSpec PipeTerms.
From Verif Require Import GeoProofs1 GeoProofs2 GeoProofs3 GeoProofs4 GeoProofs5 GeoProofs6 GeoExamples PipeProofs1.
Open Scope R_scope.

(** From hour angles to the axes of date. *)
Lemma turned dec ra th lat lon jd (k : Z) : th = radians lon + sidereal jd - 2 * PI * IZR k ->
  dot (ha_dir dec (th - ra)) (zenith (radians lat)) = dot (dir ra dec) (vertical lat lon jd) /\
  dot (ha_dir dec (th - ra)) (north (radians lat)) = dot (dir ra dec) (northward lat lon jd) /\
  dot (ha_dir dec (th - ra)) east = dot (dir ra dec) (eastward lon jd).
Proof.
  intros ->. unfold dot, ha_dir, zenith, north, east, dir, vertical, dir, northward, eastward.
  set (t := radians lon + sidereal jd). rewrite (cos_minus _ ra), (sin_minus _ ra), cos_back, sin_back. split; [|split]; ring.
Qed.

Section Frame.
Context (q : request ideal) (f : frame ideal) (J : jd_ok q) (PR : prepare ideal q = Ok f).
Let jd : R := jd_of ideal q.
Let lat : R := rq_lat ideal q.
Let lon : R := rq_lon ideal q.

Lemma horizons :
  dechalat2alt ideal (fr_dec ideal f) (if at_zenith ideal q then 0 else fr_lmst ideal f - rq_ra ideal q / 15) lat = Ok (fr_hz ideal f) /\
  dechalat2alt ideal (fr_sun_dec ideal f) (fr_lmst ideal f - fr_sun_ra ideal f * (12 / PI)) lat = Ok (fr_sun_hz ideal f) /\
  fr_sun_lon ideal f = sun_lon ideal (fr_sun_ra ideal f) (fr_gmst ideal f).
Proof.
  assert (H := PR). unfold prepare in H. destruct (lmst_hr ideal (jd_of ideal q) (rq_lon ideal q)) as [[l g]|]; [|discriminate]. cbn [bind] in H.
  destruct (if at_zenith ideal q then _ else _) as [[ra dec] ha] eqn:Z in H.
  destruct (dechalat2alt ideal dec ha (rq_lat ideal q)) as [hz|] eqn:HZ; [|discriminate]. cbn [bind] in H.
  destruct (lpsun_radec ideal (jd_of ideal q)) as [sra sdec].
  match type of H with context [dechalat2alt ideal sdec ?h ?l] => destruct (dechalat2alt ideal sdec h l) as [shz|] eqn:SZ; [|discriminate] end. cbn [bind] in H.
  destruct (sphrad2v ideal sra sdec) as [[x y] z]. injection H as <-. cbn [fr_dec fr_hz fr_lmst fr_sun_dec fr_sun_ra fr_sun_hz fr_sun_lon fr_gmst].
  split; [|split; [exact SZ | reflexivity]]. unfold lat. rewrite <- HZ. destruct (at_zenith ideal q); injection Z as <- <- <-.
  - f_equal. change (0 = 0 / 1). field.
  - f_equal. change (l - rq_ra ideal q / 15 = l - rq_ra ideal q / (15 / 1)). change (num ideal) with R. field.
Qed.

Lemma sun_horizon : 1 / 1000000 <= cos (radians lat) ->
  let sun := dir (fr_sun_ra ideal f) (fr_sun_dec ideal f) in
  (1 / 1000000 <= Rabs (fr_sun_dec ideal f - radians lat) -> altitude_of sun lat lon jd (hz_alt ideal (fr_sun_hz ideal f))) /\
  (fr_lmst ideal f <> fr_sun_ra ideal f * (12 / PI) :> R -> azimuth_of sun lat lon jd (hz_az ideal (fr_sun_hz ideal f))).
Proof.
  intros C sun. assert (P := PI_RGT_0). destruct horizons as (_ & S & _). destruct (prepared q f J PR) as (_ & _ & _ & [k L] & _). fold jd lon in L.
  destruct (turned (fr_sun_dec ideal f) (fr_sun_ra ideal f) (radians lon + sidereal jd - 2 * PI * IZR k) lat lon jd k eq_refl) as (T1 & T2 & T3).
  assert (H : hour_angle (fr_lmst ideal f - fr_sun_ra ideal f * (12 / PI)) = radians lon + sidereal jd - 2 * PI * IZR k - fr_sun_ra ideal f).
  { rewrite L. unfold hour_angle, sidereal, radians. change (num ideal) with R. field. lra. }
  split; intros N.
  - destruct (altitude _ _ _ _ S N (or_intror C)) as [B E]. split; [exact B|]. rewrite H in E. rewrite E. exact T1.
  - assert (N0 : fr_lmst ideal f - fr_sun_ra ideal f * (12 / PI) <> 0) by (intros E; apply N; lra).
    destruct (azimuth _ _ _ _ S N0 C) as (B & r & R1 & R2 & R3). split; [exact B|]. exists r. split; [exact R1|].
    rewrite H, T2 in R2. rewrite H, T3 in R3. split; assumption.
Qed.

Lemma sun_below : 2451545 <= jd ->
  -180 < fr_sun_lon ideal f <= 180 /\ dir (radians (fr_sun_lon ideal f) + sidereal jd) (fr_sun_dec ideal f) = dir (fr_sun_ra ideal f) (fr_sun_dec ideal f).
Proof.
  intros N. assert (P := PI_RGT_0). destruct horizons as (_ & _ & ->).
  destruct (prepared q f J PR) as (_ & _ & _ & _ & G1 & [k G] & G2 & _ & _ & S & _).
  destruct (sun_longitude (fr_sun_ra ideal f) (fr_gmst ideal f) S) as [B [m M]]; [split; [apply G2; exact N | lra]|]. split; [exact B|].
  rewrite <- (dir_back (fr_sun_ra ideal f) (fr_sun_dec ideal f) (- m - k)). f_equal. rewrite M, G. fold jd.
  rewrite minus_IZR, opp_IZR. unfold radians, degrees, sidereal, radians. change (num ideal) with R. field. lra.
Qed.

(** The target: at the zenith, or where the right ascension and declination asked for are, taken as of date. *)
Lemma zenith_horizon : at_zenith ideal q = true -> hz_alt ideal (fr_hz ideal f) = 90 :> R /\ altitude_of (dir (fr_ra ideal f) (fr_dec ideal f)) lat lon jd 90.
Proof.
  intros Z. destruct horizons as (H & _ & _). destruct (prepared q f J PR) as (_ & _ & _ & _ & _ & _ & _ & D & _). rewrite Z in D, H. destruct D as (_ & D & E).
  split. { apply (altitude_shortcut _ _ _ _ H). unfold regular_alt. replace (fr_dec ideal f - radians lat) with 0 by (unfold lat; lra). rewrite Rabs_R0. lra. }
  split; [lra|]. rewrite D. fold lat lon jd. replace (radians 90) with (PI / 2) by (unfold radians; field). rewrite sin_PI2. unfold vertical, dir, dot.
  set (t := radians lon + sidereal jd). set (l := radians lat). assert (X := sin2_cos2 t). assert (Y := sin2_cos2 l). unfold Rsqr in *. nra.
Qed.
Lemma target_horizon : at_zenith ideal q = false -> 1 / 1000000 <= cos (radians lat) ->
  let target := dir (radians (rq_ra ideal q)) (radians (rq_de ideal q)) in
  (1 / 1000000 <= Rabs (radians (rq_de ideal q) - radians lat) -> altitude_of target lat lon jd (hz_alt ideal (fr_hz ideal f))) /\
  (fr_lmst ideal f <> rq_ra ideal q / 15 :> R -> azimuth_of target lat lon jd (hz_az ideal (fr_hz ideal f))).
Proof.
  intros Z C target. assert (P := PI_RGT_0). destruct horizons as (S & _ & _). destruct (prepared q f J PR) as (_ & _ & _ & [k L] & _ & _ & _ & D & _). fold jd lon in L. rewrite Z in S, D.
  destruct D as [_ D]. rewrite D in S.
  destruct (turned (radians (rq_de ideal q)) (radians (rq_ra ideal q)) (radians lon + sidereal jd - 2 * PI * IZR k) lat lon jd k eq_refl) as (T1 & T2 & T3).
  assert (H : hour_angle (fr_lmst ideal f - rq_ra ideal q / 15) = radians lon + sidereal jd - 2 * PI * IZR k - radians (rq_ra ideal q)).
  { rewrite L. unfold hour_angle, sidereal, radians. change (num ideal) with R. field. }
  split; intros N.
  - destruct (altitude _ _ _ _ S N (or_intror C)) as [B E]. split; [exact B|]. rewrite H in E. rewrite E. exact T1.
  - assert (N0 : fr_lmst ideal f - rq_ra ideal q / 15 <> 0) by (intros E; apply N; lra).
    destruct (azimuth _ _ _ _ S N0 C) as (B & r & R1 & R2 & R3). split; [exact B|]. exists r. split; [exact R1|].
    rewrite H, T2 in R2. rewrite H, T3 in R3. split; assumption.
Qed.
End Frame.
