(** The coordinate geometry of sat_skymap and sat_visibility: separation, sun, horizon coordinates, topocentric place,
    precession, shadow, sub-satellite point. *)
From Coq Require Import ZArith List Bool.
From Verif Require Import CLib ArithModel.
Import ListNotations.
Open Scope Z_scope.

Section Geo.
Context (A : arith).
Let D := num A.
Local Infix "+." := (add A) (at level 50, left associativity).
Local Infix "-." := (sub A) (at level 50, left associativity).
Local Infix "*." := (mul A) (at level 40, left associativity).
Local Infix "/." := (div A) (at level 40, left associativity).
Local Infix "<." := (ltn A) (at level 70).
Local Infix "<=." := (len A) (at level 70).
Local Infix "==." := (eqn A) (at level 70).
Local Notation "# n" := (int A n) (at level 1).

(** A vector: double[3]. *)
Definition vec : Type := (D * D * D)%type.
Definition vx (v : vec) : D := fst (fst v).
Definition vy (v : vec) : D := snd (fst v).
Definition vz (v : vec) : D := snd v.

(** skysep_h.c:10-26 *)
Definition skysep_h (theta1 phi1 theta2 phi2 : D) : D :=
  let t1 := if theta1 <. #0 then theta1 +. c_2pi A else theta1 in
  let t2 := if theta2 <. #0 then theta2 +. c_2pi A else theta2 in
  let radif := c_fabs A (t2 -. t1) in
  let radif := if c_pi A <. radif then c_2pi A -. radif else radif in
  let sin2a := c_sin A (radif /. #2) in
  let sin2a := sin2a *. sin2a in
  let sin2d := c_sin A ((phi2 -. phi1) /. #2) in
  let sin2d := sin2d *. sin2d in
  #2 *. c_asin A (c_sqrt A (sin2d +. c_cos A phi1 *. c_cos A phi2 *. sin2a)) *. c_rad A.

(** lpsun_radec.c:13-33 ([M_PI_2] is PI / 2, exactly so also in binary64) *)
Definition atan_circ (x y : D) : D :=
  let theta :=
    if x ==. #0 then
      if #0 <. y then c_pi A /. #2 else if y <. #0 then #3 *. (c_pi A /. #2) else #0
    else c_atan A (y /. x) in
  let theta := if x <. #0 then theta +. c_pi A else theta in
  if theta <. #0 then theta +. c_2pi A else theta.

(** lpsun_radec.c:36-51: the ecliptic longitude of the sun and the obliquity at [jd] ... *)
Definition sun_lambda (jd : D) : D :=
  let n := jd -. #2451545 in
  let g := (cst A 357528 1000 +. cst A 9856003 10000000 *. n) *. c_deg A in
  (cst A 280460 1000 +. cst A 9856474 10000000 *. n +. cst A 1915 1000 *. c_sin A g +. cst A 20 1000 *. c_sin A (#2 *. g)) *. c_deg A.
Definition sun_epsilon (jd : D) : D :=
  let n := jd -. #2451545 in
  (cst A 23439 1000 -. cst A 4 10000000 *. n) *. c_deg A.
(** ... and its equatorial coordinates: ra, dec. *)
Definition lpsun_radec (jd : D) : D * D :=
  let lambda := sun_lambda jd in
  let epsilon := sun_epsilon jd in
  let x := c_cos A lambda in
  let y := c_cos A epsilon *. c_sin A lambda in
  let z := c_sin A epsilon *. c_sin A lambda in
  (atan_circ x y, c_asin A z).

(** dechalat2alt.c:13-81, result: alt, az, parang.  [sinp] and [cosp] are [None] until they are written. *)
Record horizon := mk_horizon { hz_alt : D; hz_az : D; hz_parang : D }.
Definition dechalat2alt (dec ha lat : D) : res horizon :=
  let lat := lat *. c_deg A in
  let cosdec := c_cos A dec in
  let sindec := c_sin A dec in
  let coslat := c_cos A lat in
  let '(az, cosha, coslat, sinlat, sp) :=
    if ha ==. #0 then (#0, #1, coslat, c_sin A lat, Some (#0, #(-1)))
    else
      let ha := ha *. #15 *. c_deg A in
      let cosha := c_cos A ha in
      let sinha := c_sin A ha in
      if coslat <. cst A 1 1000000 then
        (ha, cosha, #0, (if lat <. #0 then #(-1) else #1), Some (#0, #(-1) *. cosha *. cosha -. sinha *. sinha))
      else
        let sinlat := c_sin A lat in
        let az := c_atan2 A (#(-1) *. cosdec *. sinha) (sindec *. coslat -. cosdec *. cosha *. sinlat) in
        let sinaz := c_sin A az in
        let cosaz := c_cos A az in
        let az := az *. c_rad A in
        let az := if az <. #0 then az +. #360 else az in
        let az := if #360 <=. az then az -. #360 else az in
        (az, cosha, coslat, sinlat,
         if cosdec ==. #0 then None
         else Some (#(-1) *. sinaz *. coslat /. cosdec, #(-1) *. cosaz *. cosha -. sinaz *. sinha *. sinlat)) in
  parang <- (if cosdec ==. #0 then Ok (if #0 <=. lat then #180 else #0)
             else match sp with Some (sinp, cosp) => Ok (c_atan2 A sinp cosp *. c_rad A) | None => UB Uninit end) ;;
  let alt := if c_fabs A (dec -. lat) <. cst A 1 1000000 then #90
             else c_rad A *. c_asin A (cosdec *. cosha *. coslat +. sindec *. sinlat) in
  Ok (mk_horizon alt az parang).

(** sat_skymap.c:132-139 *)
Definition sphrad2v (ra dec : D) : vec :=
  let cosd := c_cos A dec in (c_cos A ra *. cosd, c_sin A ra *. cosd, c_sin A dec).

(** sat_skymap.c:631 and 654-655 (sat_visibility.c:491-493): longitude of the Sun, degrees; ra in radians, gmst in hours. *)
Definition sun_lon (ra gmst : D) : D :=
  let lon := c_fmod A (ra *. c_rad A -. gmst *. #15 +. #360) #360 in
  if #180 <. lon then lon -. #360 else lon.

(** observe.c:77-85: u, then rho_cos_phi, rho_sin_phi.  EARTH_AXIS_RATIO is 6356755. / 6378140. *)
Definition earth_lat_alt_to_parallax (lat ht : D) : D * D :=
  let ratio := #6356755 /. #6378140 in
  let u := c_atan A (c_sin A lat *. ratio /. c_cos A lat) in
  (c_cos A u +. (ht /. #6378140) *. c_cos A lat, ratio *. c_sin A u +. (ht /. #6378140) *. c_sin A lat).

(** observe.c:65-74, with [theta] = ThetaG(jd). *)
Definition observer_cartesian_coords (theta lon rho_cos_phi rho_sin_phi : D) : vec :=
  let lmst := lon +. theta in
  (c_cos A lmst *. rho_cos_phi *. #6378140 /. #1000,
   c_sin A lmst *. rho_cos_phi *. #6378140 /. #1000,
   rho_sin_phi *. #6378140 /. #1000).

(** observe.c:88-105: ra, dec, delta. *)
Definition get_satellite_ra_dec_delta (obs sat : vec) : D * D * D :=
  let v0 := vx sat -. vx obs in
  let v1 := vy sat -. vy obs in
  let v2 := vz sat -. vz obs in
  let dist2 := #0 +. v0 *. v0 +. v1 *. v1 +. v2 *. v2 in
  let delta := c_sqrt A dist2 in
  let ra := c_atan2 A v1 v0 in
  let ra := if ra <. #0 then ra +. c_2pi A else ra in
  (ra, c_asin A (v2 /. delta), delta).

(** observe.c:111-128 *)
Definition epoch_of_date_to_j2000 (jd ra dec : D) : D * D :=
  let t := (jd -. #2451545) /. #36525 in
  let m := (cst A 307496 100000 +. cst A 186 100000 *. t /. #2) *. c_deg A /. #240 in
  let n := (cst A 133621 100000 -. cst A 57 100000 *. t /. #2) *. c_deg A /. #240 in
  let ra_rate := m +. n *. c_sin A ra *. c_tan A dec in
  let dec_rate := n *. c_cos A ra in
  let ra := ra -. t *. ra_rate *. #100 in
  let dec := dec -. t *. dec_rate *. #100 in
  let ra := if ra <. #0 then ra +. c_2pi A else if c_2pi A <=. ra then ra -. c_2pi A else ra in
  (ra, dec).

(** sat_skymap_def.h:11 and sat_visibility_def.h:11, the equatorial radius of the Earth in kilometres. *)
Definition ERAD : D := cst A 63781366 10000.

(** sat_skymap.c:269-311 (and sat_visibility.c): the returned flag, eray[0], eray[1]. *)
Definition intersect_satsun_sphere (sat sun : vec) : bool * D * D :=
  let c0 := opp A (vx sat) in let c1 := opp A (vy sat) in let c2 := opp A (vz sat) in
  let e0 := vx sun -. vx sat in let e1 := vy sun -. vy sat in let e2 := vz sun -. vz sat in
  let c := #0 +. c0 *. c0 +. c1 *. c1 +. c2 *. c2 in
  let l := #0 +. e0 *. e0 +. e1 *. e1 +. e2 *. e2 in
  let c := c -. ERAD *. ERAD in
  let l := c_sqrt A l in
  let mb := #0 +. e0 /. l *. c0 +. e1 /. l *. c1 +. e2 /. l *. c2 in
  let mb := mb *. #2 in
  let disc := mb *. mb -. #4 *. c in
  if disc <. #0 then (false, #0, #0)
  else
    let d := c_sqrt A disc in
    let r0 := (mb -. d) /. #2 in
    let r1 := (mb +. d) /. #2 in
    (if r1 <. #0 then false else true, r0, r1).

(** sat_skymap.c:318-344; the flattening F is sat_skymap_def.h:14 and
    sat_visibility_def.h:14.  The do-while loop is given [fuel] turns, [UB Stuck] means
    that they were used up. *)
Record place := mk_place { pl_lon : D; pl_lat : D; pl_alt : D; pl_theta : D }.
Definition flattening : D := cst A 3352819697896193 1000000000000000000.
Fixpoint geo_lat (fuel : nat) (e2 z r lat : D) : res (D * D) :=
  match fuel with
  | O => UB Stuck
  | S f =>
      let phi := lat in
      let sinphi := c_sin A phi in
      let c := #1 /. c_sqrt A (#1 -. e2 *. sinphi *. sinphi) in
      let lat := c_atan2 A (z +. ERAD *. c *. e2 *. sinphi) r in
      if cst A 1 10000000000 <=. c_fabs A (lat -. phi) then geo_lat f e2 z r lat else Ok (lat, c)
  end.
Definition sat_geoLocation (fuel : nat) (gmst : D) (pos : vec) : res place :=
  let theta := c_atan2 A (vy pos) (vx pos) *. c_rad A in
  let lon := theta -. gmst *. #15 in
  let lon := if #180 <. lon then lon -. #360 else if lon <. #(-180) then lon +. #360 else lon in
  let r := c_sqrt A (vx pos *. vx pos +. vy pos *. vy pos) in
  let e2 := flattening *. (#2 -. flattening) in
  lc <- geo_lat fuel e2 (vz pos) r (c_atan2 A (vz pos) r) ;;
  let '(lat, c) := lc in
  let alt := r /. c_cos A lat -. ERAD *. c in
  let lat := lat *. c_rad A in
  let lat := if #90 <. lat then lat -. #360 else lat in
  Ok (mk_place lon lat alt theta).

(** The RA difference of sat_skymap.c:822-824, 830-832, 835-837, 870-872 and sat_visibility.c:526-528. *)
Definition ra_diff (ra target : D) : D :=
  let d := ra -. target +. c_2pi A in
  if c_pi A <. d then d -. c_2pi A else d.

(** sat_skymap.c:829-834: separation without -H, in degrees. *)
Definition flat_sep (ra dec target_ra target_dec : D) : D :=
  let d_ra := ra_diff ra target_ra in
  let d_dec := dec -. target_dec in
  c_sqrt A (d_ra *. d_ra +. d_dec *. d_dec) *. c_rad A.

(** sat_skymap.c:821-827: separation with -E and without -H; lon, lat of the satellite in degrees, of the target in radians. *)
Definition flat_geo_sep (lon lat target_lon target_lat : D) : D :=
  let d_ra := ra_diff (lon *. c_deg A) target_lon in
  let d_dec := lat -. target_lat in
  c_sqrt A (d_ra *. d_ra +. d_dec *. d_dec) *. c_rad A.

(** sat_skymap.c:870-878: position angle of the motion (radians). *)
Definition motion_angle (ra dec ra1 dec1 : D) : D :=
  let d_ra := ra_diff ra1 ra *. c_cos A dec in
  let d_dec := dec1 -. dec in
  let pa := c_atan2 A d_ra d_dec in
  if pa <. #0 then pa +. c_2pi A else pa.
End Geo.
