(** The numbers of sat_visibility: what main computes at one instant (sat_visibility.c:849-1063) out of the numerical functions.
    The search over the instants is VisModel; the functions themselves are the same as in sat_skymap (sat_visibility.c:410-484
    is sat_skymap.c:269-344, with the sidereal time and the result of sat_geoLocation in globals). *)
From Coq Require Import ZArith List Bool.
From Verif Require Import CLib ArithModel GeoModel TimeModel OrbModel DeepModel PipeModel.
Open Scope Z_scope.

Section Watch.
Context (A : arith).
Let D := num A.
Local Infix "+." := (add A) (at level 50, left associativity).
Local Infix "-." := (sub A) (at level 50, left associativity).
Local Infix "*." := (mul A) (at level 40, left associativity).
Local Infix "/." := (div A) (at level 40, left associativity).
Local Notation "# n" := (int A n) (at level 1).

(** The fields of [Params] (sat_visibility_def.h:24-50) that the numbers depend on; degrees, metres, seconds. *)
Record watch := mk_watch { w_lat : D; w_lon : D; w_ht : D; w_delta : Z }.

(** sat_visibility.c:679-680 and 879: the observer at a date. *)
Definition standpoint (w : watch) (jd : D) : vec A :=
  let '(rc, rs) := earth_lat_alt_to_parallax A (w_lat w *. c_deg A) (w_ht w) in
  observer_cartesian_coords A (theta_g A jd) (w_lon w *. c_deg A) rc rs.

(** What is known of the satellite at an instant: sidereal times in hours, right ascensions and declination in radians, km, degrees. *)
Record instant := mk_instant {
  in_lmst : D; in_gmst : D; in_zra : D; in_code : Z; in_pos : vec A; in_obs : vec A;
  in_ra : D; in_dec : D; in_dist : D; in_sep : D }.

(** sat_visibility.c:852-866, 879-883 (again 999-1018 and 1035-1054).  [old] is what pos[] holds: a call that returns before the
    position is written leaves it; [None] before the first. *)
Definition instant_at (n : nat) (w : watch) (t : dorb A) (old : option (vec A)) (h : cache A) (jd : D) : res (cache A * instant) :=
  l <- lmst_hr A jd (w_lon w) ;;
  let '(lmst, gmst) := l in
  let zra := lmst /. c_hrs A in
  r <- SxP4 A n ((jd -. d_epoch A t) *. #1440) t (SxP4_init A t) h ;;
  let '(_, h, code, p) := r in
  match (match p with Some p => Some p | None => old end) with
  | None => UB Uninit
  | Some pos =>
      let obs := standpoint w jd in
      let '(ra, dec, dist) := get_satellite_ra_dec_delta A obs pos in
      Ok (h, mk_instant lmst gmst zra code pos obs ra dec dist (skysep_h A zra (w_lat w *. c_deg A) ra dec))
  end.

(** sat_visibility.c:487-510: the Sun.  Right ascension, declination and longitude in degrees, as printed; km. *)
Record sun_data := mk_sun_data { sd_ra : D; sd_dec : D; sd_lon : D; sd_hz : horizon A; sd_sep : D; sd_km : vec A }.
Definition get_sun_data (w : watch) (jd lmst gmst zra : D) : res sun_data :=
  let '(ra, dec) := lpsun_radec A jd in
  hz <- dechalat2alt A dec (lmst -. ra *. c_hrs A) (w_lat w) ;;
  let '(x, y, z) := sphrad2v A ra dec in
  Ok (mk_sun_data (ra *. c_rad A) (dec *. c_rad A) (sun_lon A ra gmst) hz (skysep_h A zra (w_lat w *. c_deg A) ra dec)
        (x *. AU_KM A, y *. AU_KM A, z *. AU_KM A)).

(** sat_visibility.c:839-842: the altitude of the Sun while the daytime is skipped. *)
Definition sun_alt (w : watch) (jd : D) : res D :=
  l <- lmst_hr A jd (w_lon w) ;;
  let '(lmst, _) := l in
  let '(ra, dec) := lpsun_radec A jd in
  hz <- dechalat2alt A dec (lmst -. ra *. c_hrs A) (w_lat w) ;;
  Ok (hz_alt A hz).

(** sat_visibility.c:909 *)
Definition sunlit (i : instant) (u : sun_data) : bool := negb (fst (fst (intersect_satsun_sphere A (in_pos i) (sd_km u)))).

(** sat_visibility.c:514-535 and, for the minutes, 951: position angle and speed (arcmin/s) from the place at [jd], which is in
    [i], to that at the next sample.  pos[] is a local variable there, so without a position nothing is defined. *)
Definition get_sat_PA_and_speed (n : nat) (w : watch) (t : dorb A) (h : cache A) (jd : D) (i : instant) : res (cache A * D * D) :=
  r <- SxP4 A n ((jd -. d_epoch A t) *. #1440 +. c_real A (w_delta w) *. #1440 /. #86400) t (SxP4_init A t) h ;;
  let '(_, h, _, p) := r in
  match p with
  | None => UB Uninit
  | Some pos =>
      let '(ra1, dec1, _) := get_satellite_ra_dec_delta A (in_obs i) pos in
      Ok (h, motion_angle A (in_ra i) (in_dec i) ra1 dec1,
          skysep_h A (in_ra i) (in_dec i) ra1 dec1 *. #60 /. c_real A (w_delta w))
  end.

(** The three objects printed for an event: sat_visibility.c:927-934, 961-968, 982-989, 1008-1026, 1044-1062.  [jdp] is the date
    given to the precession; [k] bounds the loop of sat_geoLocation. *)
Record event := mk_event { ev_geo : GeoModel.place A; ev_sun : sun_data; ev_hz : horizon A; ev_ra : D; ev_dec : D }.
Definition event_at (k : nat) (w : watch) (jd jdp : D) (i : instant) : res event :=
  g <- sat_geoLocation A k (in_gmst i) (in_pos i) ;;
  u <- get_sun_data w jd (in_lmst i) (in_gmst i) (in_zra i) ;;
  hz <- dechalat2alt A (in_dec i) (in_lmst i -. in_ra i *. c_hrs A) (w_lat w) ;;
  let '(ra, dec) := epoch_of_date_to_j2000 A jdp (in_ra i) (in_dec i) in
  Ok (mk_event g u hz ra dec).
End Watch.
