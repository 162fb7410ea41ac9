(** The numbers of sat_skymap: how main (sat_skymap.c:530-660 and 763-882) puts the numerical functions together, and the
    Greenwich sidereal time of observe.c.

    Simplified: for a satellite that the altitude filter (796-798) or the region test (850-852) drops, lines 800-882 are not
    executed; here they are (they are functions of their arguments, but for the kept positions of Moon and Sun).  For a
    satellite without coordinates (783-787), which ends the run, [Undecodable] is returned. *)
From Coq Require Import ZArith List Bool.
From Verif Require Import CLib ArithModel GeoModel TimeModel OrbModel DeepModel.
Open Scope Z_scope.

Section Pipe.
Context (A : arith).
Let D := num A.
Local Infix "+." := (add A) (at level 50, left associativity).
Local Infix "-." := (sub A) (at level 50, left associativity).
Local Infix "*." := (mul A) (at level 40, left associativity).
Local Infix "/." := (div A) (at level 40, left associativity).
Local Infix "<." := (ltn A) (at level 70).
Local Infix "<=." := (len A) (at level 70).
Local Notation "# n" := (int A n) (at level 1).

(** observe.c:39-62 (not the function of the same name in deep.c) *)
Definition theta_g (jd : D) : D :=
  let UT := c_fmod A (jd +. cst A 5 10) #1 in
  let t_cen := (jd -. UT -. #2451545) /. #36525 in
  let GMST := cst A 2411054841 100000 +. t_cen *. (cst A 8640184812866 1000000 +. t_cen *. (cst A 93104 1000000 -. t_cen *. cst A 62 10000000)) in
  let GMST := c_fmod A (GMST +. #86400 *. cst A 100273790934 100000000000 *. UT) #86400 in
  let GMST := if GMST <. #0 then GMST +. #86400 else GMST in
  c_2pi A *. GMST /. #86400.

(** What was asked for (the fields of [Params], sat_skymap_def.h:26-62, that the numbers depend on; degrees, metres, seconds). *)
Record request := mk_request {
  rq_lat : D; rq_lon : D; rq_ht : D; rq_mjd : D; rq_delta : Z;
  rq_ra : D; rq_de : D; rq_in_region : bool; rq_single : bool;
  rq_georef : bool; rq_geoloc : bool; rq_haversine : bool }.

(** sat_skymap.c:530 *)
Definition jd_of (q : request) : D := cst A 24000005 10 +. rq_mjd q.
(** sat_skymap.c:603 *)
Definition at_zenith (q : request) : bool := rq_georef q || rq_single q || negb (rq_in_region q).

(** sat_skymap.c:541-546: the observer at a date *)
Definition observer (q : request) (jd : D) : vec A :=
  let '(rc, rs) := earth_lat_alt_to_parallax A (rq_lat q *. c_deg A) (rq_ht q) in
  observer_cartesian_coords A (theta_g jd) (rq_lon q *. c_deg A) rc rs.

(** sat_skymap_def.h:17 *)
Definition AU_KM : D := cst A 149597870700 1000.

(** What is computed before the satellites are read (541-656): target and Sun in radians, the rest as printed. *)
Record frame := mk_frame {
  fr_obs : vec A; fr_obs2 : vec A; fr_lmst : D; fr_gmst : D; fr_ra : D; fr_dec : D; fr_hz : horizon A;
  fr_sun_ra : D; fr_sun_dec : D; fr_sun_lon : D; fr_sun_hz : horizon A; fr_sun_sep : D; fr_sun_km : vec A }.
Definition prepare (q : request) : res frame :=
  let jd := jd_of q in
  let obs := observer q jd in
  let obs2 := observer q (jd +. c_real A (rq_delta q) /. #86400) in
  l <- lmst_hr A jd (rq_lon q) ;;
  let '(lmst, gmst) := l in
  let '(ra, dec, hareg) :=
    if at_zenith q then (lmst /. c_hrs A, rq_lat q *. c_deg A, #0)
    else (rq_ra q *. c_deg A, rq_de q *. c_deg A, lmst -. rq_ra q /. #15) in
  hz <- dechalat2alt A dec hareg (rq_lat q) ;;
  let '(sra, sdec) := lpsun_radec A jd in
  shz <- dechalat2alt A sdec (lmst -. sra *. c_hrs A) (rq_lat q) ;;
  let '(x, y, z) := sphrad2v A sra sdec in
  Ok (mk_frame obs obs2 lmst gmst ra dec hz sra sdec (sun_lon A sra gmst) shz (skysep_h A ra dec sra sdec) (x *. AU_KM, y *. AU_KM, z *. AU_KM)).

(** The propagator of a satellite: what sat_params[] holds after the initialisation (773-779), and with the deep-space one
    the part of it that the calls change. *)
Inductive propagator := Near (p : OrbModel.params A) | Far (p : sdp_params A) (v : dstate A).
Definition unset : dstate A := mk_dstate A #0 #0 #0 #0 None.
(** sat_skymap.c:763, 773-779: whatever select_ephemeris returns but 0 counts as deep *)
Definition SxP4_init (t : dorb A) : propagator :=
  if select_ephemeris A (d_orb A t) =? 0 then Near (SGP4_init A (d_orb A t))
  else let p := SDP4_init A t in Far p (match p with Deep _ g => fresh A g | High _ _ => unset end).
(** sat_skymap.c:775, 778, 812, 814: the return code (dropped by main) and the position, [None] if it was not written *)
Definition SxP4 (n : nat) (tsince : D) (t : dorb A) (k : propagator) (h : cache A) : res (propagator * cache A * Z * option (vec A)) :=
  match k with
  | Near p => r <- SGP4 A tsince (d_orb A t) p ;; Ok (k, h, OrbModel.pl_code A r, Some (pl_pos A r))
  | Far p v =>
      r <- SDP4 A n tsince t p v h ;;
      match r with
      | None => UB Stuck
      | Some (v, h, NegativeXn _) => Ok (Far p v, h, -5, None)
      | Some (v, h, Placed _ r) => Ok (Far p v, h, OrbModel.pl_code A r, Some (pl_pos A r))
      end
  end.

Definition isnan (x : D) : bool := negb (eqn A x x).

(** What is computed for a satellite: coordinates in radians, distance in km, separations in degrees, speed in arcmin/s. *)
Record sighting := mk_sighting {
  sg_code1 : Z; sg_code2 : Z; sg_geo : option (GeoModel.place A);
  sg_ra : D; sg_dec : D; sg_dist : D; sg_ra1 : D; sg_dec1 : D; sg_sep : D; sg_sep1 : D;
  sg_lit : bool; sg_pa : D; sg_speed : D; sg_theta : D }.
Inductive look := Undecodable | Seen (s : sighting).

(** sat_skymap.c:819-847 *)
Definition separations (q : request) (f : frame) (geo : option (GeoModel.place A)) (ra dec ra1 dec1 : D) : res (D * D) :=
  if rq_georef q then
    match geo with
    | None => UB Uninit
    | Some g =>
        let lon := rq_lon q *. c_deg A in
        let lat := rq_lat q *. c_deg A in
        let sep := if rq_haversine q then skysep_h A lon lat (GeoModel.pl_lon A g *. c_deg A) (GeoModel.pl_lat A g *. c_deg A)
                   else flat_geo_sep A (GeoModel.pl_lon A g) (GeoModel.pl_lat A g) lon lat in
        Ok (sep, #2 *. sep)
    end
  else if rq_haversine q then Ok (skysep_h A (fr_ra f) (fr_dec f) ra dec, skysep_h A (fr_ra f) (fr_dec f) ra1 dec1)
  else Ok (flat_sep A ra dec (fr_ra f) (fr_dec f), flat_sep A ra1 dec1 (fr_ra f) (fr_dec f)).

(** sat_skymap.c:763-882; [n] bounds the loops of the deep-space propagator, [k] that of sat_geoLocation. *)
Definition satellite (n k : nat) (q : request) (f : frame) (t : dorb A) (h : cache A) : res (cache A * look) :=
  let jd := jd_of q in
  let t_since := (jd -. d_epoch A t) *. #1440 in
  r <- SxP4 n t_since t (SxP4_init t) h ;;
  let '(pr, h, code1, p) := r in
  match p with
  | None => UB Uninit
  | Some pos =>
      let '(ra, dec, dist) := get_satellite_ra_dec_delta A (fr_obs f) pos in
      if isnan ra || isnan dec then Ok (h, Undecodable)
      else
        geo <- (if rq_geoloc q || rq_single q then g <- sat_geoLocation A k (fr_gmst f) pos ;; Ok (Some g) else Ok None) ;;
        let '(ra, dec) := epoch_of_date_to_j2000 A jd ra dec in
        let t_since := t_since +. c_real A (rq_delta q) *. #1440 /. #86400 in
        r <- SxP4 n t_since t pr h ;;
        let '(_, h, code2, p) := r in
        let pos := match p with None => pos | Some pos => pos end in
        let '(ra1, dec1, _) := get_satellite_ra_dec_delta A (fr_obs2 f) pos in
        let '(ra1, dec1) := epoch_of_date_to_j2000 A jd ra1 dec1 in
        s <- separations q f geo ra dec ra1 dec1 ;;
        let '(sep, sep1) := s in
        let lit := negb (fst (fst (intersect_satsun_sphere A pos (fr_sun_km f)))) in
        Ok (h, Seen (mk_sighting code1 code2 geo ra dec dist ra1 dec1 sep sep1 lit (motion_angle A ra dec ra1 dec1)
                       (skysep_h A ra dec ra1 dec1 *. #60 /. c_real A (rq_delta q)) (c_pi A /. #2 -. dec)))
  end.

(** The satellites of a run, in the order of the file; a satellite without coordinates ends it. *)
Fixpoint satellites (n k : nat) (q : request) (f : frame) (ts : list (dorb A)) (h : cache A) : res (list look) :=
  match ts with
  | nil => Ok nil
  | cons t ts =>
      r <- satellite n k q f t h ;;
      match r with
      | (_, Undecodable) => Ok (cons Undecodable nil)
      | (h, s) => l <- satellites n k q f ts h ;; Ok (cons s l)
      end
  end.
End Pipe.
