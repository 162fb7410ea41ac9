(** The numbers of sat_skymap in binary64, as the records that SkymapModel prints. *)
From Coq Require Import ZArith List Bool.
From Flocq Require Import IEEE754.BinarySingleNaN.
From Verif Require Import CLib FloatModel TleModel HealpixAngModel SkymapModel.
From Verif Require Import ArithModel GeoModel OrbModel DeepModel PipeModel.
Open Scope Z_scope.

Section Machine.
Context (m : libm).
Let M := machine m.
(** chealpix.c:424-429; [None] when the assertion stops the program *)
Definition ang2pix_nest (nside : Z) (theta phi : b64) : res (option Z) :=
  if fle (of_int 0) theta && fle theta (c_pi M) then p <- ang2pix_nest_z_phi nside (m_cos m theta) phi ;; Ok (Some p) else Ok None.

(** The request of an argument list.  [p_geoloc] is as the options left it; 593-596 set it for a single satellite. *)
Definition request_of (p : SkymapModel.params) : request M :=
  mk_request M (p_lat p) (p_lon p) (p_ht p) (p_mjd p) (p_delta_time p) (p_ra p) (p_de p) (p_in_region p) (single_sat p)
    (p_georef p) (p_geoloc p) (p_haversine p).
(** sat_skymap.c:195-207: what is printed of the frame (653: degrees for the Sun) *)
Definition hdr_of (f : frame M) : hdr :=
  mk_hdr (fr_lmst M f) (fr_gmst M f) (hz_az M (fr_hz M f)) (hz_alt M (fr_hz M f)) (hz_parang M (fr_hz M f))
    (fmul (fr_sun_ra M f) (c_rad M)) (fmul (fr_sun_dec M f) (c_rad M)) (hz_az M (fr_sun_hz M f)) (hz_alt M (fr_sun_hz M f))
    (fr_sun_lon M f) (hz_parang M (fr_sun_hz M f)) (fr_sun_sep M f).
Definition nan : b64 := B754_nan.
(** sat_skymap.c:898-901, 1 << 8 = 256.  Values that are not printed are NaN and 0 here. *)
Definition num_of (s : look M) : res SkymapModel.num :=
  match s with
  | Undecodable _ => Ok (mk_num 0 0 true nan nan nan nan nan nan false nan nan nan nan nan nan nan 0 false)
  | Seen _ s =>
      id <- ang2pix_nest 256 (sg_theta M s) (sg_ra M s) ;;
      let '(lat, lon, alt, theta) :=
        match sg_geo M s with
        | None => (nan, nan, nan, nan)
        | Some g => (GeoModel.pl_lat M g, GeoModel.pl_lon M g, GeoModel.pl_alt M g, GeoModel.pl_theta M g)
        end in
      Ok (mk_num (sg_code1 M s) (sg_code2 M s) false lat lon alt theta (sg_sep M s) (sg_sep1 M s) (sg_lit M s)
            (fmul (sg_ra M s) (c_rad M)) (fmul (sg_dec M s) (c_rad M)) (fmul (sg_ra1 M s) (c_rad M)) (fmul (sg_dec1 M s) (c_rad M)) (sg_dist M s)
            (fmul (sg_pa M s) (c_rad M)) (sg_speed M s) (match id with Some i => i | None => 0 end) (match id with Some _ => true | None => false end))
  end.
End Machine.
