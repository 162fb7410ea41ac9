(** The command line of sat_skymap (sat_skymap.c:346-539) and the option loop of sat_visibility (sat_visibility.c:576-660).

    An argument is the text before its NUL; the object is [text ++ [0]].  argv[argc] is the null pointer.
    Simplifications: the library's reading of real numbers (scanf "%lf", atof) is an arbitrary pair of functions of the text. *)
From Coq Require Import String Ascii ZArith List Bool.
From Flocq Require Import IEEE754.BinarySingleNaN.
From Verif Require Import CLib FloatModel CalendarModel IoModel SkymapModel.
Import ListNotations.
Open Scope Z_scope.

(** Library functions reading real numbers: conversion "%lf" of sscanf (value and text left, [None] = matching failure), atof. *)
Record reader := mk_reader { r_scan : list Z -> option (b64 * list Z); r_atof : list Z -> b64 }.

(** sscanf( t, "%lf,%lf,...") with [n] conversions: the values assigned. *)
Fixpoint scan_reals (r : reader) (n : nat) (t : list Z) : list b64 :=
  match n with
  | O => []
  | S n' => match r_scan r t with
            | None => []
            | Some (x, t') => x :: match t' with c :: t'' => if c =? 44 then scan_reals r n' t'' else [] | [] => [] end
            end
  end.
(** The variable behind conversion [k] afterwards. *)
Definition assigned (l : list b64) (k : nat) (old : b64) : b64 := nth k l old.

(** sscanf( t, "%d", &x): undefined when the number does not fit. *)
Fixpoint dec_value (acc : Z) (t : list Z) : Z :=
  match t with c :: t' => if is_digit c then dec_value (acc * 10 + (c - 48)) t' else acc | [] => acc end.
Definition scan_nat (t : list Z) : option Z :=
  match t with c :: _ => if is_digit c then Some (dec_value 0 t) else None | [] => None end.
Definition scan_dec (t : list Z) : option Z :=
  match c_skip_space t with
  | c :: t' =>
      if c =? 45 then option_map Z.opp (scan_nat t')
      else if c =? 43 then scan_nat t'
      else scan_nat (c :: t')
  | [] => None
  end.
(** strtol( t, &endptr, 10): 0 when there is no number, clamped to the range of [long]. *)
Definition strtol (t : list Z) : Z :=
  match scan_dec t with Some v => Z.max (- long_max - 1) (Z.min long_max v) | None => 0 end.
(** Conversion of a [long] to [int] (implementation-defined; gcc reduces modulo 2^32). *)
Definition wrap_int (z : Z) : Z := (z + 2147483648) mod 4294967296 - 2147483648.

(* ------------------------------------------------------------------ *)
(** ** The loop, common to both programs (sat_skymap.c:401-411 and 528, sat_visibility.c:577-587 and 660) *)

(** What the [switch] does: [Leave] is exit( code) with all output made; [sw] says that the case ends with [i--]. *)
Inductive action (S : Type) :=
| Go (sw : bool) (s : S)
| Leave (code : Z) (out : list Z).
Arguments Go {S} sw s.
Arguments Leave {S} code out.

(** argv[i] *)
Definition arg (argv : list (list Z)) (i : nat) : res (list Z) :=
  match nth_error argv i with Some a => Ok (a ++ [0]) | None => UB NullDeref end.

Section Loop.
Context {S : Type}.
(** option character, text at argv[i] + par_pos, text at argv[i], state; the texts are only read by the cases that use them *)
Context (switch : Z -> res (list Z) -> res (list Z) -> S -> res (action S)).

Inductive turn := Again (i : nat) (s : S) | Stop (code : Z) (out : list Z).

Definition one_arg (argv : list (list Z)) (i : nat) (s : S) : res turn :=
  a <- arg argv i ;;
  c <- rd a 0 ;;
  if c =? 45 then
    opt <- rd a 1 ;;
    c2 <- rd a 2 ;;
    let '(j, pos) := if c2 =? 0 then (Datatypes.S i, 0%nat) else (i, 2%nat) in
    r <- switch opt (b <- arg argv j ;; c_text (adv b pos)) (b <- arg argv j ;; c_text b) s ;;
    match r with
    | Go sw s' => Ok (Again (Datatypes.S (if sw then j - 1 else j)%nat) s')
    | Leave code out => Ok (Stop code out)
    end
  else Ok (Again (Datatypes.S i) s).

Inductive parsed := Done (s : S) | Exit (code : Z) (out : list Z).

(** [fuel] bounds the number of turns; [UB Stuck] means that it was used up. *)
Fixpoint opt_loop (fuel : nat) (argv : list (list Z)) (i : nat) (s : S) : res parsed :=
  if (i <? length argv)%nat then
    match fuel with
    | O => UB Stuck
    | Datatypes.S f =>
        t <- one_arg argv i s ;;
        match t with Again i' s' => opt_loop f argv i' s' | Stop code out => Ok (Exit code out) end
    end
  else Ok (Done s).
End Loop.
Arguments parsed : clear implicits.
Arguments turn : clear implicits.
Arguments Done {S} s.
Arguments Exit {S} code out.
Arguments Again {S} i s.
Arguments Stop {S} code out.

(* ------------------------------------------------------------------ *)
(** ** sat_skymap *)

(** sat_skymap.c:157-186 *)
Definition usage : list Z := bytes
"Usage:
  sat_skymap tle_file [OPTIONS]

OPTIONS are:
  -a Alt_min,Alt_max	Geodetic altitude range filter (km; -G assumed by def.)
  -d CalendarDate	Calendar date (UTC) of interest (in the form yyyy-mm-ddThh:mm:ss[.sss])
  -D DirTLEs		Directory with the repository of TLE files (def. ./; ignore -T option)

  -i SatIntnlName	Single satellite selection via its international designator (region ignored)
  -j MJD		Modified Julian Date of interest (ignored if Calendar Date given)
  -l Lat,Lon,Alt	Geodetic observing site (comma separated data with no spaces)
  -n MaxSats		Maximum number of satellites to return (def. 1000)
  -p RA,Dec		J2000 sky coordinates of region to check
  -r radius		Region radius centered at the given coords
  -s SatNorad_n	Single satellite selection via its NORAD number (region ignored)
  -S SatName		Satellites selection via string name (substring matching applies; region ignored)
  -t deltaT		Second epoch delta time (seconds; def. 1)

Switches:
  -h			print this help
  -E			Use input geodetic location as reference location for region (-G by def.; -p ignored) 
  -G			Compute (and return) geodetic location for each satellite
  -H			Compute sky separation via Haversine formula rather than cartesian triangle (suggested!)
  -I			Only information about the returned data and number of satellites found
 			('satellites' object not returned)
  -T			Use default repository directory for TLE files (def. ./; see sat_skymap_def.h)
  -V			Return data only for sunlit satellites (visible)

Example usage:
  sat_skymap default.tle -l-29.25627,-70.73805,2400 -p90.5,-30.3 -j58861.5 -r20
  sat_skymap stations.txt -H -l44.52804,11.33715,23.5 -j58941.71931 -s 25544
".

(** Assignments to the members of [p] and to the locals. *)
Definition set_date (v : list Z) (p : params) : params :=
  mk_params v (p_intl_desig p) (p_satname p) (p_lat p) (p_lon p) (p_ht p) (p_ra p) (p_de p) (p_radius p) (p_mjd p) (p_alt_min p) (p_alt_max p) (p_delta_time p) (p_max_sats p) (p_norad_n p) (p_haversine p) (p_info_only p) (p_sunlit_only p) (p_single_i p) (p_single_n p) (p_satname_filter p) (p_geoloc p) (p_georef p) (p_altrng p) (p_deftledir p) (p_in_region p) (p_in_geopos p) (p_tle_path p).
Definition set_intl_desig (v : list Z) (p : params) : params :=
  mk_params (p_date p) v (p_satname p) (p_lat p) (p_lon p) (p_ht p) (p_ra p) (p_de p) (p_radius p) (p_mjd p) (p_alt_min p) (p_alt_max p) (p_delta_time p) (p_max_sats p) (p_norad_n p) (p_haversine p) (p_info_only p) (p_sunlit_only p) (p_single_i p) (p_single_n p) (p_satname_filter p) (p_geoloc p) (p_georef p) (p_altrng p) (p_deftledir p) (p_in_region p) (p_in_geopos p) (p_tle_path p).
Definition set_satname (v : list Z) (p : params) : params :=
  mk_params (p_date p) (p_intl_desig p) v (p_lat p) (p_lon p) (p_ht p) (p_ra p) (p_de p) (p_radius p) (p_mjd p) (p_alt_min p) (p_alt_max p) (p_delta_time p) (p_max_sats p) (p_norad_n p) (p_haversine p) (p_info_only p) (p_sunlit_only p) (p_single_i p) (p_single_n p) (p_satname_filter p) (p_geoloc p) (p_georef p) (p_altrng p) (p_deftledir p) (p_in_region p) (p_in_geopos p) (p_tle_path p).
Definition set_lat (v : b64) (p : params) : params :=
  mk_params (p_date p) (p_intl_desig p) (p_satname p) v (p_lon p) (p_ht p) (p_ra p) (p_de p) (p_radius p) (p_mjd p) (p_alt_min p) (p_alt_max p) (p_delta_time p) (p_max_sats p) (p_norad_n p) (p_haversine p) (p_info_only p) (p_sunlit_only p) (p_single_i p) (p_single_n p) (p_satname_filter p) (p_geoloc p) (p_georef p) (p_altrng p) (p_deftledir p) (p_in_region p) (p_in_geopos p) (p_tle_path p).
Definition set_lon (v : b64) (p : params) : params :=
  mk_params (p_date p) (p_intl_desig p) (p_satname p) (p_lat p) v (p_ht p) (p_ra p) (p_de p) (p_radius p) (p_mjd p) (p_alt_min p) (p_alt_max p) (p_delta_time p) (p_max_sats p) (p_norad_n p) (p_haversine p) (p_info_only p) (p_sunlit_only p) (p_single_i p) (p_single_n p) (p_satname_filter p) (p_geoloc p) (p_georef p) (p_altrng p) (p_deftledir p) (p_in_region p) (p_in_geopos p) (p_tle_path p).
Definition set_ht (v : b64) (p : params) : params :=
  mk_params (p_date p) (p_intl_desig p) (p_satname p) (p_lat p) (p_lon p) v (p_ra p) (p_de p) (p_radius p) (p_mjd p) (p_alt_min p) (p_alt_max p) (p_delta_time p) (p_max_sats p) (p_norad_n p) (p_haversine p) (p_info_only p) (p_sunlit_only p) (p_single_i p) (p_single_n p) (p_satname_filter p) (p_geoloc p) (p_georef p) (p_altrng p) (p_deftledir p) (p_in_region p) (p_in_geopos p) (p_tle_path p).
Definition set_ra (v : b64) (p : params) : params :=
  mk_params (p_date p) (p_intl_desig p) (p_satname p) (p_lat p) (p_lon p) (p_ht p) v (p_de p) (p_radius p) (p_mjd p) (p_alt_min p) (p_alt_max p) (p_delta_time p) (p_max_sats p) (p_norad_n p) (p_haversine p) (p_info_only p) (p_sunlit_only p) (p_single_i p) (p_single_n p) (p_satname_filter p) (p_geoloc p) (p_georef p) (p_altrng p) (p_deftledir p) (p_in_region p) (p_in_geopos p) (p_tle_path p).
Definition set_de (v : b64) (p : params) : params :=
  mk_params (p_date p) (p_intl_desig p) (p_satname p) (p_lat p) (p_lon p) (p_ht p) (p_ra p) v (p_radius p) (p_mjd p) (p_alt_min p) (p_alt_max p) (p_delta_time p) (p_max_sats p) (p_norad_n p) (p_haversine p) (p_info_only p) (p_sunlit_only p) (p_single_i p) (p_single_n p) (p_satname_filter p) (p_geoloc p) (p_georef p) (p_altrng p) (p_deftledir p) (p_in_region p) (p_in_geopos p) (p_tle_path p).
Definition set_radius (v : b64) (p : params) : params :=
  mk_params (p_date p) (p_intl_desig p) (p_satname p) (p_lat p) (p_lon p) (p_ht p) (p_ra p) (p_de p) v (p_mjd p) (p_alt_min p) (p_alt_max p) (p_delta_time p) (p_max_sats p) (p_norad_n p) (p_haversine p) (p_info_only p) (p_sunlit_only p) (p_single_i p) (p_single_n p) (p_satname_filter p) (p_geoloc p) (p_georef p) (p_altrng p) (p_deftledir p) (p_in_region p) (p_in_geopos p) (p_tle_path p).
Definition set_mjd (v : b64) (p : params) : params :=
  mk_params (p_date p) (p_intl_desig p) (p_satname p) (p_lat p) (p_lon p) (p_ht p) (p_ra p) (p_de p) (p_radius p) v (p_alt_min p) (p_alt_max p) (p_delta_time p) (p_max_sats p) (p_norad_n p) (p_haversine p) (p_info_only p) (p_sunlit_only p) (p_single_i p) (p_single_n p) (p_satname_filter p) (p_geoloc p) (p_georef p) (p_altrng p) (p_deftledir p) (p_in_region p) (p_in_geopos p) (p_tle_path p).
Definition set_alt_min (v : b64) (p : params) : params :=
  mk_params (p_date p) (p_intl_desig p) (p_satname p) (p_lat p) (p_lon p) (p_ht p) (p_ra p) (p_de p) (p_radius p) (p_mjd p) v (p_alt_max p) (p_delta_time p) (p_max_sats p) (p_norad_n p) (p_haversine p) (p_info_only p) (p_sunlit_only p) (p_single_i p) (p_single_n p) (p_satname_filter p) (p_geoloc p) (p_georef p) (p_altrng p) (p_deftledir p) (p_in_region p) (p_in_geopos p) (p_tle_path p).
Definition set_alt_max (v : b64) (p : params) : params :=
  mk_params (p_date p) (p_intl_desig p) (p_satname p) (p_lat p) (p_lon p) (p_ht p) (p_ra p) (p_de p) (p_radius p) (p_mjd p) (p_alt_min p) v (p_delta_time p) (p_max_sats p) (p_norad_n p) (p_haversine p) (p_info_only p) (p_sunlit_only p) (p_single_i p) (p_single_n p) (p_satname_filter p) (p_geoloc p) (p_georef p) (p_altrng p) (p_deftledir p) (p_in_region p) (p_in_geopos p) (p_tle_path p).
Definition set_delta_time (v : Z) (p : params) : params :=
  mk_params (p_date p) (p_intl_desig p) (p_satname p) (p_lat p) (p_lon p) (p_ht p) (p_ra p) (p_de p) (p_radius p) (p_mjd p) (p_alt_min p) (p_alt_max p) v (p_max_sats p) (p_norad_n p) (p_haversine p) (p_info_only p) (p_sunlit_only p) (p_single_i p) (p_single_n p) (p_satname_filter p) (p_geoloc p) (p_georef p) (p_altrng p) (p_deftledir p) (p_in_region p) (p_in_geopos p) (p_tle_path p).
Definition set_max_sats (v : Z) (p : params) : params :=
  mk_params (p_date p) (p_intl_desig p) (p_satname p) (p_lat p) (p_lon p) (p_ht p) (p_ra p) (p_de p) (p_radius p) (p_mjd p) (p_alt_min p) (p_alt_max p) (p_delta_time p) v (p_norad_n p) (p_haversine p) (p_info_only p) (p_sunlit_only p) (p_single_i p) (p_single_n p) (p_satname_filter p) (p_geoloc p) (p_georef p) (p_altrng p) (p_deftledir p) (p_in_region p) (p_in_geopos p) (p_tle_path p).
Definition set_norad_n (v : Z) (p : params) : params :=
  mk_params (p_date p) (p_intl_desig p) (p_satname p) (p_lat p) (p_lon p) (p_ht p) (p_ra p) (p_de p) (p_radius p) (p_mjd p) (p_alt_min p) (p_alt_max p) (p_delta_time p) (p_max_sats p) v (p_haversine p) (p_info_only p) (p_sunlit_only p) (p_single_i p) (p_single_n p) (p_satname_filter p) (p_geoloc p) (p_georef p) (p_altrng p) (p_deftledir p) (p_in_region p) (p_in_geopos p) (p_tle_path p).
Definition set_haversine (v : bool) (p : params) : params :=
  mk_params (p_date p) (p_intl_desig p) (p_satname p) (p_lat p) (p_lon p) (p_ht p) (p_ra p) (p_de p) (p_radius p) (p_mjd p) (p_alt_min p) (p_alt_max p) (p_delta_time p) (p_max_sats p) (p_norad_n p) v (p_info_only p) (p_sunlit_only p) (p_single_i p) (p_single_n p) (p_satname_filter p) (p_geoloc p) (p_georef p) (p_altrng p) (p_deftledir p) (p_in_region p) (p_in_geopos p) (p_tle_path p).
Definition set_info_only (v : bool) (p : params) : params :=
  mk_params (p_date p) (p_intl_desig p) (p_satname p) (p_lat p) (p_lon p) (p_ht p) (p_ra p) (p_de p) (p_radius p) (p_mjd p) (p_alt_min p) (p_alt_max p) (p_delta_time p) (p_max_sats p) (p_norad_n p) (p_haversine p) v (p_sunlit_only p) (p_single_i p) (p_single_n p) (p_satname_filter p) (p_geoloc p) (p_georef p) (p_altrng p) (p_deftledir p) (p_in_region p) (p_in_geopos p) (p_tle_path p).
Definition set_sunlit_only (v : bool) (p : params) : params :=
  mk_params (p_date p) (p_intl_desig p) (p_satname p) (p_lat p) (p_lon p) (p_ht p) (p_ra p) (p_de p) (p_radius p) (p_mjd p) (p_alt_min p) (p_alt_max p) (p_delta_time p) (p_max_sats p) (p_norad_n p) (p_haversine p) (p_info_only p) v (p_single_i p) (p_single_n p) (p_satname_filter p) (p_geoloc p) (p_georef p) (p_altrng p) (p_deftledir p) (p_in_region p) (p_in_geopos p) (p_tle_path p).
Definition set_single_i (v : bool) (p : params) : params :=
  mk_params (p_date p) (p_intl_desig p) (p_satname p) (p_lat p) (p_lon p) (p_ht p) (p_ra p) (p_de p) (p_radius p) (p_mjd p) (p_alt_min p) (p_alt_max p) (p_delta_time p) (p_max_sats p) (p_norad_n p) (p_haversine p) (p_info_only p) (p_sunlit_only p) v (p_single_n p) (p_satname_filter p) (p_geoloc p) (p_georef p) (p_altrng p) (p_deftledir p) (p_in_region p) (p_in_geopos p) (p_tle_path p).
Definition set_single_n (v : bool) (p : params) : params :=
  mk_params (p_date p) (p_intl_desig p) (p_satname p) (p_lat p) (p_lon p) (p_ht p) (p_ra p) (p_de p) (p_radius p) (p_mjd p) (p_alt_min p) (p_alt_max p) (p_delta_time p) (p_max_sats p) (p_norad_n p) (p_haversine p) (p_info_only p) (p_sunlit_only p) (p_single_i p) v (p_satname_filter p) (p_geoloc p) (p_georef p) (p_altrng p) (p_deftledir p) (p_in_region p) (p_in_geopos p) (p_tle_path p).
Definition set_satname_filter (v : bool) (p : params) : params :=
  mk_params (p_date p) (p_intl_desig p) (p_satname p) (p_lat p) (p_lon p) (p_ht p) (p_ra p) (p_de p) (p_radius p) (p_mjd p) (p_alt_min p) (p_alt_max p) (p_delta_time p) (p_max_sats p) (p_norad_n p) (p_haversine p) (p_info_only p) (p_sunlit_only p) (p_single_i p) (p_single_n p) v (p_geoloc p) (p_georef p) (p_altrng p) (p_deftledir p) (p_in_region p) (p_in_geopos p) (p_tle_path p).
Definition set_geoloc (v : bool) (p : params) : params :=
  mk_params (p_date p) (p_intl_desig p) (p_satname p) (p_lat p) (p_lon p) (p_ht p) (p_ra p) (p_de p) (p_radius p) (p_mjd p) (p_alt_min p) (p_alt_max p) (p_delta_time p) (p_max_sats p) (p_norad_n p) (p_haversine p) (p_info_only p) (p_sunlit_only p) (p_single_i p) (p_single_n p) (p_satname_filter p) v (p_georef p) (p_altrng p) (p_deftledir p) (p_in_region p) (p_in_geopos p) (p_tle_path p).
Definition set_georef (v : bool) (p : params) : params :=
  mk_params (p_date p) (p_intl_desig p) (p_satname p) (p_lat p) (p_lon p) (p_ht p) (p_ra p) (p_de p) (p_radius p) (p_mjd p) (p_alt_min p) (p_alt_max p) (p_delta_time p) (p_max_sats p) (p_norad_n p) (p_haversine p) (p_info_only p) (p_sunlit_only p) (p_single_i p) (p_single_n p) (p_satname_filter p) (p_geoloc p) v (p_altrng p) (p_deftledir p) (p_in_region p) (p_in_geopos p) (p_tle_path p).
Definition set_altrng (v : bool) (p : params) : params :=
  mk_params (p_date p) (p_intl_desig p) (p_satname p) (p_lat p) (p_lon p) (p_ht p) (p_ra p) (p_de p) (p_radius p) (p_mjd p) (p_alt_min p) (p_alt_max p) (p_delta_time p) (p_max_sats p) (p_norad_n p) (p_haversine p) (p_info_only p) (p_sunlit_only p) (p_single_i p) (p_single_n p) (p_satname_filter p) (p_geoloc p) (p_georef p) v (p_deftledir p) (p_in_region p) (p_in_geopos p) (p_tle_path p).
Definition set_deftledir (v : bool) (p : params) : params :=
  mk_params (p_date p) (p_intl_desig p) (p_satname p) (p_lat p) (p_lon p) (p_ht p) (p_ra p) (p_de p) (p_radius p) (p_mjd p) (p_alt_min p) (p_alt_max p) (p_delta_time p) (p_max_sats p) (p_norad_n p) (p_haversine p) (p_info_only p) (p_sunlit_only p) (p_single_i p) (p_single_n p) (p_satname_filter p) (p_geoloc p) (p_georef p) (p_altrng p) v (p_in_region p) (p_in_geopos p) (p_tle_path p).
Definition set_in_region (v : bool) (p : params) : params :=
  mk_params (p_date p) (p_intl_desig p) (p_satname p) (p_lat p) (p_lon p) (p_ht p) (p_ra p) (p_de p) (p_radius p) (p_mjd p) (p_alt_min p) (p_alt_max p) (p_delta_time p) (p_max_sats p) (p_norad_n p) (p_haversine p) (p_info_only p) (p_sunlit_only p) (p_single_i p) (p_single_n p) (p_satname_filter p) (p_geoloc p) (p_georef p) (p_altrng p) (p_deftledir p) v (p_in_geopos p) (p_tle_path p).
Definition set_in_geopos (v : bool) (p : params) : params :=
  mk_params (p_date p) (p_intl_desig p) (p_satname p) (p_lat p) (p_lon p) (p_ht p) (p_ra p) (p_de p) (p_radius p) (p_mjd p) (p_alt_min p) (p_alt_max p) (p_delta_time p) (p_max_sats p) (p_norad_n p) (p_haversine p) (p_info_only p) (p_sunlit_only p) (p_single_i p) (p_single_n p) (p_satname_filter p) (p_geoloc p) (p_georef p) (p_altrng p) (p_deftledir p) (p_in_region p) v (p_tle_path p).
Definition set_tle_path (v : list Z) (p : params) : params :=
  mk_params (p_date p) (p_intl_desig p) (p_satname p) (p_lat p) (p_lon p) (p_ht p) (p_ra p) (p_de p) (p_radius p) (p_mjd p) (p_alt_min p) (p_alt_max p) (p_delta_time p) (p_max_sats p) (p_norad_n p) (p_haversine p) (p_info_only p) (p_sunlit_only p) (p_single_i p) (p_single_n p) (p_satname_filter p) (p_geoloc p) (p_georef p) (p_altrng p) (p_deftledir p) (p_in_region p) (p_in_geopos p) v.

(** sat_skymap.c:349, 371-395, 355-357: values before the loop. *)
Definition defaults : params :=
  mk_params (bytes "2020-01-13T12:00:00") [] [] (of_int 0) (of_int 0) (of_int 2400) (of_int 0) (of_int 0) (of_int 20)
    (lit 588615 10) (of_int 0) (of_int (10 ^ 32)) 1 1000 0
    false false false false false false false false false false false false (bytes ".").

(** Error exits of the option loop (sat_skymap.c:478-481, 490-493, 496-499, 523-526). *)
Definition opt_error {S : Type} (argv : list (list Z)) (code : Z) (msg : list Z) : res (action S) :=
  m <- c_sprintf 128 msg ;;
  t <- close_stat argv false code m 0 0 0 ;;
  Ok (Leave code (open_json ++ t)).

(** sat_skymap.c:412-527 *)
Definition skymap_switch (r : reader) (argv : list (list Z)) (opt : Z) (val cur : res (list Z)) (p : params) : res (action params) :=
  if opt =? 104 (* h *) then Ok (Leave 0 usage)
  else if opt =? 69 (* E *) then Ok (Go true (set_geoloc true (set_georef true p)))
  else if opt =? 71 (* G *) then Ok (Go true (set_geoloc true p))
  else if opt =? 72 (* H *) then Ok (Go true (set_haversine true p))
  else if opt =? 73 (* I *) then Ok (Go true (set_info_only true p))
  else if opt =? 84 (* T *) then Ok (Go true (set_deftledir true p))
  else if opt =? 86 (* V *) then Ok (Go true (set_sunlit_only true p))
  else if opt =? 97 (* a *) then
    t <- val ;;
    let l := scan_reals r 2 t in
    let lo := assigned l 0 (p_alt_min p) in
    let hi := assigned l 1 (p_alt_max p) in
    let '(lo, hi) := if flt hi lo then (hi, lo) else (lo, hi) in
    Ok (Go false (set_geoloc true (set_altrng true (set_alt_min lo (set_alt_max hi p)))))
  else if opt =? 100 (* d *) then
    t <- val ;; d <- c_sprintf 24 t ;;
    Ok (Go false (set_mjd (snd (date2mjd_nf t)) (set_date d p)))
  else if opt =? 68 (* D *) then
    t <- val ;; d <- c_sprintf 128 t ;;
    Ok (Go false (set_deftledir false (set_tle_path d p)))
  else if opt =? 105 (* i *) then
    t <- val ;; d <- c_sprintf 12 t ;;
    Ok (Go false (set_in_region false (set_altrng false (set_single_i true (set_intl_desig d p)))))
  else if opt =? 106 (* j *) then
    t <- val ;;
    let m := r_atof r t in
    d <- mjd2date m ;;
    match d with
    | None => UB NullDeref
    | Some d => d' <- c_sprintf 24 d ;; Ok (Go false (set_date d' (set_mjd m p)))
    end
  else if opt =? 108 (* l *) then
    t <- val ;;
    let l := scan_reals r 3 t in
    let lat := assigned l 0 (p_lat p) in
    let lon := assigned l 1 (p_lon p) in
    let ht := assigned l 2 (p_ht p) in
    let lon := if flt lon (of_int 0) then fadd lon (of_int 360) else lon in
    if flt lat (of_int (-90)) || flt (of_int 90) lat
    then opt_error argv (-1) (bytes "Latitude must be in the range [-90, +90] degrees. Read '" ++ print_f 0 6 lat ++ bytes "'")
    else Ok (Go false (set_in_geopos true (set_lat lat (set_lon lon (set_ht ht p)))))
  else if opt =? 110 (* n *) then
    t <- val ;;
    match scan_dec t with
    | None => Ok (Go false p)
    | Some v => n <- chk_int v ;; Ok (Go false (set_max_sats n p))
    end
  else if opt =? 112 (* p *) then
    t <- val ;;
    let l := scan_reals r 2 t in
    let ra := assigned l 0 (p_ra p) in
    let de := assigned l 1 (p_de p) in
    if flt ra (of_int 0) || flt (of_int 360) ra
    then opt_error argv (-1) (bytes "RA must be in the range [0, 360[ degrees. Read '" ++ print_f 0 6 ra ++ bytes "'")
    else if flt de (of_int (-90)) || flt (of_int 90) de
    then opt_error argv (-1) (bytes "Dec must be in the range [-90, +90] degrees. Read '" ++ print_f 0 6 de ++ bytes "'")
    else Ok (Go false (set_in_region true (set_ra ra (set_de de p))))
  else if opt =? 114 (* r *) then t <- val ;; Ok (Go false (set_radius (r_atof r t) p))
  else if opt =? 115 (* s *) then
    t <- val ;;
    Ok (Go false (set_in_region false (set_altrng false (set_single_n true (set_norad_n (wrap_int (strtol t)) p)))))
  else if opt =? 83 (* S *) then
    t <- val ;; d <- c_sprintf 24 t ;;
    Ok (Go false (set_satname_filter true (set_satname d p)))
  else if opt =? 116 (* t *) then
    t <- val ;; v <- to_int (r_atof r t) ;; Ok (Go false (set_delta_time v p))
  else
    c <- cur ;;
    opt_error argv (-2) (bytes "Unrecognized command-line option '" ++ c ++ bytes "'").

(** sat_skymap.c:359-364, 401-539: the parameters with which the rest of main runs (SkymapModel.skymap), or an exit. *)
Definition command_line (r : reader) (fuel : nat) (argv : list (list Z)) : res (parsed params) :=
  if (length argv <? 2)%nat then
    m <- c_sprintf 128 (bytes "Example usage:" ++ 10 :: bytes " sat_skymap default.tle -l-29.25627,-70.73805,2400 -p90.5,-30.3 -j58861.5 -r20") ;;
    t <- close_stat argv false 1 m 0 0 0 ;;
    Ok (Exit 0 (open_json ++ t))
  else
    s <- opt_loop (skymap_switch r argv) fuel argv 1 defaults ;;
    match s with
    | Done p => if p_in_geopos p then Ok (Done p) else Ok (Exit 0 usage)
    | Exit code out => Ok (Exit code out)
    end.

(** The whole program: [hd] are the values computed before the loop, [num] those per satellite, [fs] the files. *)
Definition sat_skymap (r : reader) (fuel : nat) (argv : list (list Z)) (hd : params -> hdr) (num : nat -> TleModel.tle_t -> num)
    (fs : list Z -> option (list Z)) (tle0 : TleModel.tle_t) (l1 l2 name : list Z) : res final :=
  s <- command_line r fuel argv ;;
  match s with
  | Done p => skymap (mk_env argv p (hd p) num fs tle0) l1 l2 name
  | Exit code out => Ok (mk_final code out [] 0 0 0)
  end.
