(** The command line of sat_visibility (sat_visibility.c:541-681).

    The loop over the arguments is the one of CliModel; see there for the simplifications. *)
From Coq Require Import String Ascii ZArith List Bool.
From Flocq Require Import IEEE754.BinarySingleNaN.
From Verif Require Import CLib FloatModel CalendarModel IoModel SkymapModel CliModel.
Import ListNotations.
Open Scope Z_scope.

(** sat_visibility_def.h:24-50 [Params], and the locals in_geopos and tle_path of main; strings as their text.
    len_intl_desig (547, 625) is the length of [v_intl_desig]. *)
Record vparams := mk_vparams {
  v_date0 : list Z; v_date1 : list Z; v_intl_desig : list Z;
  v_lat : b64; v_lon : b64; v_ht : b64; v_radius : b64; v_mjd0 : b64; v_mjd1 : b64; v_alt_min : b64; v_alt_max : b64;
  v_delta_time : Z; v_norad_n : Z;
  v_skip : bool; v_single_i : bool; v_single_n : bool; v_altrng : bool; v_deftledir : bool; v_in_geopos : bool;
  v_tle_path : list Z }.

(** Assignments to the members of [p] and to the locals. *)
Definition put_date0 (x : list Z) (p : vparams) : vparams :=
  mk_vparams x (v_date1 p) (v_intl_desig p) (v_lat p) (v_lon p) (v_ht p) (v_radius p) (v_mjd0 p) (v_mjd1 p) (v_alt_min p) (v_alt_max p) (v_delta_time p) (v_norad_n p) (v_skip p) (v_single_i p) (v_single_n p) (v_altrng p) (v_deftledir p) (v_in_geopos p) (v_tle_path p).
Definition put_date1 (x : list Z) (p : vparams) : vparams :=
  mk_vparams (v_date0 p) x (v_intl_desig p) (v_lat p) (v_lon p) (v_ht p) (v_radius p) (v_mjd0 p) (v_mjd1 p) (v_alt_min p) (v_alt_max p) (v_delta_time p) (v_norad_n p) (v_skip p) (v_single_i p) (v_single_n p) (v_altrng p) (v_deftledir p) (v_in_geopos p) (v_tle_path p).
Definition put_intl_desig (x : list Z) (p : vparams) : vparams :=
  mk_vparams (v_date0 p) (v_date1 p) x (v_lat p) (v_lon p) (v_ht p) (v_radius p) (v_mjd0 p) (v_mjd1 p) (v_alt_min p) (v_alt_max p) (v_delta_time p) (v_norad_n p) (v_skip p) (v_single_i p) (v_single_n p) (v_altrng p) (v_deftledir p) (v_in_geopos p) (v_tle_path p).
Definition put_lat (x : b64) (p : vparams) : vparams :=
  mk_vparams (v_date0 p) (v_date1 p) (v_intl_desig p) x (v_lon p) (v_ht p) (v_radius p) (v_mjd0 p) (v_mjd1 p) (v_alt_min p) (v_alt_max p) (v_delta_time p) (v_norad_n p) (v_skip p) (v_single_i p) (v_single_n p) (v_altrng p) (v_deftledir p) (v_in_geopos p) (v_tle_path p).
Definition put_lon (x : b64) (p : vparams) : vparams :=
  mk_vparams (v_date0 p) (v_date1 p) (v_intl_desig p) (v_lat p) x (v_ht p) (v_radius p) (v_mjd0 p) (v_mjd1 p) (v_alt_min p) (v_alt_max p) (v_delta_time p) (v_norad_n p) (v_skip p) (v_single_i p) (v_single_n p) (v_altrng p) (v_deftledir p) (v_in_geopos p) (v_tle_path p).
Definition put_ht (x : b64) (p : vparams) : vparams :=
  mk_vparams (v_date0 p) (v_date1 p) (v_intl_desig p) (v_lat p) (v_lon p) x (v_radius p) (v_mjd0 p) (v_mjd1 p) (v_alt_min p) (v_alt_max p) (v_delta_time p) (v_norad_n p) (v_skip p) (v_single_i p) (v_single_n p) (v_altrng p) (v_deftledir p) (v_in_geopos p) (v_tle_path p).
Definition put_radius (x : b64) (p : vparams) : vparams :=
  mk_vparams (v_date0 p) (v_date1 p) (v_intl_desig p) (v_lat p) (v_lon p) (v_ht p) x (v_mjd0 p) (v_mjd1 p) (v_alt_min p) (v_alt_max p) (v_delta_time p) (v_norad_n p) (v_skip p) (v_single_i p) (v_single_n p) (v_altrng p) (v_deftledir p) (v_in_geopos p) (v_tle_path p).
Definition put_mjd0 (x : b64) (p : vparams) : vparams :=
  mk_vparams (v_date0 p) (v_date1 p) (v_intl_desig p) (v_lat p) (v_lon p) (v_ht p) (v_radius p) x (v_mjd1 p) (v_alt_min p) (v_alt_max p) (v_delta_time p) (v_norad_n p) (v_skip p) (v_single_i p) (v_single_n p) (v_altrng p) (v_deftledir p) (v_in_geopos p) (v_tle_path p).
Definition put_mjd1 (x : b64) (p : vparams) : vparams :=
  mk_vparams (v_date0 p) (v_date1 p) (v_intl_desig p) (v_lat p) (v_lon p) (v_ht p) (v_radius p) (v_mjd0 p) x (v_alt_min p) (v_alt_max p) (v_delta_time p) (v_norad_n p) (v_skip p) (v_single_i p) (v_single_n p) (v_altrng p) (v_deftledir p) (v_in_geopos p) (v_tle_path p).
Definition put_alt_min (x : b64) (p : vparams) : vparams :=
  mk_vparams (v_date0 p) (v_date1 p) (v_intl_desig p) (v_lat p) (v_lon p) (v_ht p) (v_radius p) (v_mjd0 p) (v_mjd1 p) x (v_alt_max p) (v_delta_time p) (v_norad_n p) (v_skip p) (v_single_i p) (v_single_n p) (v_altrng p) (v_deftledir p) (v_in_geopos p) (v_tle_path p).
Definition put_alt_max (x : b64) (p : vparams) : vparams :=
  mk_vparams (v_date0 p) (v_date1 p) (v_intl_desig p) (v_lat p) (v_lon p) (v_ht p) (v_radius p) (v_mjd0 p) (v_mjd1 p) (v_alt_min p) x (v_delta_time p) (v_norad_n p) (v_skip p) (v_single_i p) (v_single_n p) (v_altrng p) (v_deftledir p) (v_in_geopos p) (v_tle_path p).
Definition put_delta_time (x : Z) (p : vparams) : vparams :=
  mk_vparams (v_date0 p) (v_date1 p) (v_intl_desig p) (v_lat p) (v_lon p) (v_ht p) (v_radius p) (v_mjd0 p) (v_mjd1 p) (v_alt_min p) (v_alt_max p) x (v_norad_n p) (v_skip p) (v_single_i p) (v_single_n p) (v_altrng p) (v_deftledir p) (v_in_geopos p) (v_tle_path p).
Definition put_norad_n (x : Z) (p : vparams) : vparams :=
  mk_vparams (v_date0 p) (v_date1 p) (v_intl_desig p) (v_lat p) (v_lon p) (v_ht p) (v_radius p) (v_mjd0 p) (v_mjd1 p) (v_alt_min p) (v_alt_max p) (v_delta_time p) x (v_skip p) (v_single_i p) (v_single_n p) (v_altrng p) (v_deftledir p) (v_in_geopos p) (v_tle_path p).
Definition put_skip (x : bool) (p : vparams) : vparams :=
  mk_vparams (v_date0 p) (v_date1 p) (v_intl_desig p) (v_lat p) (v_lon p) (v_ht p) (v_radius p) (v_mjd0 p) (v_mjd1 p) (v_alt_min p) (v_alt_max p) (v_delta_time p) (v_norad_n p) x (v_single_i p) (v_single_n p) (v_altrng p) (v_deftledir p) (v_in_geopos p) (v_tle_path p).
Definition put_single_i (x : bool) (p : vparams) : vparams :=
  mk_vparams (v_date0 p) (v_date1 p) (v_intl_desig p) (v_lat p) (v_lon p) (v_ht p) (v_radius p) (v_mjd0 p) (v_mjd1 p) (v_alt_min p) (v_alt_max p) (v_delta_time p) (v_norad_n p) (v_skip p) x (v_single_n p) (v_altrng p) (v_deftledir p) (v_in_geopos p) (v_tle_path p).
Definition put_single_n (x : bool) (p : vparams) : vparams :=
  mk_vparams (v_date0 p) (v_date1 p) (v_intl_desig p) (v_lat p) (v_lon p) (v_ht p) (v_radius p) (v_mjd0 p) (v_mjd1 p) (v_alt_min p) (v_alt_max p) (v_delta_time p) (v_norad_n p) (v_skip p) (v_single_i p) x (v_altrng p) (v_deftledir p) (v_in_geopos p) (v_tle_path p).
Definition put_altrng (x : bool) (p : vparams) : vparams :=
  mk_vparams (v_date0 p) (v_date1 p) (v_intl_desig p) (v_lat p) (v_lon p) (v_ht p) (v_radius p) (v_mjd0 p) (v_mjd1 p) (v_alt_min p) (v_alt_max p) (v_delta_time p) (v_norad_n p) (v_skip p) (v_single_i p) (v_single_n p) x (v_deftledir p) (v_in_geopos p) (v_tle_path p).
Definition put_deftledir (x : bool) (p : vparams) : vparams :=
  mk_vparams (v_date0 p) (v_date1 p) (v_intl_desig p) (v_lat p) (v_lon p) (v_ht p) (v_radius p) (v_mjd0 p) (v_mjd1 p) (v_alt_min p) (v_alt_max p) (v_delta_time p) (v_norad_n p) (v_skip p) (v_single_i p) (v_single_n p) (v_altrng p) x (v_in_geopos p) (v_tle_path p).
Definition put_in_geopos (x : bool) (p : vparams) : vparams :=
  mk_vparams (v_date0 p) (v_date1 p) (v_intl_desig p) (v_lat p) (v_lon p) (v_ht p) (v_radius p) (v_mjd0 p) (v_mjd1 p) (v_alt_min p) (v_alt_max p) (v_delta_time p) (v_norad_n p) (v_skip p) (v_single_i p) (v_single_n p) (v_altrng p) (v_deftledir p) x (v_tle_path p).
Definition put_tle_path (x : list Z) (p : vparams) : vparams :=
  mk_vparams (v_date0 p) (v_date1 p) (v_intl_desig p) (v_lat p) (v_lon p) (v_ht p) (v_radius p) (v_mjd0 p) (v_mjd1 p) (v_alt_min p) (v_alt_max p) (v_delta_time p) (v_norad_n p) (v_skip p) (v_single_i p) (v_single_n p) (v_altrng p) (v_deftledir p) (v_in_geopos p) x.

(** sat_visibility.c:308-329 *)
Definition vis_usage : list Z := bytes
"Usage:
  sat_visibility tle_file [OPTIONS]

OPTIONS are:
  -a Alt_min,Alt_max Geodetic altitude range filter (km)
  -d CalendarDates   Calendar date (UTC) range of interest (in the form yyyy-mm-ddThh:mm:ss[.sss],yyyy-...)
  -D DirTLEs         Directory with the repository of TLE files (def. ./; ignore -T option)
  -i SatIntnlName    Satellite selection via its international designator
  -j MJDs            Modified Julian Date range of interest (MJDstart,MJDend - ignored if Calendar Date given)
  -l Lat,Lon,Alt     Geodetic observing site (comma separated data with no spaces)
  -r radius          Region search radius - centred at the site zenith (degrees; def. 90)
  -s SatNorad_n      Satellite selection via its NORAD number
  -t deltaT          Visibility check delta time (seconds; def. 3)

Switches:
  -h                 Print this help
  -N                 Skip visibility check until Sun is set - if it is up at start date
  -T                 Use default repository directory for TLE files (def. ./; see sat_visibility_def.h)

Example usage:
  sat_visibility stations.txt -T -l44.52324,11.33914,23 -d2024-05-11T20:00:00,2024-05-11T22:00:00 -s 25544
  sat_visibility stations.txt -T -t 10 -l-29.25627,-70.73805,2400 -j60436.54,60436.55 -s 25544
".

(** sat_visibility.c:562-571; the members not set there are members of a global, hence zero. *)
Definition vis_defaults : vparams :=
  mk_vparams [] [] [] (of_int 0) (of_int 0) (of_int 0) (of_int 90) (of_int 0) (of_int 0) (of_int 0) (of_int (10 ^ 32))
    3 0 false false false false false false (bytes ".").

(** sat_visibility.c:332-337 *)
Definition vis_open_json : list Z :=
  q "{'swinfo': {'name': 'sat_visibility', 'author': 'L. Nicastro @ INAF-OAS', 'date': '2024-05-13', 'version': '0.1a'}, ".

(** sat_visibility.c:386-399 *)
Definition vis_close (argv : list (list Z)) (input_list : bool) (status : Z) (errmsg : list Z) (found : Z) : res (list Z) :=
  first <- (if input_list then match nth_error argv 1 with Some a => Ok (bytes " @" ++ a) | None => UB NullDeref end else Ok []) ;;
  Ok (q "'run_command': 'sat_visibility" ++ first ++
      concat (map (fun a => 32 :: a) (skipn (if input_list then 2 else 1) argv)) ++
      q "', 'status': " ++ print_d 0 status ++ q ", 'errmsg': '" ++ errmsg ++ q "', 'n_sats_found': " ++ print_d 0 found ++ q "}" ++ [10]).

(** Error exits of the option loop (sat_visibility.c:644-647, 663-666). *)
Definition vis_error {S : Type} (argv : list (list Z)) (code : Z) (msg : list Z) : res (action S) :=
  m <- c_sprintf 128 msg ;;
  t <- vis_close argv false code m 0 ;;
  Ok (Leave code (vis_open_json ++ t)).

(** sscanf conversion "%<w>s": skip white space, then at most [w] other characters. *)
Fixpoint word (w : nat) (t : list Z) : list Z * list Z :=
  match w, t with
  | S w', c :: t' => if is_space c then ([], t) else let (a, r) := word w' t' in (c :: a, r)
  | _, _ => ([], t)
  end.
Definition scan_word (w : nat) (t : list Z) : option (list Z * list Z) :=
  match word w (c_skip_space t) with ([], _) => None | r => Some r end.
(** sat_visibility.c:615 sscanf( t, "%19s,%19s", a, b): the texts in the two variables afterwards. *)
Definition scan_dates (t a b : list Z) : list Z * list Z :=
  match scan_word 19 t with
  | None => (a, b)
  | Some (a', r) =>
      match r with
      | c :: r' => if c =? 44 then match scan_word 19 r' with None => (a', b) | Some (b', _) => (a', b') end else (a', b)
      | [] => (a', b)
      end
  end.

(** strcpy( dst, mjd2date( mjd)) into an object of 24 bytes. *)
Definition date_of (mjd : b64) : res (list Z) :=
  d <- mjd2date mjd ;; match d with None => UB NullDeref | Some d => c_sprintf 24 d end.

(** sat_visibility.c:585-668 *)
Definition vis_switch (r : reader) (argv : list (list Z)) (opt : Z) (val cur : res (list Z)) (p : vparams) : res (action vparams) :=
  if opt =? 104 (* h *) then Ok (Leave 0 vis_usage)
  else if opt =? 78 (* N *) then Ok (Go true (put_skip true p))
  else if opt =? 84 (* T *) then Ok (Go true (put_deftledir true p))
  else if opt =? 97 (* a *) then
    t <- val ;;
    let l := scan_reals r 2 t in
    let lo := assigned l 0 (v_alt_min p) in
    let hi := assigned l 1 (v_alt_max p) in
    let '(lo, hi) := if flt hi lo then (hi, lo) else (lo, hi) in
    Ok (Go false (put_altrng true (put_alt_min lo (put_alt_max hi p))))
  else if opt =? 100 (* d *) then
    t <- val ;;
    if existsb (Z.eqb 45) t then
      let '(a, b) := scan_dates t (v_date0 p) (v_date1 p) in
      Ok (Go false (put_mjd1 (snd (date2mjd_nf b)) (put_mjd0 (snd (date2mjd_nf a)) (put_date0 a (put_date1 b p)))))
    else Ok (Leave 0 vis_usage)
  else if opt =? 68 (* D *) then
    t <- val ;; d <- c_sprintf 128 t ;;
    Ok (Go false (put_deftledir false (put_tle_path d p)))
  else if opt =? 105 (* i *) then
    t <- val ;; d <- c_sprintf 12 t ;;
    Ok (Go false (put_altrng false (put_single_i true (put_intl_desig d p))))
  else if opt =? 106 (* j *) then
    t <- val ;;
    if existsb (Z.eqb 45) t then Ok (Leave 0 vis_usage)
    else
      let l := scan_reals r 2 t in
      let a := assigned l 0 (v_mjd0 p) in
      let b := assigned l 1 (v_mjd1 p) in
      da <- date_of a ;; db <- date_of b ;;
      Ok (Go false (put_date1 db (put_date0 da (put_mjd0 a (put_mjd1 b p)))))
  else if opt =? 108 (* l *) then
    t <- val ;;
    let l := scan_reals r 3 t in
    let lat := assigned l 0 (v_lat p) in
    let lon := assigned l 1 (v_lon p) in
    let ht := assigned l 2 (v_ht p) in
    let lon := if flt lon (of_int 0) then fadd lon (of_int 360) else lon in
    if flt lat (of_int (-90)) || flt (of_int 90) lat
    then vis_error argv (-1) (bytes "Latitude must be in the range [-90, +90] degrees. Read '" ++ print_f 0 6 lat ++ bytes "'")
    else Ok (Go false (put_in_geopos true (put_lat lat (put_lon lon (put_ht ht p)))))
  else if opt =? 114 (* r *) then t <- val ;; Ok (Go false (put_radius (r_atof r t) p))
  else if opt =? 115 (* s *) then
    t <- val ;;
    Ok (Go false (put_altrng false (put_single_n true (put_norad_n (wrap_int (strtol t)) p))))
  else if opt =? 116 (* t *) then
    t <- val ;; v <- to_int (r_atof r t) ;; Ok (Go false (put_delta_time v p))
  else
    c <- cur ;;
    vis_error argv (-2) (bytes "Unrecognized command-line option '" ++ c ++ bytes "'").

(** sat_visibility.c:553-571, 576-669, 674-681 *)
Definition vis_command_line (r : reader) (fuel : nat) (argv : list (list Z)) : res (parsed vparams) :=
  if (length argv <? 2)%nat then
    m <- c_sprintf 128 (bytes "Example usage:" ++ 10 :: bytes " sat_visibility stations.txt -l-29.25627,-70.73805,2400 -j58941.72,58941.73 -s 25544") ;;
    t <- vis_close argv false 1 m 0 ;;
    Ok (Exit 0 (vis_open_json ++ t))
  else
    s <- opt_loop (vis_switch r argv) fuel argv 1 vis_defaults ;;
    match s with
    | Done p => if v_in_geopos p then Ok (Done (put_tle_path (if v_deftledir p then DEF_TLEDIR else v_tle_path p) p)) else Ok (Exit 0 vis_usage)
    | Exit code out => Ok (Exit code out)
    end.
