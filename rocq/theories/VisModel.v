(** Model of the main program sat_visibility after option parsing (sat_visibility.c:671-1082; option parsing is in VisCliModel).

    Modelled: opening of the list and element files, line reading into the fixed buffers, the search for the requested
    satellite, the loops over time with binary64 time arithmetic, all variables kept between samples, and every byte written
    to standard output.  The numerical library below main (propagator, sidereal time, solar position, coordinate conversions)
    is a record of arbitrary functions; the propagator may also depend on the number of earlier calls. *)
From Coq Require Import String Ascii ZArith List Bool.
From Flocq Require Import IEEE754.BinarySingleNaN.
From Verif Require Import CLib FloatModel CalendarModel TleModel IoModel SkymapModel CliModel VisCliModel.
Import ListNotations.
Open Scope Z_scope.

Record vec := mk_vec { vx : b64; vy : b64; vz : b64 }.
(** sat_visibility_def.h:80-86 [Geoloc] without observer_loc. *)
Record geo := mk_geo { g_lat : b64; g_lon : b64; g_alt : b64; g_theta : b64 }.
(** sat_visibility_def.h:52-62 [Sun] without ha and d_km. *)
Record sun := mk_sun { u_ra : b64; u_dec : b64; u_az : b64; u_alt : b64; u_lon : b64; u_parang : b64; u_sep : b64 }.
(** sat_visibility_def.h:64-78 [Sat] without ha, is_deep, is_sunlit. *)
Record sat := mk_sat {
  sa_date : list Z; sa_mjd : b64; sa_ra : b64; sa_dec : b64; sa_az : b64; sa_alt : b64; sa_parang : b64; sa_speed : b64;
  sa_sep : b64; sa_dkm : b64 }.

(** The numerical functions called by main. *)
Record lib := mk_lib {
  l_lmst : b64 -> b64 * b64;                        (* lmst_hr at a JD: LMST, GMST *)
  l_deep : tle_t -> bool;                           (* select_ephemeris *)
  l_epoch : tle_t -> b64;                           (* tle.epoch as a double (TleModel has the exact number) *)
  l_propagate : nat -> bool -> tle_t -> b64 -> vec; (* SxP4_init and SxP4, after so many earlier calls *)
  l_geo : vec -> b64 -> geo;                        (* sat_geoLocation: position, GMST *)
  l_observer : b64 -> vec;                          (* observer_cartesian_coords at a JD *)
  l_radec : vec -> vec -> b64 * b64 * b64;          (* get_satellite_ra_dec_delta: observer, satellite *)
  l_skysep : b64 -> b64 -> b64 -> b64 -> b64;       (* skysep_h *)
  l_pa : b64 -> b64 -> b64 -> b64 -> b64;           (* sat_visibility.c:526-533: ra, dec, ra1, dec1 *)
  l_sun_alt : b64 -> b64;                           (* sun.alt of 839-842 at a JD *)
  l_sun : b64 -> b64 -> b64 -> b64 -> sun;          (* get_sun_data: JD, LMST, GMST, target RA *)
  l_sun_vec : b64 -> vec;                           (* sun.d_km of get_sun_data at a JD *)
  l_blocked : vec -> vec -> bool;                   (* intersect_satsun_sphere: satellite, Sun *)
  l_dechalat : b64 -> b64 -> b64 * b64 * b64;       (* dechalat2alt at the latitude of the site: dec, ha -> alt, az, parang *)
  l_precess : b64 -> b64 -> b64 -> b64 * b64        (* epoch_of_date_to_j2000: JD, ra, dec *)
}.

(** const_def.h:9-33: the nearest doubles of the decimal literals. *)
Definition RAD2HRS : b64 := lit 2150310427208497 562949953421312.
Definition RAD2DEG : b64 := lit 1007958012753983 17592186044416.
Definition DEG2RAD : b64 := lit 5030569068109113 288230376151711744.
Definition SEC_IN_DAY : b64 := of_int 86400.

(* ------------------------------------------------------------------ *)
(** ** Output texts *)

(** sat_visibility.c:339-345.  p.ra_deg, p.lmst and p.gmst are printed before the first assignment to them (855, 852), that is
    as the zeros of a global. *)
Definition vis_params_json (file : list Z) (p : vparams) (az alt parang : b64) : list Z :=
  q "'input_params': {'tle_file': '" ++ file ++ q "', 'location': {'lat':" ++ print_f 8 4 (v_lat p) ++
  q ", 'lon':" ++ print_f 9 4 (v_lon p) ++ q ", 'alt':" ++ print_f 8 1 (v_ht p) ++
  q "}, 'region': {'ra':" ++ print_f 9 4 (of_int 0) ++ q ", 'dec':" ++ print_f 8 4 (v_lat p) ++
  q ", 'radius':" ++ print_f 8 4 (v_radius p) ++ q ", 'lmst':" ++ print_f 8 4 (of_int 0) ++
  q ", 'az':" ++ print_f 9 4 az ++ q ", 'alt':" ++ print_f 8 4 alt ++
  q ", 'parang':" ++ print_f 8 3 parang ++ q "}, 'mjd_range': [" ++ print_f 11 5 (v_mjd0 p) ++ q ", " ++ print_f 11 5 (v_mjd1 p) ++
  q "], 'date_utc_range': ['" ++ v_date0 p ++ q "', '" ++ v_date1 p ++ q "'], 'gmst':" ++ print_f 8 4 (of_int 0) ++
  q ", 'delta_time_s': " ++ print_d 0 (v_delta_time p) ++
  q ", 'notes': 'All coordinates and radius in degrees. GMST, LMST in hrs.'}, ".

(** sat_visibility.c:347-352 *)
Definition vis_fields_json : list Z :=
  q "'sat_fields': {'desc': ['Date start/end sunlit', 'MJD start/end sunlit', 'RA J2000', 'Dec J2000', 'Azimuth', 'Altitude', 'Distance to sat.', 'Angular separation', 'Position angle', 'Apparent angular rate of motion'], " ++
  q "'type': ['datetime', 'double', 'double', 'double', 'double', 'double', 'double', 'float', 'float', 'float'], " ++
  q "'unit': ['', 'MJD', 'deg', 'deg', 'deg', 'deg', 'km', 'deg', 'deg', 'arcmin/s']},".

(** sat_visibility.c:364-367 *)
Definition vis_geo_json (label : list Z) (g : geo) : list Z :=
  q "'" ++ label ++ q "': {'lat':" ++ print_f 7 3 (g_lat g) ++ q ", 'lon':" ++ print_f 7 3 (g_lon g) ++
  q ", 'alt':" ++ print_f 9 2 (g_alt g) ++ q ", 'theta':" ++ print_f 8 3 (g_theta g) ++ q "}, ".

(** sat_visibility.c:369-377 *)
Definition vis_sat_json (label : list Z) (s : sat) : res (list Z) :=
  pa <- to_int (fmul (sa_parang s) RAD2DEG) ;;
  Ok (q "'" ++ label ++ q "': {'Date': '" ++ sa_date s ++ q "', 'MJD': " ++ print_f 11 5 (sa_mjd s) ++
      q ", 'ra': " ++ print_f 8 4 (fmul (sa_ra s) RAD2DEG) ++ q ", 'dec': " ++ print_f 8 4 (fmul (sa_dec s) RAD2DEG) ++
      q ", 'az':" ++ print_f 9 4 (sa_az s) ++ q ", 'alt':" ++ print_f 8 4 (sa_alt s) ++
      q ", 'Distance': " ++ print_f 9 2 (sa_dkm s) ++ q ", 'Separation': " ++ print_f 6 4 (sa_sep s) ++
      q ", 'PA': " ++ print_d 3 pa ++ q ", 'Speed': " ++ print_f 6 3 (sa_speed s) ++ q "}" ++
      (if strstrb label (bytes "sat_max") then [] else q ", ")).

(** sat_visibility.c:379-384 *)
Definition vis_sun_json (label : list Z) (u : sun) : list Z :=
  q "'" ++ label ++ q "': {'ra':" ++ print_f 7 3 (u_ra u) ++ q ", 'dec':" ++ print_f 7 3 (u_dec u) ++
  q ", 'az':" ++ print_f 8 3 (u_az u) ++ q ", 'alt':" ++ print_f 7 3 (u_alt u) ++
  q ", 'lon':" ++ print_f 8 3 (u_lon u) ++ q ", 'parang':" ++ print_f 8 3 (u_parang u) ++
  q ", 'separation_deg':" ++ print_f 7 3 (u_sep u) ++ q "}, ".

(* ------------------------------------------------------------------ *)
(** ** Search for the satellite (sat_visibility.c:717-808) *)

Record fst_ := mk_f {
  f_line1 : list Z; f_line2 : list Z; f_name : list Z;     (* line1[100], line2[100], sat_name[25] *)
  f_desig : list Z;                                        (* text of intl_desig[12] *)
  f_tle : tle_t; f_open : bool }.                          (* tle; ifile != NULL *)

(** Where control goes. *)
Inductive find :=
| Found (s : fst_)               (* single_sat_found *)
| Missing (s : fst_)             (* all lines read *)
| Quit (code : Z) (out : list Z).

(** sat_visibility.c:775-778 and 946-949: the text of intl_desig, unchanged for a blank designator. *)
Definition vis_desig (d old : list Z) : res (list Z) :=
  c0 <- rd d 0 ;;
  if c0 =? 32 then Ok old
  else
    v <- c_atoi (d ++ [0]) ;;
    Ok (firstn 9 ((if 57000 <? v then bytes "19" else bytes "20") ++ firstn 2 d ++ [45] ++ skipn 2 d)).

(** sat_visibility.c:765-782: is it the requested one, and the text of intl_desig. *)
Definition requested (p : vparams) (t : tle_t) (line1 desig : list Z) : res (bool * list Z) :=
  code <- strncpy_bytes (adv line1 2) 5 ;;
  code <- c_text (code ++ [0]) ;;
  if v_single_n p then
    v <- c_strtol (code ++ [0]) ;;
    Ok (v =? v_norad_n p, desig)
  else if v_single_i p then
    d <- vis_desig (tle_intl_desig t) desig ;;
    b <- c_memeq (firstn 12 (d ++ repeat 0 12)) (firstn 12 (v_intl_desig p ++ repeat 0 12)) (length (v_intl_desig p)) ;;
    Ok (b, d)
  else Ok (false, desig).

(** sat_visibility.c:763-794: the loop over the remaining lines of a file. *)
Fixpoint scan_lines (p : vparams) (chunks : list (list Z)) (s : fst_) : res find :=
  match chunks with
  | [] => Ok (Missing s)
  | chunk :: rest =>
      l2 <- c_store (f_line2 s) chunk ;;
      r <- parse_elements (f_line1 s) l2 (f_tle s) ;;
      let (code, t) := r in
      bd <- (if code =? 0 then requested p t (f_line1 s) (f_desig s) else Ok (false, f_desig s)) ;;
      let (b, d) := bd : bool * list Z in
      if b then Ok (Found (mk_f (f_line1 s) l2 (f_name s) d t (f_open s)))
      else
        t2 <- c_text l2 ;;
        l1 <- c_store (f_line1 s) t2 ;;
        c <- rd l2 0 ;;
        n <- (if negb (c =? 49) && negb (c =? 50) then take_name l2 (f_name s) else Ok (f_name s)) ;;
        scan_lines p rest (mk_f l1 l2 n d t (f_open s))
  end.

(** An error exit after open_json. *)
Definition vis_quit (argv : list (list Z)) (il : bool) (code status : Z) (msg : list Z) (found : Z) (out : list Z) : res (Z * list Z) :=
  m <- c_sprintf 128 msg ;;
  t <- vis_close argv il status m found ;;
  Ok (code, out ++ t).
Definition find_quit (argv : list (list Z)) (il : bool) (code status : Z) (msg : list Z) : res find :=
  r <- vis_quit argv il code status msg 0 vis_open_json ;;
  Ok (Quit (fst r) (snd r)).

(** sat_visibility.c:748-794: one element file. *)
Definition scan_file (p : vparams) (fs : list Z -> option (list Z)) (argv : list (list Z)) (il : bool) (path : list Z) (s : fst_) : res find :=
  match fs path with
  | None => find_quit argv il 2 2 (bytes "Could not open input file " ++ path)
  | Some contents =>
      match fgets_seq 99 contents with
      | [] => find_quit argv il (-2) (-2) (bytes "Could not read first TLE line from file " ++ path)
      | first :: rest =>
          l1 <- c_store (f_line1 s) first ;;
          n <- take_name l1 (f_name s) ;;
          scan_lines p rest (mk_f l1 (f_line2 s) n (f_desig s) (f_tle s) true)
      end
  end.

(** sat_visibility.c:724-799 with an input list; also the last contents of tle_path_file. *)
Fixpoint scan_rows (p : vparams) (fs : list Z -> option (list Z)) (argv : list (list Z)) (lines : list (list Z)) (path0 : list Z) (s : fst_) : res (find * list Z) :=
  match lines with
  | [] => Ok (Missing s, path0)
  | row :: r =>
      o <- row_name row ;;
      match o with
      | None => scan_rows p fs argv r path0 s
      | Some name =>
          path <- c_sprintf 200 (v_tle_path p ++ 47 :: name) ;;
          f <- scan_file p fs argv true path s ;;
          match f with
          | Missing s => scan_rows p fs argv r path s
          | _ => Ok (f, path)
          end
      end
  end.

(* ------------------------------------------------------------------ *)
(** ** The time loop (sat_visibility.c:811-974) *)

(** Ghost record of what was done. *)
Inductive vevent :=
| Sample (t sep : b64) (lit : option bool)      (* one turn of the time loop; sunlit or not, when that was examined *)
| Data (nm : list Z) (g : geo) (u : sun) (s : sat).   (* the three objects of one reported event *)

(** Variables of the computations. *)
Record sky := mk_sky {
  k_calls : nat; k_lmst : b64; k_gmst : b64; k_tra : b64;      (* propagator calls so far; p.lmst, p.gmst, target_ra_rad *)
  k_pos : vec; k_obs : vec; k_sat : sat; k_sun : sun; k_geo : geo }.
(** Variables of the search. *)
Record srch := mk_srch {
  h_first : bool; h_started : bool; h_ended : bool;            (* is_t_start, sunlit_start_found, sunlit_end_found *)
  h_mjd_start : b64; h_mjd_end : b64; h_tmin : b64; h_minsep : b64;  (* mjd_sunlit_start/end, t_min_ang_dist, min_ang_sep *)
  h_found : Z; h_out : list Z; h_log : list vevent }.

Definition put_sat (s : sat) (k : sky) : sky :=
  mk_sky (k_calls k) (k_lmst k) (k_gmst k) (k_tra k) (k_pos k) (k_obs k) s (k_sun k) (k_geo k).
Definition put_sun (u : sun) (k : sky) : sky :=
  mk_sky (k_calls k) (k_lmst k) (k_gmst k) (k_tra k) (k_pos k) (k_obs k) (k_sat k) u (k_geo k).
Definition put_geo (g : geo) (k : sky) : sky :=
  mk_sky (k_calls k) (k_lmst k) (k_gmst k) (k_tra k) (k_pos k) (k_obs k) (k_sat k) (k_sun k) g.
Definition say (t : list Z) (h : srch) : srch :=
  mk_srch (h_first h) (h_started h) (h_ended h) (h_mjd_start h) (h_mjd_end h) (h_tmin h) (h_minsep h) (h_found h) (h_out h ++ t) (h_log h).
Definition mark (e : vevent) (h : srch) : srch :=
  mk_srch (h_first h) (h_started h) (h_ended h) (h_mjd_start h) (h_mjd_end h) (h_tmin h) (h_minsep h) (h_found h) (h_out h) (h_log h ++ [e]).

Section Time.
Context (L : lib) (p : vparams) (tle : tle_t).
Let deep : bool := l_deep L tle.

(** [t_since] in minutes, sat_visibility.c:858 *)
Definition minutes (t : b64) : b64 := fmul (fsub t (l_epoch L tle)) (of_int 1440).
(** p.delta_time / SEC_IN_DAY *)
Definition vstep : b64 := fdiv (of_int (v_delta_time p)) SEC_IN_DAY.

(** sat_visibility.c:852-866 and 879-883 (the same code at 998-1018 and 1034-1054): position and zenith distance at [t]. *)
Definition look (t : b64) (k : sky) : sky :=
  let '(lmst, gmst) := l_lmst L t in
  let tra := fdiv lmst RAD2HRS in
  let pos := l_propagate L (k_calls k) deep tle (minutes t) in
  let obs := l_observer L t in
  let '(ra, dec, d) := l_radec L obs pos in
  let sep := l_skysep L tra (fmul (v_lat p) DEG2RAD) ra dec in
  let s := k_sat k in
  mk_sky (S (k_calls k)) lmst gmst tra pos obs
    (mk_sat (sa_date s) (sa_mjd s) ra dec (sa_az s) (sa_alt s) (sa_parang s) (sa_speed s) sep d) (k_sun k) (k_geo k).

(** sat_visibility.c:514-535 *)
Definition pa_and_speed (t_since : b64) (k : sky) : sky :=
  let pos := l_propagate L (k_calls k) deep tle t_since in
  let '(ra1, dec1, _) := l_radec L (k_obs k) pos in
  let s := k_sat k in
  let speed := fdiv (fmul (l_skysep L (sa_ra s) (sa_dec s) ra1 dec1) (of_int 60)) (of_int (v_delta_time p)) in
  mk_sky (S (k_calls k)) (k_lmst k) (k_gmst k) (k_tra k) (k_pos k) (k_obs k)
    (mk_sat (sa_date s) (sa_mjd s) (sa_ra s) (sa_dec s) (sa_az s) (sa_alt s)
       (l_pa L (sa_ra s) (sa_dec s) ra1 dec1) speed (sa_sep s) (sa_dkm s)) (k_sun k) (k_geo k).

(** sat_visibility.c:930-934, 964-968, 985-989, 1023-1026, 1059-1062: date, [MJD,] horizontal and J2000 coordinates.  [mjd] is the
    argument of mjd2date; sat.cur_mjd becomes [cur]; precession is for [t]. *)
Definition dated (mjd cur t : b64) (k : sky) : res sky :=
  d <- date_of mjd ;;
  let s := k_sat k in
  let '(alt, az, _) := l_dechalat L (sa_dec s) (fsub (k_lmst k) (fmul (sa_ra s) RAD2HRS)) in
  let '(ra, dec) := l_precess L t (sa_ra s) (sa_dec s) in
  Ok (put_sat (mk_sat d cur ra dec az alt (sa_parang s) (sa_speed s) (sa_sep s) (sa_dkm s)) k).

(** One reported event: the three objects labelled geoloc_[nm], sun_[nm], sat_[nm]. *)
Definition event_out (nm : list Z) (mjd cur t : b64) (k : sky) (h : srch) : res (sky * srch) :=
  let h := say (vis_geo_json (bytes "geoloc_" ++ nm) (k_geo k) ++ vis_sun_json (bytes "sun_" ++ nm) (k_sun k)) h in
  k <- dated mjd cur t k ;;
  o <- vis_sat_json (bytes "sat_" ++ nm) (k_sat k) ;;
  Ok (k, mark (Data nm (k_geo k) (k_sun k) (k_sat k)) (say o h)).

Definition geolocated (k : sky) : sky := put_geo (l_geo L (k_pos k) (k_gmst k)) k.

Inductive went := Turn (t : b64) (k : sky) (h : srch) | Brk (t : b64) (k : sky) (h : srch) | Out (code : Z) (h : srch).

(** sat_visibility.c:942-970, the first visible sample; [t] is already the time of the next one. *)
Definition at_start (name desig : list Z) (t0 t : b64) (k : sky) (h : srch) : res went :=
  let h := mk_srch (h_first h) true (h_ended h) (fsub t JD_OFF) (h_mjd_end h) (h_tmin h) (h_minsep h) (h_found h) (h_out h) (h_log h) in
  desig <- (if v_single_i p then Ok desig else vis_desig (tle_intl_desig tle) desig) ;;
  let k := pa_and_speed (fadd (minutes t0) (fdiv (fmul (of_int (v_delta_time p)) (of_int 1440)) SEC_IN_DAY)) k in
  let h := say (vis_fields_json ++ q " 'satellite': {'name': '" ++ name ++ q "', 'intl_desig': '" ++ desig ++ q "', 'norad_n': " ++
                print_d 0 (norad_number tle) ++ q ", ") h in
  let m := fsub (fsub t JD_OFF) vstep in
  r <- event_out (bytes "start") m m t (geolocated k) h ;;
  let '(k, h) := r in
  Ok (Turn t k (mk_srch (h_first h) (h_started h) (h_ended h) (h_mjd_start h) (h_mjd_end h) (h_tmin h) (h_minsep h) (h_found h + 1) (h_out h) (h_log h))).

(** sat_visibility.c:925-936, the first sample in shadow after the start. *)
Definition at_shadow (t : b64) (k : sky) (h : srch) : res went :=
  let h := mk_srch (h_first h) (h_started h) true (h_mjd_start h) (fsub t JD_OFF) (h_tmin h) (h_minsep h) (h_found h) (h_out h) (h_log h) in
  let m := fsub (fsub t JD_OFF) vstep in
  r <- event_out (bytes "end") m m t (geolocated k) h ;;
  let '(k, h) := r in
  Ok (Brk t k h).

(** sat_visibility.c:850-973, one turn. *)
Definition vturn (argv : list (list Z)) (il : bool) (name desig : list Z) (t : b64) (k : sky) (h : srch) : res went :=
  let k := look t k in
  (* 868-877 *)
  let k := if v_altrng p then geolocated k else k in
  if v_altrng p && (flt (g_alt (k_geo k)) (v_alt_min p) || flt (v_alt_max p) (g_alt (k_geo k))) then
    r <- vis_quit argv il 1 2 (bytes "Satellite altitude out of requested range") (h_found h) (h_out h) ;;
    let '(code, out) := r in
    Ok (Out code (mk_srch (h_first h) (h_started h) (h_ended h) (h_mjd_start h) (h_mjd_end h) (h_tmin h) (h_minsep h) (h_found h) out (h_log h)))
  else
    (* 886-889 *)
    let k := if h_first h then pa_and_speed (minutes t) k else k in
    let sep := sa_sep (k_sat k) in
    let t' := fadd t vstep in
    (* 899-904 *)
    if flt (v_radius p) sep then
      let h := mark (Sample t sep None) (mk_srch false (h_started h) (h_ended h) (h_mjd_start h) (h_mjd_end h) (h_tmin h) (h_minsep h) (h_found h) (h_out h) (h_log h)) in
      if h_started h then Ok (Brk t' k h) else Ok (Turn t' k h)
    else
      (* 906-917 *)
      let k := put_sun (l_sun L t (k_lmst k) (k_gmst k) (k_tra k)) k in
      let lit := negb (l_blocked L (k_pos k) (l_sun_vec L t)) in
      let better := flt sep (h_minsep h) && lit in
      let h := mark (Sample t sep (Some lit))
                 (mk_srch false (h_started h) (h_ended h) (h_mjd_start h) (h_mjd_end h)
                    (if better then t else h_tmin h) (if better then sep else h_minsep h) (h_found h) (h_out h) (h_log h)) in
      (* 919-972 *)
      if negb lit && negb (h_started h) then Ok (Turn t' k h)
      else if negb lit && negb (h_ended h) then at_shadow t' k h
      else if h_started h then Ok (Turn t' k h)
      else at_start name desig t t' k h.

(** sat_visibility.c:849-974; [fuel] bounds the number of turns, [UB Stuck] means that it was used up. *)
Fixpoint vloop (fuel : nat) (argv : list (list Z)) (il : bool) (name desig : list Z) (last t : b64) (k : sky) (h : srch) : res went :=
  if fle t last then
    match fuel with
    | O => UB Stuck
    | S f =>
        w <- vturn argv il name desig t k h ;;
        match w with Turn t k h => vloop f argv il name desig last t k h | _ => Ok w end
    end
  else Ok (Brk t k h).

(** sat_visibility.c:838-846 *)
Fixpoint daytime (fuel : nat) (last t : b64) : res b64 :=
  if flt (l_sun_alt L t) (of_int 0) || flt last t then Ok t
  else match fuel with O => UB Stuck | S f => daytime f last (fadd t (lit 6456360425798343 9223372036854775808)) end.

(** sat_visibility.c:997-1027 and 1032-1063: an event computed afresh at [t]; sat.cur_mjd keeps its value. *)
Definition recomputed (nm : list Z) (mjd t : b64) (k : sky) (h : srch) : res (sky * srch) :=
  let k := geolocated (look t k) in
  let k := put_sun (l_sun L t (k_lmst k) (k_gmst k) (k_tra k)) k in
  event_out nm mjd (sa_mjd (k_sat k)) t k h.

(** sat_visibility.c:977-1079, after the time loop. *)
Definition vafter (argv : list (list Z)) (il : bool) (jd0 t : b64) (k : sky) (h : srch) : res srch :=
  let t := fsub t vstep in
  kh <- (if h_started h && negb (h_ended h) then
           let m := fsub t JD_OFF in
           let h := mk_srch (h_first h) (h_started h) (h_ended h) (h_mjd_start h) m (h_tmin h) (h_minsep h) (h_found h) (h_out h) (h_log h) in
           event_out (bytes "end") m m t (geolocated k) h
         else Ok (k, h)) ;;
  let '(k, h) := kh in
  kh <- (if h_started h then
           let mid := fadd (h_mjd_start h) (fdiv (fsub (h_mjd_end h) (h_mjd_start h)) (of_int 2)) in
           kh <- recomputed (bytes "mid") mid (fadd mid JD_OFF) k h ;;
           let '(k, h) := kh in
           recomputed (bytes "max") (fsub (h_tmin h) JD_OFF) (h_tmin h) k h
         else Ok (k, h)) ;;
  let '(k, h) := kh in
  let h :=
    if 0 <? h_found h then
      say (q "}, 'sunlit_duration_minutes': " ++
           print_f 0 2 (fmul (widen (narrow (fsub (h_mjd_end h) (h_mjd_start h)))) (of_int 1440)) ++ q ", ") h
    else
      let '(lmst, gmst) := l_lmst L jd0 in
      say (vis_sun_json (bytes "sun") (l_sun L jd0 lmst gmst (fdiv lmst RAD2HRS))) h in
  t <- vis_close argv il 0 [] (h_found h) ;;
  Ok (say t h).
End Time.

(* ------------------------------------------------------------------ *)
(** ** main *)

Record vfinal := mk_vfinal { vf_code : Z; vf_out : list Z; vf_log : list vevent }.

(** Everything the run depends on apart from the arguments; buffers and globals before use. *)
Record venv := mk_venv {
  n_lib : lib; n_fs : list Z -> option (list Z); n_tle0 : tle_t; n_sky0 : sky; n_line1 : list Z; n_line2 : list Z; n_name : list Z }.

Definition search0 (out : list Z) : srch :=
  mk_srch true false false (of_int 0) (of_int 0) (of_int 0) (of_int 181) 0 out [].

(** sat_visibility.c:811-1082 with the satellite found. *)
Definition vis_found (e : venv) (fuel : nat) (argv : list (list Z)) (il : bool) (p : vparams) (file : list Z) (s : fst_) : res vfinal :=
  let L := n_lib e in
  let jd0 := fadd JD_OFF (v_mjd0 p) in
  let jd1 := fadd JD_OFF (v_mjd1 p) in
  let '(alt, az, parang) := l_dechalat L (fmul (v_lat p) DEG2RAD) (of_int 0) in
  let h := search0 (vis_open_json ++ geofieldsdesc_json ++ vis_params_json file p az alt parang) in
  name <- c_text (f_name s) ;;
  t <- (if v_skip p then daytime L fuel jd1 jd0 else Ok jd0) ;;
  w <- vloop L p (f_tle s) fuel argv il name (f_desig s) jd1 t (n_sky0 e) h ;;
  match w with
  | Out code h => Ok (mk_vfinal code (h_out h) (h_log h))
  | Brk t k h | Turn t k h =>
      h <- vafter L p (f_tle s) argv il jd0 t k h ;;
      Ok (mk_vfinal 0 (h_out h) (h_log h))
  end.

(** sat_visibility.c:691-808.  [f_open] false at 801 means fclose( NULL). *)
Definition visibility (e : venv) (fuel : nat) (argv : list (list Z)) (p : vparams) : res vfinal :=
  let iarg := file_arg argv in
  match nth_error argv iarg with
  | None => UB NullDeref
  | Some arg =>
      let s0 := mk_f (n_line1 e) (n_line2 e) (n_name e) (bytes "none") (n_tle0 e) false in
      let il := match arg with 64 :: _ => true | _ => false end in
      let file := if il then tl arg else arg in
      let argv := if il then set_nth iarg file argv else argv in
      rows <- (if il then path <- c_sprintf 200 (v_tle_path p ++ 47 :: file) ;; Ok (Some (path, n_fs e path)) else Ok None) ;;
      match rows with
      | Some (path, None) =>
          r <- vis_quit argv il 2 2 (bytes "Could not open input file " ++ path) 0 vis_open_json ;;
          Ok (mk_vfinal (fst r) (snd r) [])
      | _ =>
          if negb (v_single_n p) && negb (v_single_i p) then
            r <- vis_quit argv il 2 2 (bytes "Need to input a NORAD ID or an international designator.") 0 vis_open_json ;;
            Ok (mk_vfinal (fst r) (snd r) [])
          else
            fp <- (match rows with
                   | Some (_, Some contents) => scan_rows p (n_fs e) argv (fgets_seq 63 contents) [] s0
                   | _ =>
                       path <- c_sprintf 200 (if existsb (Z.eqb 47) file then file else v_tle_path p ++ 47 :: file) ;;
                       f <- scan_file p (n_fs e) argv false path s0 ;;
                       Ok (f, path)
                   end) ;;
            let '(f, path) := fp in
            match f with
            | Quit code out => Ok (mk_vfinal code out [])
            | Missing s =>
                if f_open s then
                  r <- vis_quit argv il 1 1 (bytes "Satellite not found in " ++ path) 0 vis_open_json ;;
                  Ok (mk_vfinal (fst r) (snd r) [])
                else UB NullDeref
            | Found s => vis_found e fuel argv il p file s
            end
      end
  end.

(** The whole program. *)
Definition sat_visibility (r : reader) (e : venv) (fuel : nat) (argv : list (list Z)) : res vfinal :=
  s <- vis_command_line r fuel argv ;;
  match s with
  | Done p => visibility e fuel argv p
  | Exit code out => Ok (mk_vfinal code out [])
  end.
