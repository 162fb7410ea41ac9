(** Model of the main program sat_skymap after option parsing (sat_skymap.c:530-945; option parsing is in CliModel).

    Modelled: opening of the list and element files, line reading into the fixed buffers, the record loop with all its
    filters and jumps, the duplicate list with its allocation, the counters, and every byte written to standard output.
    Not modelled: the floating-point computations of positions.  Their results enter as the record [num], produced by an
    arbitrary function of the number of satellites processed so far and the element set (so also of anything the
    computation keeps between calls); the comparisons made with these results are modelled.
    malloc and realloc are taken to succeed (lines 583-587 and 753-757 not modelled). *)
From Coq Require Import String Ascii ZArith List Bool.
From Flocq Require Import IEEE754.BinarySingleNaN.
From Verif Require Import CLib FloatModel TleModel IoModel.
Import ListNotations.
Open Scope Z_scope.

(** sat_skymap_def.h:26-62 [Params] (az, alt, parang, gmst, lmst are in [hdr]); strings as their text. *)
Record params := mk_params {
  p_date : list Z; p_intl_desig : list Z; p_satname : list Z;
  p_lat : b64; p_lon : b64; p_ht : b64; p_ra : b64; p_de : b64; p_radius : b64;
  p_mjd : b64; p_alt_min : b64; p_alt_max : b64;
  p_delta_time : Z; p_max_sats : Z; p_norad_n : Z;
  p_haversine : bool; p_info_only : bool; p_sunlit_only : bool;
  p_single_i : bool; p_single_n : bool; p_satname_filter : bool;
  p_geoloc : bool; p_georef : bool; p_altrng : bool; p_deftledir : bool;
  p_in_region : bool; p_in_geopos : bool;      (* locals in_region, in_geopos of main *)
  p_tle_path : list Z                          (* local tle_path[128] *)
}.

(** Values computed once before the loop (sat_skymap.c:600, 621-656). *)
Record hdr := mk_hdr {
  h_lmst : b64; h_gmst : b64; h_az : b64; h_alt : b64; h_parang : b64;
  h_sun_ra : b64; h_sun_dec : b64; h_sun_az : b64; h_sun_alt : b64; h_sun_lon : b64; h_sun_parang : b64; h_sun_sep : b64 }.

(** Values computed per satellite (sat_skymap.c:763-882). *)
Record num := mk_num {
  n_code1 : Z; n_code2 : Z;          (* return values of the two propagator calls, 775/778 and 812/814 *)
  n_nan : bool;                      (* isnan(ra) || isnan(dec), 783 *)
  n_lat : b64; n_lon : b64; n_alt : b64; n_theta : b64;   (* geo, 793 *)
  n_sep : b64; n_sep1 : b64;         (* ang_sep, ang_sep1, 819-847 *)
  n_sunlit : bool;                   (* 857 *)
  n_ra : b64; n_dec : b64; n_ra1 : b64; n_dec1 : b64; n_dist : b64;   (* degrees and km as printed, 899-900 *)
  n_pa : b64; n_speed : b64; n_id : Z;                                (* 901 *)
  n_theta_ok : bool }.               (* ang2pix_nest accepts theta, 882 and chealpix.c:425 *)

(** What the program did, in order (ghost record; no effect on the run). *)
Inductive event :=
| EvOpen (path : list Z)                               (* fopen of an element file, 696 *)
| EvExam (t : tle_t)                                   (* parse_elements returned 0, 716 *)
| EvDup (code : list Z)                                (* skipped as already met, 748 *)
| EvNew (code : list Z) (t : tle_t) (n : num)          (* entered in the list of met satellites, 759-761 *)
| EvList (name desig : list Z) (t : tle_t) (n : num).  (* counted and (unless -I) printed, 884-904 *)

Record st := mk_st {
  s_line1 : list Z; s_line2 : list Z; s_name : list Z;   (* line1[100], line2[100], sat_name[25] *)
  s_sfound : bool;                                       (* single_sat_found *)
  s_seen : list Z; s_use : Z; s_cur : Z;                 (* text in sbuff, use_bufflen, cur_bufflen (= allocated bytes) *)
  s_found : Z; s_sunlit : Z;                             (* n_sats_found, n_sunlit_sats *)
  s_out : list Z; s_log : list event }.

Definition set_lines (l1 l2 : list Z) (s : st) : st :=
  mk_st l1 l2 (s_name s) (s_sfound s) (s_seen s) (s_use s) (s_cur s) (s_found s) (s_sunlit s) (s_out s) (s_log s).
Definition set_name (n : list Z) (s : st) : st :=
  mk_st (s_line1 s) (s_line2 s) n (s_sfound s) (s_seen s) (s_use s) (s_cur s) (s_found s) (s_sunlit s) (s_out s) (s_log s).
Definition set_sfound (b : bool) (s : st) : st :=
  mk_st (s_line1 s) (s_line2 s) (s_name s) b (s_seen s) (s_use s) (s_cur s) (s_found s) (s_sunlit s) (s_out s) (s_log s).
Definition set_seen (t : list Z) (u c : Z) (s : st) : st :=
  mk_st (s_line1 s) (s_line2 s) (s_name s) (s_sfound s) t u c (s_found s) (s_sunlit s) (s_out s) (s_log s).
Definition set_counts (f k : Z) (s : st) : st :=
  mk_st (s_line1 s) (s_line2 s) (s_name s) (s_sfound s) (s_seen s) (s_use s) (s_cur s) f k (s_out s) (s_log s).
Definition print (t : list Z) (s : st) : st :=
  mk_st (s_line1 s) (s_line2 s) (s_name s) (s_sfound s) (s_seen s) (s_use s) (s_cur s) (s_found s) (s_sunlit s) (s_out s ++ t) (s_log s).
Definition note (e : event) (s : st) : st :=
  mk_st (s_line1 s) (s_line2 s) (s_name s) (s_sfound s) (s_seen s) (s_use s) (s_cur s) (s_found s) (s_sunlit s) (s_out s) (s_log s ++ [e]).

(** Everything the run depends on. *)
Record env := mk_env {
  e_argv : list (list Z);                 (* argv[0..argc-1] as texts *)
  e_p : params;                           (* after option parsing *)
  e_h : hdr;
  e_num : nat -> tle_t -> num;            (* arbitrary numerical results *)
  e_fs : list Z -> option (list Z);       (* contents of the file opened under a path; None = fopen fails *)
  e_tle0 : tle_t                          (* indeterminate initial contents of [tle], 714 *)
}.

(* ------------------------------------------------------------------ *)
(** ** Output texts *)
Definition quote : Z := 34.
Definition progname : list Z := bytes "sat_skymap".

(** [q s] is the literal with ' standing for the double quote. *)
Definition q (s : string) : list Z := map (fun c => if c =? 39 then 34 else c) (bytes s).

(** sat_skymap.c:188-193 *)
Definition open_json : list Z :=
  q "{'swinfo': {'name': 'sat_skymap', 'author': 'L. Nicastro @ INAF-OAS', 'date': '2024-05-06', 'version': '0.3f'}, ".

(** sat_skymap.c:195-201 *)
Definition params_json (file : list Z) (p : params) (h : hdr) (ra de : b64) : list Z :=
  q "'input_params': {'tle_file': '" ++ file ++ q "', 'location': {'lat':" ++ print_f 8 4 (p_lat p) ++
  q ", 'lon':" ++ print_f 9 4 (p_lon p) ++ q ", 'alt':" ++ print_f 8 1 (p_ht p) ++
  q "}, 'region': {'ra':" ++ print_f 9 4 ra ++ q ", 'dec':" ++ print_f 8 4 de ++
  q ", 'radius':" ++ print_f 8 4 (p_radius p) ++ q ", 'lmst':" ++ print_f 8 4 (h_lmst h) ++
  q ", 'az':" ++ print_f 9 4 (h_az h) ++ q ", 'alt':" ++ print_f 8 4 (h_alt h) ++
  q ", 'parang':" ++ print_f 8 3 (h_parang h) ++ q "}, 'mjd': " ++ print_f 11 5 (p_mjd p) ++
  q ", 'epoch_UTC': '" ++ p_date p ++ q "', 'gmst':" ++ print_f 8 4 (h_gmst h) ++
  q ", 'delta_time_s': " ++ print_d 0 (p_delta_time p) ++ q ", 'max_sats': " ++ print_d 0 (p_max_sats p) ++
  q ", 'notes': 'All coordinates and radius in degrees. GMST, LMST in hrs.'}, ".

(** sat_skymap.c:203-207 *)
Definition sun_json (h : hdr) : list Z :=
  q "'sun': {'ra':" ++ print_f 7 3 (h_sun_ra h) ++ q ", 'dec':" ++ print_f 7 3 (h_sun_dec h) ++
  q ", 'az':" ++ print_f 8 3 (h_sun_az h) ++ q ", 'alt':" ++ print_f 7 3 (h_sun_alt h) ++
  q ", 'lon':" ++ print_f 8 3 (h_sun_lon h) ++ q ", 'parang':" ++ print_f 8 3 (h_sun_parang h) ++
  q ", 'separation_deg':" ++ print_f 7 3 (h_sun_sep h) ++ q "}, ".

(** sat_skymap.c:209-215 *)
Definition fieldsdesc_json : list Z :=
  q "'data_fields': {'name': ['RA_start', 'Dec_start', 'RA_end', 'Dec_end', 'Distance', 'Separation', 'PA', 'Speed', 'sunlit', 'HPXID_8'], " ++
  q "'desc': ['RA T_ini', 'Dec T_ini', 'RA T_end', 'Dec T_end', 'distance to sat.', 'angular separation', 'position angle', 'apparent angular rate of motion', 'sunlit sat. flag', 'HEALPix order 8 nested schema ID'], " ++
  q "'type': ['double', 'double', 'double', 'double', 'double', 'float', 'float', 'float', 'int', 'int'], " ++
  q "'unit': ['deg', 'deg', 'deg', 'deg', 'km', 'deg', 'deg', 'arcmin/s', '', '']},".

(** sat_skymap.c:217-225 *)
Definition geofieldsdesc_json : list Z :=
  q "'geoloc_fields': {'lat': {'desc': 'Geodetic Latitude', 'unit': 'deg'}, 'lon': {'desc': 'Geodetic Longitude', 'unit': 'deg'}, " ++
  q "'alt': {'desc': 'Geodetic Altitude', 'unit': 'km'}, 'theta': {'desc': 'Equatorial angle (Lon + GMST = RA)', 'unit': 'deg'}}, ".

(** sat_skymap.c:227-229 *)
Definition satlatlon_json (n : num) : list Z :=
  q "'geoloc': {'lat':" ++ print_f 7 3 (n_lat n) ++ q ", 'lon':" ++ print_f 7 3 (n_lon n) ++
  q ", 'alt':" ++ print_f 9 2 (n_alt n) ++ q ", 'theta':" ++ print_f 8 3 (n_theta n) ++ q "}, ".

(** sat_skymap.c:892-901.  The conversion [(int)(...)] of the position angle is undefined out of range. *)
Definition entry_json (geoloc : bool) (name desig : list Z) (t : tle_t) (n : num) : res (list Z) :=
  pa <- to_int (n_pa n) ;;
  Ok (q "{'name': '" ++ name ++ q "', 'intl_desig': '" ++ desig ++ q "', 'norad_n': " ++ print_d 0 (norad_number t) ++ q ", " ++
      (if geoloc then satlatlon_json n else []) ++
      q "'data': [" ++ print_f 8 4 (n_ra n) ++ q "," ++ print_f 8 4 (n_dec n) ++ q "," ++ print_f 8 4 (n_ra1 n) ++ q "," ++
      print_f 8 4 (n_dec1 n) ++ q "," ++ print_f 9 2 (n_dist n) ++ q "," ++ print_f 6 4 (n_sep n) ++ q "," ++
      print_d 3 pa ++ q "," ++ print_f 6 3 (n_speed n) ++ q "," ++ print_d 0 (if n_sunlit n then 1 else 0) ++ q "," ++
      print_d 0 (n_id n) ++ q "]}").

(** sat_skymap.c:878: the apparent speed, from the separation of the two positions (degrees) and delta_time. *)
Definition speed_of (sep : b64) (delta_time : Z) : b64 := fdiv (fmul sep (of_int 60)) (of_int delta_time).

(** sat_skymap.c:231-244 *)
Definition close_stat (argv : list (list Z)) (input_list : bool) (status : Z) (errmsg : list Z) (found nsats sunlit : Z) : res (list Z) :=
  first <- (if input_list then match nth_error argv 1 with Some a => Ok (bytes " @" ++ a) | None => UB NullDeref end else Ok []) ;;
  Ok (q " 'run_command': '" ++ progname ++ first ++
      concat (map (fun a => 32 :: a) (skipn (if input_list then 2 else 1) argv)) ++
      q "', 'status': " ++ print_d 0 status ++ q ", 'errmsg': '" ++ errmsg ++ q "', 'n_sats_found': " ++ print_d 0 found ++
      q ", 'n_sats': " ++ print_d 0 nsats ++ q ", 'n_sunlit_sats': " ++ print_d 0 sunlit ++ q "}" ++ [10]).

(* ------------------------------------------------------------------ *)
(** ** One record *)

(** Where control goes. *)
Inductive flow :=
| Next (s : st)                  (* end of the loop body reached *)
| Continue (s : st)              (* [continue] *)
| EndChecking (s : st)           (* [goto end_checking] *)
| Exited (code : Z) (s : st).    (* exit( code), all output made *)

(** Error exits in the loop (n_sats is still 0). *)
Definition exit_with (e : env) (argv : list (list Z)) (il : bool) (code status : Z) (msg : list Z) (s : st) : res flow :=
  m <- c_sprintf 128 msg ;;
  t <- close_stat argv il status m (s_found s) 0 (s_sunlit s) ;;
  Ok (Exited code (print t s)).

(** sat_skymap.c:729-732 and 863-866: text of intl_desig[12].  snprintf( ..., 10, ...) keeps 9 characters. *)
Definition desig_text (d : list Z) : res (list Z) :=
  c0 <- rd d 0 ;;
  if c0 =? 32 then Ok (bytes "none")
  else
    v <- c_atoi (d ++ [0]) ;;
    Ok (firstn 9 ((if 57000 <? v then bytes "19" else bytes "20") ++ firstn 2 d ++ [45] ++ skipn 2 d)).

(** sat_skymap.c:850-852 and 796-798 *)
Definition alt_rejects (p : params) (n : num) : bool :=
  p_altrng p && (flt (n_alt n) (p_alt_min p) || flt (p_alt_max p) (n_alt n)).
Definition single_sat (p : params) : bool := p_single_n p || p_single_i p.
Definition selected (p : params) (n : num) : bool :=
  single_sat p || p_satname_filter p || fle (n_sep n) (p_radius p) || fle (n_sep1 n) (p_radius p).

Definition is_new (e : event) : bool := match e with EvNew _ _ _ => true | _ => false end.
(** Number of satellites processed so far. *)
Definition processed (s : st) : nat := length (filter is_new (s_log s)).

(** sat_skymap.c:850-913 for a satellite that was propagated. *)
Definition report (e : env) (t : tle_t) (n : num) (desig : list Z) (s : st) : res flow :=
  let p := e_p e in
  if selected p n then
    (* 853: line1[16] = 0 *)
    let s := set_lines (firstn 16 (s_line1 s) ++ 0 :: skipn 17 (s_line1 s)) (s_line2 s) s in
    if p_sunlit_only p && negb (n_sunlit n) then Ok (Continue s)
    else
      desig <- (if p_single_i p then Ok desig else desig_text (tle_intl_desig t)) ;;
      (* 882: UTIL_ASSERT of chealpix.c:425, util_fail_ (41-46) writes to stderr and exits *)
      if negb (n_theta_ok n) then Ok (Exited 1 s)
      else
      name <- c_text (s_name s) ;;
      s <- (if p_info_only p then Ok s
            else en <- entry_json (p_geoloc p || single_sat p) name desig t n ;;
                 Ok (print ((if 0 <? s_found s then bytes ", " else fieldsdesc_json ++ q " 'satellites': [") ++ en) s)) ;;
      let s := note (EvList name desig t n) s in
      let s := set_counts (s_found s + 1) (s_sunlit s + (if n_sunlit n then 1 else 0)) s in
      if s_sfound s || (s_found s =? p_max_sats p) then Ok (EndChecking s) else Ok (Next s)
  else Ok (Next s).

(** sat_skymap.c:723-739: [None] = [continue]; otherwise the new single_sat_found and the text of intl_desig. *)
Definition selection (p : params) (t : tle_t) (code name : list Z) (sfound : bool) : res (option (bool * list Z)) :=
  if p_single_n p then
    v <- c_strtol (code ++ [0]) ;;
    Ok (Some (if v =? p_norad_n p then true else sfound, bytes "none"))
  else if p_single_i p then
    d <- desig_text (tle_intl_desig t) ;;
    b <- c_memeq (firstn 12 (d ++ repeat 0 12)) (firstn 12 (p_intl_desig p ++ repeat 0 12)) (length (p_intl_desig p)) ;;
    Ok (Some (if b then true else sfound, d))
  else if p_satname_filter p then
    b <- c_memeq name (firstn 24 (p_satname p ++ repeat 0 24)) (length (p_satname p)) ;;
    Ok (if b then Some (sfound, bytes "none") else None)
  else Ok (Some (sfound, bytes "none")).

(** sat_skymap.c:717-913: body of [if ( !parse_elements(...) )]. *)
Definition tle_found (e : env) (argv : list (list Z)) (il : bool) (t : tle_t) (s : st) : res flow :=
  let p := e_p e in
  (* 718-719 *)
  code <- strncpy_bytes (adv (s_line1 s) 2) 5 ;;
  code <- c_text (code ++ [0]) ;;
  (* 723-739 *)
  sel <- selection p t code (s_name s) (s_sfound s) ;;
  match sel with
  | None => Ok (Continue s)
  | Some (sf, desig) =>
      let s := set_sfound sf s in
      (* 742-743 *)
      if single_sat p && negb sf then Ok (Continue s)
      else
        (* 745-748 *)
        let key := code ++ [44] in
        if strstrb (s_seen s) key then Ok (Continue (note (EvDup code) s))
        else
          (* 750-760 *)
          let cur := if s_cur s <=? s_use s then s_cur s + 10000 else s_cur s in
          if cur <? Z.of_nat (length (s_seen s ++ key)) + 1 then UB OutOfBounds
          else
            let n := e_num e (processed s) t in
            let s := note (EvNew code t n) (set_seen (s_seen s ++ key) (s_use s + 6) cur s) in
            (* 783-787: printed with status 2, exit code 1 *)
            if n_nan n then exit_with e argv il 1 2 (bytes "Could not decode TLE data") s
            else if alt_rejects p n then Ok (Continue s)
            else report e t n desig s
  end.

(** sat_skymap.c:917-920 and 709-710 *)
Definition take_name (l s_nm : list Z) : res (list Z) := n <- c_strncpy s_nm l 23 ;; trimend n.

(** sat_skymap.c:712-921: one pass of the loop on the line [chunk] just read into line2. *)
Definition pass (e : env) (argv : list (list Z)) (il : bool) (chunk : list Z) (s : st) : res flow :=
  l2 <- c_store (s_line2 s) chunk ;;
  let s := set_lines (s_line1 s) l2 s in
  r <- parse_elements (s_line1 s) l2 (e_tle0 e) ;;
  let (code, t) := r in
  f <- (if code =? 0 then tle_found e argv il t (note (EvExam t) s) else Ok (Next s)) ;;
  match f with
  | Next s =>
      (* 916-920 *)
      t2 <- c_text (s_line2 s) ;;
      l1 <- c_store (s_line1 s) t2 ;;
      let s := set_lines l1 (s_line2 s) s in
      c <- rd (s_line2 s) 0 ;;
      if negb (c =? 49) && negb (c =? 50) then
        n <- take_name (s_line2 s) (s_name s) ;; Ok (Next (set_name n s))
      else Ok (Next s)
  | _ => Ok f
  end.

Fixpoint passes (e : env) (argv : list (list Z)) (il : bool) (chunks : list (list Z)) (s : st) : res flow :=
  match chunks with
  | [] => Ok (Next s)
  | c :: r =>
      f <- pass e argv il c s ;;
      match f with
      | Next s => passes e argv il r s
      | Continue s => passes e argv il r s
      | _ => Ok f
      end
  end.

(** sat_skymap.c:696-923: one element file. *)
Definition one_file (e : env) (argv : list (list Z)) (il : bool) (path : list Z) (s : st) : res flow :=
  let s := note (EvOpen path) s in
  match e_fs e path with
  | None => exit_with e argv il 2 2 (bytes "Could not open input file " ++ path) s
  | Some contents =>
      match fgets_seq 99 contents with
      | [] => exit_with e argv il (-2) (-2) (bytes "Could not read first TLE line from file " ++ path) s
      | first :: rest =>
          l1 <- c_store (s_line1 s) first ;;
          let s := set_lines l1 (s_line2 s) s in
          n <- take_name l1 (s_name s) ;;
          passes e argv il rest (set_name n s)
      end
  end.

(** sat_skymap.c:683-692: what a row of the list file names; [None] = skipped. *)
Definition row_name (row : list Z) : res (option (list Z)) :=
  b <- c_store (repeat 0 64) row ;;
  c0 <- rd b 0 ;;
  if c0 =? 35 then Ok None
  else
    t <- c_text b ;;
    match rev t with
    | [] => UB OutOfBounds                         (* reads row[-1] *)
    | last :: r =>
        let t := if last <? 32 then rev r else t in
        if (length t =? 0)%nat then Ok None else Ok (Some t)
    end.

(** sat_skymap.c:671-924 with an input list. *)
Fixpoint rows (e : env) (argv : list (list Z)) (lines : list (list Z)) (s : st) : res flow :=
  match lines with
  | [] => Ok (Next s)
  | row :: r =>
      o <- row_name row ;;
      match o with
      | None => rows e argv r s
      | Some name =>
          path <- c_sprintf 200 (p_tle_path (e_p e) ++ 47 :: name) ;;
          f <- one_file e argv true path s ;;
          match f with
          | Next s => rows e argv r s
          | Continue s => rows e argv r s
          | _ => Ok f
          end
      end
  end.

(** Final outcome of the program. *)
Record final := mk_final { f_code : Z; f_out : list Z; f_log : list event; f_found : Z; f_nsats : Z; f_nsunlit : Z }.

(** sat_skymap.c:927-944 *)
Definition finish (e : env) (argv : list (list Z)) (il : bool) (f : flow) : res final :=
  match f with
  | Exited c s => Ok (mk_final c (s_out s) (s_log s) (s_found s) 0 (s_sunlit s))
  | Next s | Continue s | EndChecking s =>
      let p := e_p e in
      let nsats := if s_sfound s then 1 else s_found s in
      let closing := if negb (p_info_only p) && (0 <? s_found s) then bytes "]," else [] in
      let msg := if single_sat p && negb (s_sfound s) then bytes "Requested satellite not found in TLE file" else [] in
      t <- close_stat argv il 0 msg (s_found s) nsats (s_sunlit s) ;;
      Ok (mk_final 0 (s_out s ++ closing ++ t) (s_log s) (s_found s) nsats (s_sunlit s))
  end.

(** Buffers before the loop: indeterminate contents, given as arguments. *)
Definition start (l1 l2 name : list Z) (out : list Z) : st := mk_st l1 l2 name false [] 0 70000 0 0 out [].

(** sat_skymap.c:555-558: the argument that names the file. *)
Definition file_arg (argv : list (list Z)) : nat :=
  match nth_error argv 1 with Some (45 :: _) => (length argv - 1)%nat | _ => 1%nat end.

(** sat_skymap.c:563 [++argv[iarg]]: that element of argv now points past the '@'. *)
Definition set_nth (k : nat) (x : list Z) (l : list (list Z)) : list (list Z) := firstn k l ++ x :: skipn (S k) l.

(** sat_skymap.c:617-665: printed before the loop. *)
Definition preamble (e : env) (file : list Z) : list Z :=
  let p := e_p e in let h := e_h e in
  let zenith := p_georef p || single_sat p || negb (p_in_region p) in
  let ra := if zenith then fmul (h_lmst h) (of_int 15) else p_ra p in
  let de := if zenith then p_lat p else p_de p in
  (if p_geoloc p || single_sat p then geofieldsdesc_json else []) ++ params_json file p h ra de ++ sun_json h.

(** sat_skymap.c:530-945 for [argc >= 2]; [l1], [l2], [name] are the indeterminate buffers.
    When no location was given (536-539) the usage text is printed instead: not modelled here, see CliModel. *)
Definition DEF_TLEDIR : list Z := bytes "/usr/local/TLErepo".
Definition with_path (e : env) : env :=
  let p := e_p e in
  mk_env (e_argv e)
    (mk_params (p_date p) (p_intl_desig p) (p_satname p) (p_lat p) (p_lon p) (p_ht p) (p_ra p) (p_de p) (p_radius p)
       (p_mjd p) (p_alt_min p) (p_alt_max p) (p_delta_time p) (p_max_sats p) (p_norad_n p)
       (p_haversine p) (p_info_only p) (p_sunlit_only p) (p_single_i p) (p_single_n p) (p_satname_filter p)
       (p_geoloc p) (p_georef p) (p_altrng p) (p_deftledir p) (p_in_region p) (p_in_geopos p)
       (if p_deftledir p then DEF_TLEDIR else p_tle_path p))
    (e_h e) (e_num e) (e_fs e) (e_tle0 e).

Definition skymap (e0 : env) (l1 l2 name : list Z) : res final :=
  let e := with_path e0 in
  let p := e_p e in
  let iarg := file_arg (e_argv e) in
  match nth_error (e_argv e) iarg with
  | None => UB NullDeref
  | Some arg =>
      match arg with
      | 64 :: list_name =>
          let argv := set_nth iarg list_name (e_argv e) in
          path <- c_sprintf 200 (p_tle_path p ++ 47 :: list_name) ;;
          match e_fs e path with
          | None =>
              f <- exit_with e argv true 2 2 (bytes "Could not open input file " ++ path) (start l1 l2 name open_json) ;;
              finish e argv true f
          | Some contents =>
              let s := start l1 l2 name (open_json ++ preamble e list_name) in
              f <- rows e argv (fgets_seq 63 contents) s ;;
              finish e argv true f
          end
      | _ =>
          let s := start l1 l2 name (open_json ++ preamble e arg) in
          path <- c_sprintf 200 (if existsb (Z.eqb 47) arg then arg else p_tle_path p ++ 47 :: arg) ;;
          f <- one_file e (e_argv e) false path s ;;
          finish e (e_argv e) false f
      end
  end.
