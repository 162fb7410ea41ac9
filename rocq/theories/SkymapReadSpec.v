(** The document that sat_skymap is to print, as a reader of JSON finds it. *)
From Coq Require Import String Ascii ZArith List Bool Reals.
From Flocq Require Import Core IEEE754.BinarySingleNaN.
From Verif Require Import CLib FloatModel JsonSpec JsonDataSpec TleModel SkymapModel SkymapSpec.
Import ListNotations.
Open Scope Z_scope.

Definition key (s : string) : list Z := bytes s.
Definition texts (l : list string) : tree := Arr (map (fun s => Str (bytes s)) l).
(** A position above the ground: degrees, and km. *)
Definition place (n : num) : tree :=
  Obj [(key "lat", Real 3 (n_lat n)); (key "lon", Real 3 (n_lon n)); (key "alt", Real 2 (n_alt n)); (key "theta", Real 3 (n_theta n))].
(** A satellite: the ten data are those named in [columns]; the position angle without its fraction. *)
Definition satellite (geo : bool) (i : item) : tree :=
  let n := i_num i in
  Obj ([(key "name", Str (i_name i)); (key "intl_desig", Str (i_desig i)); (key "norad_n", Int (norad_number (i_tle i)))] ++
       (if geo then [(key "geoloc", place n)] else []) ++
       [(key "data", Arr [Real 4 (n_ra n); Real 4 (n_dec n); Real 4 (n_ra1 n); Real 4 (n_dec1 n); Real 2 (n_dist n); Real 4 (n_sep n);
                          Int (Ztrunc (B2R (n_pa n))); Real 3 (n_speed n); Int (if n_sunlit n then 1 else 0); Int (n_id n)])]).
Definition columns : tree :=
  Obj [(key "name", texts ["RA_start"; "Dec_start"; "RA_end"; "Dec_end"; "Distance"; "Separation"; "PA"; "Speed"; "sunlit"; "HPXID_8"]%string);
       (key "desc", Any); (key "type", Any); (key "unit", texts ["deg"; "deg"; "deg"; "deg"; "km"; "deg"; "deg"; "arcmin/s"; ""; ""]%string)].
(** The request as understood: place, centre of the region (the zenith unless the user gave one), radius, instant. *)
Definition request (p : params) (h : hdr) (file : list Z) : tree :=
  let chosen := p_in_region p && negb (p_georef p) && negb (p_single_i p) && negb (p_single_n p) in
  Obj [(key "tle_file", Str file);
       (key "location", Obj [(key "lat", Real 4 (p_lat p)); (key "lon", Real 4 (p_lon p)); (key "alt", Real 1 (p_ht p))]);
       (key "region", Obj [(key "ra", Real 4 (if chosen then p_ra p else fmul (h_lmst h) (of_int 15)));
                           (key "dec", Real 4 (if chosen then p_de p else p_lat p)); (key "radius", Real 4 (p_radius p));
                           (key "lmst", Real 4 (h_lmst h)); (key "az", Real 4 (h_az h)); (key "alt", Real 4 (h_alt h)); (key "parang", Real 3 (h_parang h))]);
       (key "mjd", Real 5 (p_mjd p)); (key "epoch_UTC", Str (p_date p)); (key "gmst", Real 4 (h_gmst h));
       (key "delta_time_s", Int (p_delta_time p)); (key "max_sats", Int (p_max_sats p)); (key "notes", Any)].
Definition sun (h : hdr) : tree :=
  Obj [(key "ra", Real 3 (h_sun_ra h)); (key "dec", Real 3 (h_sun_dec h)); (key "az", Real 3 (h_sun_az h)); (key "alt", Real 3 (h_sun_alt h));
       (key "lon", Real 3 (h_sun_lon h)); (key "parang", Real 3 (h_sun_parang h)); (key "separation_deg", Real 3 (h_sun_sep h))].
Definition document (p : params) (h : hdr) (file msg : list Z) (items : list item) (found listed lit : Z) : tree :=
  let geo := p_geoloc p || p_single_i p || p_single_n p in
  Obj ([(key "swinfo", Any)] ++ (if geo then [(key "geoloc_fields", Any)] else []) ++
       [(key "input_params", request p h file); (key "sun", sun h)] ++
       (if p_info_only p then [] else
        match items with [] => [] | _ => [(key "data_fields", columns); (key "satellites", Arr (map (satellite geo) items))] end) ++
       [(key "run_command", Any); (key "status", Int 0); (key "errmsg", Str msg); (key "n_sats_found", Int found); (key "n_sats", Int listed);
        (key "n_sunlit_sats", Int lit)]).
