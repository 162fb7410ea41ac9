(** The document that sat_visibility is to print, as a reader of JSON finds it. *)
From Coq Require Import String Ascii ZArith List Bool Reals.
From Flocq Require Import Core IEEE754.BinarySingleNaN.
From Verif Require Import CLib FloatModel JsonSpec JsonDataSpec TleModel SkymapModel VisCliModel VisModel VisSpec.
Import ListNotations.
Open Scope Z_scope.

Definition named_key (s : string) : list Z := bytes s.
(** The request as understood: place, zenith (azimuth, altitude and parallactic angle of its declination at hour angle 0), radius, range of
    time.  [ra], [lmst] and [gmst] belong to the zenith at the begin of the range. *)
Definition vrequest (L : lib) (p : vparams) (file : list Z) (ra lmst gmst : b64) : tree :=
  let '(alt, az, parang) := l_dechalat L (fmul (v_lat p) DEG2RAD) (of_int 0) in
  Obj [(named_key "tle_file", Str file);
       (named_key "location", Obj [(named_key "lat", Real 4 (v_lat p)); (named_key "lon", Real 4 (v_lon p)); (named_key "alt", Real 1 (v_ht p))]);
       (named_key "region", Obj [(named_key "ra", Real 4 ra); (named_key "dec", Real 4 (v_lat p)); (named_key "radius", Real 4 (v_radius p));
                           (named_key "lmst", Real 4 lmst); (named_key "az", Real 4 az); (named_key "alt", Real 4 alt); (named_key "parang", Real 3 parang)]);
       (named_key "mjd_range", Arr [Real 5 (v_mjd0 p); Real 5 (v_mjd1 p)]);
       (named_key "date_utc_range", Arr [Str (v_date0 p); Str (v_date1 p)]);
       (named_key "gmst", Real 4 gmst); (named_key "delta_time_s", Int (v_delta_time p)); (named_key "notes", Any)].
(** The place below the satellite, the Sun, the satellite in the sky (angles in degrees, the position angle without its fraction). *)
Definition vplace (g : geo) : tree :=
  Obj [(named_key "lat", Real 3 (g_lat g)); (named_key "lon", Real 3 (g_lon g)); (named_key "alt", Real 2 (g_alt g)); (named_key "theta", Real 3 (g_theta g))].
Definition vsun (u : sun) : tree :=
  Obj [(named_key "ra", Real 3 (u_ra u)); (named_key "dec", Real 3 (u_dec u)); (named_key "az", Real 3 (u_az u)); (named_key "alt", Real 3 (u_alt u));
       (named_key "lon", Real 3 (u_lon u)); (named_key "parang", Real 3 (u_parang u)); (named_key "separation_deg", Real 3 (u_sep u))].
Definition vsat (s : sat) : tree :=
  Obj [(named_key "Date", Str (sa_date s)); (named_key "MJD", Real 5 (sa_mjd s)); (named_key "ra", Real 4 (fmul (sa_ra s) RAD2DEG));
       (named_key "dec", Real 4 (fmul (sa_dec s) RAD2DEG)); (named_key "az", Real 4 (sa_az s)); (named_key "alt", Real 4 (sa_alt s));
       (named_key "Distance", Real 2 (sa_dkm s)); (named_key "Separation", Real 4 (sa_sep s)); (named_key "PA", Int (Ztrunc (B2R (fmul (sa_parang s) RAD2DEG))));
       (named_key "Speed", Real 3 (sa_speed s))].
(** The three members of a reported event. *)
Definition vevent_members (x : list Z * geo * sun * sat) : list (list Z * tree) :=
  let '(nm, g, u, s) := x in
  [(named_key "geoloc_" ++ nm, vplace g); (named_key "sun_" ++ nm, vsun u); (named_key "sat_" ++ nm, vsat s)].
Definition vlegend : tree :=
  Obj [(named_key "desc", Any); (named_key "type", Any);
       (named_key "unit", Arr (map (fun s => Str (bytes s)) [""; "MJD"; "deg"; "deg"; "deg"; "deg"; "km"; "deg"; "deg"; "arcmin/s"]%string))].
(** What stands between the request and the status. *)
Definition unseen_part (u : sun) : list (list Z * tree) := [(named_key "sun", vsun u)].
Definition seen_part (name desig : list Z) (norad : Z) (minutes : b64) (evs : list (list Z * geo * sun * sat)) : list (list Z * tree) :=
  [(named_key "sat_fields", vlegend);
   (named_key "satellite", Obj ([(named_key "name", Str name); (named_key "intl_desig", Str desig); (named_key "norad_n", Int norad)] ++ flat_map vevent_members evs));
   (named_key "sunlit_duration_minutes", Real 2 minutes)].
Definition vdocument (request : tree) (part : list (list Z * tree)) (found : Z) : tree :=
  Obj ([(named_key "swinfo", Any); (named_key "geoloc_fields", Any); (named_key "input_params", request)] ++ part ++
       [(named_key "run_command", Any); (named_key "status", Int 0); (named_key "errmsg", Str []); (named_key "n_sats_found", Int found)]).
(** The file of element sets, or the list of such files, named on the command line. *)
Definition file_named (argv : list (list Z)) (file : list Z) : Prop := nth_error argv (file_arg argv) = Some file \/ nth_error argv (file_arg argv) = Some (64 :: file).
