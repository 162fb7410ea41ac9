(** Command lines of sat_skymap as lists of options, and what they ask for (sat_skymap.c:157-186, the usage text). *)
From Coq Require Import String Ascii ZArith List Bool.
From Verif Require Import CLib FloatModel CalendarModel SkymapModel CliModel.
Import ListNotations.
Open Scope Z_scope.

(** Requests without a value. *)
Inductive switch_ := SwE | SwG | SwH | SwI | SwT | SwV.
Definition switch_char (s : switch_) : Z :=
  match s with SwE => 69 | SwG => 71 | SwH => 72 | SwI => 73 | SwT => 84 | SwV => 86 end.
(** Requests with a value. *)
Inductive option_ :=
| Altitudes (x y : b64) | Date (t : list Z) | Directory (t : list Z) | Designator (t : list Z) | Mjd (x : b64) (t : list Z)
| Location (lat lon ht : b64) | MaxSats (n : Z) | Region (ra de : b64) | Radius (x : b64) | Number (n : Z) | Name (t : list Z) | Step (n : Z).
Definition option_char (o : option_) : Z :=
  match o with
  | Altitudes _ _ => 97 | Date _ => 100 | Directory _ => 68 | Designator _ => 105 | Mjd _ _ => 106 | Location _ _ _ => 108
  | MaxSats _ => 110 | Region _ _ => 112 | Radius _ => 114 | Number _ => 115 | Name _ => 83 | Step _ => 116
  end.

(** The text [t] is a list of numbers separated by commas. *)
Inductive numbers (r : reader) : list Z -> list b64 -> Prop :=
| one_number : forall t x t', r_scan r t = Some (x, t') -> hd 0 t' <> 44 -> numbers r t [x]
| more_numbers : forall t x t' l, r_scan r t = Some (x, 44 :: t') -> numbers r t' l -> numbers r t (x :: l).
(** The text is a decimal number that an int can hold. *)
Definition decimal (t : list Z) (n : Z) : Prop :=
  t <> [] /\ Forall (fun c => 48 <= c <= 57) t /\ n = fold_left (fun a c => 10 * a + (c - 48)) t 0 /\ n < 2147483648.
Definition no_nul (t : list Z) : Prop := Forall (fun c => c <> 0) t.
Definition fits (cap : Z) (t : list Z) : Prop := Z.of_nat (length t) < cap.

(** The value text [v] means [o]. *)
Definition means (r : reader) (v : list Z) (o : option_) : Prop :=
  match o with
  | Altitudes x y => numbers r v [x; y]
  | Date t => v = t /\ fits 24 t
  | Directory t => v = t /\ fits 128 t
  | Designator t => v = t /\ fits 12 t
  | Mjd x t => r_atof r v = x /\ mjd2date x = Ok (Some t)
  | Location lat lon ht => numbers r v [lat; lon; ht] /\ flt lat (of_int (-90)) = false /\ flt (of_int 90) lat = false
  | MaxSats n => decimal v n
  | Region ra de => numbers r v [ra; de] /\ flt ra (of_int 0) = false /\ flt (of_int 360) ra = false /\
                    flt de (of_int (-90)) = false /\ flt (of_int 90) de = false
  | Radius x => r_atof r v = x
  | Number n => decimal v n
  | Name t => v = t /\ fits 24 t
  | Step n => to_int (r_atof r v) = Ok n
  end.

(** One piece of the command line: a file name, a switch, an option with its value in the same or in the next argument. *)
Inductive piece := File (t : list Z) | Switch (s : switch_) | Joined (v : list Z) (o : option_) | Apart (v : list Z) (o : option_).
Definition written (k : piece) : list (list Z) :=
  match k with
  | File t => [t]
  | Switch s => [[45; switch_char s]]
  | Joined v o => [45 :: option_char o :: v]
  | Apart v o => [[45; option_char o]; v]
  end.
Definition proper (r : reader) (k : piece) : Prop :=
  match k with
  | File t => no_nul t /\ hd 0 t <> 45
  | Switch _ => True
  | Joined v o => no_nul v /\ v <> [] /\ means r v o
  | Apart v o => no_nul v /\ means r v o
  end.

(** The last piece about which [f] says something decides; otherwise the default. *)
Definition last_of {A : Type} (f : piece -> option A) (l : list piece) (default : A) : A :=
  fold_left (fun a k => match f k with Some x => x | None => a end) l default.
Definition opt_of {A : Type} (f : option_ -> option A) (k : piece) : option A :=
  match k with Joined _ o | Apart _ o => f o | _ => None end.
Definition has (f : piece -> bool) (l : list piece) : bool := existsb f l.
Definition is_switch (s : switch_) (k : piece) : bool :=
  match k with Switch s' => switch_char s' =? switch_char s | _ => false end.
Definition is_option (f : option_ -> bool) (k : piece) : bool := match k with Joined _ o | Apart _ o => f o | _ => false end.

(** What the options ask for. *)
Record asked (l : list piece) (p : params) : Prop := mk_asked {
  a_radius : p_radius p = last_of (opt_of (fun o => match o with Radius x => Some x | _ => None end)) l (of_int 20);
  a_location : (p_lat p, p_ht p) =
    last_of (opt_of (fun o => match o with Location x _ h => Some (x, h) | _ => None end)) l (of_int 0, of_int 2400);
  a_longitude : p_lon p =   (* negative longitudes are turned by 360 *)
    last_of (opt_of (fun o => match o with Location _ y _ => Some (if flt y (of_int 0) then fadd y (of_int 360) else y) | _ => None end)) l (of_int 0);
  a_region : (p_ra p, p_de p) =
    last_of (opt_of (fun o => match o with Region x y => Some (x, y) | _ => None end)) l (of_int 0, of_int 0);
  a_altitudes : (p_alt_min p, p_alt_max p) =   (* in increasing order *)
    last_of (opt_of (fun o => match o with Altitudes x y => Some (if flt y x then (y, x) else (x, y)) | _ => None end)) l (of_int 0, of_int (10 ^ 32));
  a_time : (p_mjd p, p_date p) =
    last_of (opt_of (fun o => match o with Date t => Some (snd (date2mjd_nf t), t) | Mjd x t => Some (x, t) | _ => None end)) l
      (lit 588615 10, bytes "2020-01-13T12:00:00");
  a_max : p_max_sats p = last_of (opt_of (fun o => match o with MaxSats n => Some n | _ => None end)) l 1000;
  a_step : p_delta_time p = last_of (opt_of (fun o => match o with Step n => Some n | _ => None end)) l 1;
  a_number : p_norad_n p = last_of (opt_of (fun o => match o with Number n => Some n | _ => None end)) l 0;
  a_desig : p_intl_desig p = last_of (opt_of (fun o => match o with Designator t => Some t | _ => None end)) l [];
  a_name : p_satname p = last_of (opt_of (fun o => match o with Name t => Some t | _ => None end)) l [];
  a_path : p_tle_path p = last_of (opt_of (fun o => match o with Directory t => Some t | _ => None end)) l (bytes ".");
  (* the switches *)
  a_haversine : p_haversine p = has (is_switch SwH) l;
  a_info : p_info_only p = has (is_switch SwI) l;
  a_sunlit : p_sunlit_only p = has (is_switch SwV) l;
  a_georef : p_georef p = has (is_switch SwE) l;
  a_geoloc : p_geoloc p = has (fun k => is_switch SwE k || is_switch SwG k || is_option (fun o => match o with Altitudes _ _ => true | _ => false end) k) l;
  a_single_n : p_single_n p = has (is_option (fun o => match o with Number _ => true | _ => false end)) l;
  a_single_i : p_single_i p = has (is_option (fun o => match o with Designator _ => true | _ => false end)) l;
  a_filter : p_satname_filter p = has (is_option (fun o => match o with Name _ => true | _ => false end)) l;
  (* requests that cancel each other: the last one holds *)
  a_deftledir : p_deftledir p =
    last_of (fun k => match k with Switch SwT => Some true | Joined _ (Directory _) | Apart _ (Directory _) => Some false | _ => None end) l false;
  a_altrng : p_altrng p =
    last_of (opt_of (fun o => match o with Altitudes _ _ => Some true | Designator _ | Number _ => Some false | _ => None end)) l false;
  a_in_region : p_in_region p =
    last_of (opt_of (fun o => match o with Region _ _ => Some true | Designator _ | Number _ => Some false | _ => None end)) l false;
  a_in_geopos : p_in_geopos p = has (is_option (fun o => match o with Location _ _ _ => true | _ => false end)) l
}.

(** A switch written together with further text, like "-GH". *)
Definition glued_switch (a : list Z) : Prop := exists s c t, c <> 0 /\ a = 45 :: switch_char s :: c :: t.

(** Values for which the option [c] stays within its buffers and within the range of int. *)
Definition modest (x : b64) : Prop :=   (* below 2^153, or not finite *)
  match x with BinarySingleNaN.B754_finite _ _ e _ => e <= 100 | _ => True end.
Definition safe_value (r : reader) (c : Z) (v : list Z) : Prop :=
  (c = 100 -> fits 24 v) /\ (c = 68 -> fits 128 v) /\ (c = 105 -> fits 12 v) /\ (c = 83 -> fits 24 v) /\
  (c = 106 -> exists t, mjd2date (r_atof r v) = Ok (Some t)) /\
  (c = 116 -> exists n, to_int (r_atof r v) = Ok n) /\
  (c = 110 -> fits 10 v) /\
  (c = 108 \/ c = 112 -> forall t x t', r_scan r t = Some (x, t') -> modest x).
(** The option characters that need no value. *)
Definition no_value (c : Z) : Prop := c = 104 \/ exists s, c = switch_char s.
(** Argument vectors that stay within the memory the program has. *)
Record tame (r : reader) (argv : list (list Z)) : Prop := mk_tame {
  t_nul : Forall no_nul argv;
  t_short : Forall (fits 93) argv;
  t_dash : ~ In [45] argv;
  t_joined : forall c v, In (45 :: c :: v) argv -> v <> [] -> safe_value r c v;
  t_apart : forall pre c v post, argv = pre ++ [45; c] :: v :: post -> safe_value r c v;
  t_last : forall pre c, argv = pre ++ [[45; c]] -> no_value c }.

(** Ranges of the parameters with which the search is made. *)
Record ranges (p : params) : Prop := mk_ranges {
  rg_alt : flt (p_alt_max p) (p_alt_min p) = false;
  rg_lat1 : flt (p_lat p) (of_int (-90)) = false; rg_lat2 : flt (of_int 90) (p_lat p) = false;
  rg_ra1 : flt (p_ra p) (of_int 0) = false; rg_ra2 : flt (of_int 360) (p_ra p) = false;
  rg_de1 : flt (p_de p) (of_int (-90)) = false; rg_de2 : flt (of_int 90) (p_de p) = false }.
