(** Command lines of sat_visibility as lists of options, and what they ask for (sat_visibility.c:308-329, the usage text). *)
From Coq Require Import String Ascii ZArith List Bool.
From Verif Require Import CLib FloatModel CalendarModel SkymapModel CliModel CliSpec VisCliModel.
Import ListNotations.
Open Scope Z_scope.

(** Requests without a value. *)
Inductive vswitch_ := VSwN | VSwT.
Definition vswitch_char (s : vswitch_) : Z := match s with VSwN => 78 | VSwT => 84 end.
(** Requests with a value. *)
Inductive voption_ :=
| VAltitudes (x y : b64) | VDates (a b : list Z) | VDirectory (t : list Z) | VDesignator (t : list Z)
| VMjds (x y : b64) (a b : list Z) | VLocation (lat lon ht : b64) | VRadius (x : b64) | VNumber (n : Z) | VStep (n : Z).
Definition voption_char (o : voption_) : Z :=
  match o with
  | VAltitudes _ _ => 97 | VDates _ _ => 100 | VDirectory _ => 68 | VDesignator _ => 105 | VMjds _ _ _ _ => 106 | VLocation _ _ _ => 108
  | VRadius _ => 114 | VNumber _ => 115 | VStep _ => 116
  end.

(** Nineteen characters, as in "2024-05-11T20:00:00". *)
Definition stamp (t : list Z) : Prop := length t = 19%nat /\ Forall (fun c => is_space c = false) t.
(** The value text [v] means [o]. *)
Definition vmeans (r : reader) (v : list Z) (o : voption_) : Prop :=
  match o with
  | VAltitudes x y => numbers r v [x; y]
  | VDates a b => stamp a /\ stamp b /\ In 45 v /\ exists rest, v = a ++ 44 :: b ++ rest
  | VDirectory t => v = t /\ fits 128 t
  | VDesignator t => v = t /\ fits 12 t
  | VMjds x y a b => numbers r v [x; y] /\ ~ In 45 v /\ mjd2date x = Ok (Some a) /\ mjd2date y = Ok (Some b)
  | VLocation lat lon ht => numbers r v [lat; lon; ht] /\ flt lat (of_int (-90)) = false /\ flt (of_int 90) lat = false
  | VRadius x => r_atof r v = x
  | VNumber n => decimal v n
  | VStep n => to_int (r_atof r v) = Ok n
  end.

(** One piece of the command line: a file name, a switch, an option with its value in the same or in the next argument. *)
Inductive vpiece := VFile (t : list Z) | VSwitch (s : vswitch_) | VJoined (v : list Z) (o : voption_) | VApart (v : list Z) (o : voption_).
Definition vwritten (k : vpiece) : list (list Z) :=
  match k with
  | VFile t => [t]
  | VSwitch s => [[45; vswitch_char s]]
  | VJoined v o => [45 :: voption_char o :: v]
  | VApart v o => [[45; voption_char o]; v]
  end.
Definition vproper (r : reader) (k : vpiece) : Prop :=
  match k with
  | VFile t => no_nul t /\ hd 0 t <> 45
  | VSwitch _ => True
  | VJoined v o => no_nul v /\ v <> [] /\ vmeans r v o
  | VApart v o => no_nul v /\ vmeans r v o
  end.

(** The last piece about which [f] says something decides; otherwise the default. *)
Definition vlast_of {A : Type} (f : vpiece -> option A) (l : list vpiece) (default : A) : A :=
  fold_left (fun a k => match f k with Some x => x | None => a end) l default.
Definition vopt_of {A : Type} (f : voption_ -> option A) (k : vpiece) : option A :=
  match k with VJoined _ o | VApart _ o => f o | _ => None end.
Definition vis_option (f : voption_ -> bool) (k : vpiece) : bool := match k with VJoined _ o | VApart _ o => f o | _ => false end.

(** What the options ask for. *)
Record vasked (l : list vpiece) (p : vparams) : Prop := mk_vasked {
  va_radius : v_radius p = vlast_of (vopt_of (fun o => match o with VRadius x => Some x | _ => None end)) l (of_int 90);
  va_location : (v_lat p, v_lon p, v_ht p) =   (* negative longitudes are turned by 360 *)
    vlast_of (vopt_of (fun o => match o with VLocation x y h => Some (x, if flt y (of_int 0) then fadd y (of_int 360) else y, h) | _ => None end)) l
      (of_int 0, of_int 0, of_int 0);
  va_altitudes : (v_alt_min p, v_alt_max p) =   (* in increasing order *)
    vlast_of (vopt_of (fun o => match o with VAltitudes x y => Some (if flt y x then (y, x) else (x, y)) | _ => None end)) l (of_int 0, of_int (10 ^ 32));
  va_range : (v_mjd0 p, v_mjd1 p, (v_date0 p, v_date1 p)) =
    vlast_of (vopt_of (fun o => match o with VDates a b => Some (snd (date2mjd_nf a), snd (date2mjd_nf b), (a, b)) | VMjds x y a b => Some (x, y, (a, b)) | _ => None end)) l
      (of_int 0, of_int 0, ([], []));
  va_step : v_delta_time p = vlast_of (vopt_of (fun o => match o with VStep n => Some n | _ => None end)) l 3;
  va_number : v_norad_n p = vlast_of (vopt_of (fun o => match o with VNumber n => Some n | _ => None end)) l 0;
  va_desig : v_intl_desig p = vlast_of (vopt_of (fun o => match o with VDesignator t => Some t | _ => None end)) l [];
  va_path : v_tle_path p =   (* -T and -D cancel each other: the last one holds *)
    if vlast_of (fun k => match k with VSwitch VSwT => Some true | VJoined _ (VDirectory _) | VApart _ (VDirectory _) => Some false | _ => None end) l false
    then DEF_TLEDIR
    else vlast_of (vopt_of (fun o => match o with VDirectory t => Some t | _ => None end)) l (bytes ".");
  va_skip : v_skip p = existsb (fun k => match k with VSwitch VSwN => true | _ => false end) l;
  va_single_n : v_single_n p = existsb (vis_option (fun o => match o with VNumber _ => true | _ => false end)) l;
  va_single_i : v_single_i p = existsb (vis_option (fun o => match o with VDesignator _ => true | _ => false end)) l;
  va_altrng : v_altrng p =
    vlast_of (vopt_of (fun o => match o with VAltitudes _ _ => Some true | VDesignator _ | VNumber _ => Some false | _ => None end)) l false;
  va_in_geopos : v_in_geopos p = existsb (vis_option (fun o => match o with VLocation _ _ _ => true | _ => false end)) l
}.

(** A switch written together with further text, like "-NT". *)
Definition vglued_switch (a : list Z) : Prop := exists s c t, c <> 0 /\ a = 45 :: vswitch_char s :: c :: t.
