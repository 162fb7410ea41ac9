(** What the time loop of sat_visibility should report, in terms of the list of samples. *)
From Coq Require Import String Ascii ZArith List Bool Reals.
From Flocq Require Import Core IEEE754.BinarySingleNaN.
From Verif Require Import CLib FloatModel CalendarModel TleModel IoModel SkymapModel VisCliModel VisModel.
Import ListNotations.
Open Scope Z_scope.

(** One sample: its time (JD), the zenith distance, and whether the satellite is sunlit ([None] = farther than the radius). *)
Record smp := mk_smp { m_t : b64; m_sep : b64; m_lit : option bool }.
Fixpoint samples (l : list vevent) : list smp :=
  match l with
  | [] => []
  | Sample t sep lit :: r => mk_smp t sep lit :: samples r
  | _ :: r => samples r
  end.
(** The reported events, in order: name, sub-satellite point, Sun, satellite. *)
Fixpoint events (l : list vevent) : list (list Z * geo * sun * sat) :=
  match l with
  | [] => []
  | Data nm g u s :: r => (nm, g, u, s) :: events r
  | _ :: r => events r
  end.

(** Within the radius and sunlit. *)
Definition visible (m : smp) : bool := match m_lit m with Some true => true | _ => false end.
(** In the Earth's shadow, within the radius. *)
Definition shadowed (m : smp) : bool := match m_lit m with Some false => true | _ => false end.
Definition too_far (m : smp) : bool := match m_lit m with None => true | _ => false end.

(** The times [t], [t + s], [t + s + s], ... in double arithmetic. *)
Fixpoint ticks (s t : b64) (n : nat) : b64 := match n with O => t | S n' => fadd (ticks s t n') s end.
Definition timed (s t : b64) (l : list smp) : Prop := forall i m, nth_error l i = Some m -> m_t m = ticks s t i.

(** Where the satellite is at time [t] as seen by the [n]-th call of the propagator, and its zenith distance. *)
Definition position (L : lib) (tle : tle_t) (n : nat) (t : b64) : vec :=
  l_propagate L n (l_deep L tle) tle (fmul (fsub t (l_epoch L tle)) (of_int 1440)).
Definition zenith_distance (L : lib) (p : vparams) (tle : tle_t) (n : nat) (t : b64) : b64 :=
  let '(ra, dec, _) := l_radec L (l_observer L t) (position L tle n t) in
  l_skysep L (fdiv (fst (l_lmst L t)) RAD2HRS) (fmul (v_lat p) DEG2RAD) ra dec.
(** The sample is true to the library. *)
Definition faithful (L : lib) (p : vparams) (tle : tle_t) (m : smp) : Prop :=
  exists n, m_sep m = zenith_distance L p tle n (m_t m) /\
    m_lit m = if flt (v_radius p) (m_sep m) then None else Some (negb (l_blocked L (position L tle n (m_t m)) (l_sun_vec L (m_t m)))).

(** [m] is a visible sample of [l] and no visible sample is closer to the zenith. *)
Definition highest (l : list smp) (m : smp) : Prop :=
  In m l /\ visible m = true /\ forall x, In x l -> visible x = true -> flt (m_sep x) (m_sep m) = false.

(** How a search over the samples [l] ended. *)
Inductive ending :=
| Shadow (m : smp)     (* last sample: in the shadow *)
| Left (m : smp)       (* last sample: outside the radius *)
| Range.               (* still visible at the last sample of the range *)
Definition last_ones (e : ending) : list smp := match e with Shadow m | Left m => [m] | Range => [] end.
Definition ends_so (e : ending) : Prop := match e with Shadow m => shadowed m = true | Left m => too_far m = true | Range => True end.

(** The MJD and the date of a reported event belong to the same double. *)
Definition stamped (mjd : b64) (s : sat) : Prop := sa_mjd s = mjd /\ date_of mjd = Ok (sa_date s).
(** The clock readings that the program uses as begin and end of visibility; [n] samples were taken, the [i]-th is the first visible one. *)
Definition begin_clock (s t0 : b64) (i : nat) : b64 := fsub (ticks s t0 (S i)) JD_OFF.
Definition end_clock (s t0 : b64) (n : nat) (e : ending) : b64 :=
  match e with Shadow _ => fsub (ticks s t0 n) JD_OFF | _ => fsub (fsub (ticks s t0 n) s) JD_OFF end.
(** The MJD printed with the end. *)
Definition end_mjd (s t0 : b64) (n : nat) (e : ending) : b64 :=
  match e with Shadow _ => fsub (fsub (ticks s t0 n) JD_OFF) s | _ => fsub (fsub (ticks s t0 n) s) JD_OFF end.
(** Text of a reported event. *)
Definition event_text (x : list Z * geo * sun * sat) : res (list Z) :=
  let '(nm, g, u, s) := x in
  o <- vis_sat_json (bytes "sat_" ++ nm) s ;;
  Ok (vis_geo_json (bytes "geoloc_" ++ nm) g ++ vis_sun_json (bytes "sun_" ++ nm) u ++ o).
Fixpoint event_texts (l : list (list Z * geo * sun * sat)) : res (list Z) :=
  match l with [] => Ok [] | x :: r => a <- event_text x ;; b <- event_texts r ;; Ok (a ++ b) end.
(** Duration in minutes as printed. *)
Definition duration (b e : b64) : b64 := fmul (widen (narrow (fsub e b))) (of_int 1440).
(** The time reported as that of the highest position. *)
Definition top_time (l : list smp) (t : b64) : Prop :=
  (exists m, highest l m /\ m_t m = t /\ flt (m_sep m) (of_int 181) = true) \/
  (t = of_int 0 /\ forall x, In x l -> visible x = true -> flt (m_sep x) (of_int 181) = false).

(** What a run reports about the samples [l] taken at [t0], [t0 + s], ... when the satellite is seen: [idle] are the samples before the
    first visible one, [lit] the visible ones. *)
Record seen (L : lib) (p : vparams) (tle : tle_t) (t0 last : b64) (l idle lit : list smp) (e : ending) (evs : list (list Z * geo * sun * sat)) : Prop := mk_seen {
  sn_split : l = idle ++ lit ++ last_ones e;
  sn_idle : Forall (fun m => visible m = false) idle;
  sn_lit : Forall (fun m => visible m = true) lit;
  sn_some : lit <> [];
  sn_end : ends_so e;
  sn_range : e = Range -> fle (ticks (vstep p) t0 (length l)) last = false;
  sn_events : exists g1 u1 s1 g2 u2 s2 g3 u3 s3 g4 u4 s4 tmax,
    let s := vstep p in
    let b := begin_clock s t0 (length idle) in
    let z := end_clock s t0 (length l) e in
    evs = [(bytes "start", g1, u1, s1); (bytes "end", g2, u2, s2); (bytes "mid", g3, u3, s3); (bytes "max", g4, u4, s4)] /\
    stamped (fsub b s) s1 /\
    stamped (end_mjd s t0 (length l) e) s2 /\
    (sa_mjd s3 = sa_mjd s2 /\ date_of (fadd b (fdiv (fsub z b) (of_int 2))) = Ok (sa_date s3)) /\
    (sa_mjd s4 = sa_mjd s2 /\ date_of (fsub tmax JD_OFF) = Ok (sa_date s4)) /\
    top_time l tmax /\ (exists n, sa_sep s4 = zenith_distance L p tle n tmax) /\
    (forall m, nth_error l (length idle) = Some m -> sa_sep s1 = m_sep m) /\
    (forall d, sa_sep s2 = m_sep (List.last l d))
}.

(** What is printed before the search for the first visible sample. *)
Definition preamble (L : lib) (file : list Z) (p : vparams) : list Z :=
  let '(alt, az, parang) := l_dechalat L (fmul (v_lat p) DEG2RAD) (of_int 0) in
  vis_open_json ++ geofieldsdesc_json ++ vis_params_json file p az alt parang.
(** The first sample: the begin of the range or, with -N, the first moment of the grid of [daytime] at which the Sun is below the horizon. *)
Definition range_begin (p : vparams) : b64 := fadd JD_OFF (v_mjd0 p).
Definition range_end (p : vparams) : b64 := fadd JD_OFF (v_mjd1 p).
Definition sat_head (name desig : list Z) (tle : tle_t) : list Z :=
  vis_fields_json ++ q " 'satellite': {'name': '" ++ name ++ q "', 'intl_desig': '" ++ desig ++ q "', 'norad_n': " ++ print_d 0 (norad_number tle) ++ q ", ".
Definition duration_text (b z : b64) : list Z := q "}, 'sunlit_duration_minutes': " ++ print_f 0 2 (duration b z) ++ q ", ".
(** How many steps the reported duration differs from the time between the first and the last visible sample. *)
Definition extra_steps (e : ending) : R := match e with Shadow _ => 1 | Left _ => 0 | Range => -1 end.
(** A double of magnitude at most 2^e. *)
Definition bnd (e : Z) (x : b64) : Prop := is_finite x = true /\ (Rabs (B2R x) <= bpow radix2 e)%R.
(** The MJD [x] is the time of the sample [m], up to rounding, whenever the range lies within 2^E days and the step is positive
    (E = 22 for dates up to the year 6700: 2^-28 day, 0.3 ms). *)
Definition on_time (p : vparams) (x : b64) (m : smp) : Prop :=
  forall E, 22 <= E <= 30 -> 1 <= v_delta_time p <= 2147483647 -> bnd E (range_begin p) -> bnd E (range_end p) ->
  (Rabs (B2R x + 2400000.5 - B2R (m_t m)) <= bpow radix2 (E - 50))%R.
Definition last_error {A : Type} (l : list A) : option A := hd_error (rev l).

(** The step of the search for the night, in days (sat_visibility.c:844: 0.0007). *)
Definition night_step : b64 := lit 6456360425798343 9223372036854775808.
(** The search begins at the begin of the range or, with -N, at the first moment of the grid begin, begin + 0.0007 day, ... at which the
    Sun is below the horizon or that is beyond the range. *)
Definition begins (L : lib) (p : vparams) (t0 : b64) : Prop :=
  if v_skip p then
    let at_ k := ticks night_step (range_begin p) k in
    exists k : nat, t0 = at_ k /\ (flt (l_sun_alt L t0) (of_int 0) = true \/ flt (range_end p) t0 = true) /\
      forall i, (i < k)%nat -> flt (l_sun_alt L (at_ i)) (of_int 0) = false /\ flt (range_end p) (at_ i) = false
  else t0 = range_begin p.
(** The least progress of the clock in one turn of a loop, in days. *)
Definition pace (p : vparams) : R := (if v_skip p then Rmin (B2R (vstep p)) (6999 / 10000000) else B2R (vstep p))%R.
(** A run that found a satellite's element set [tle]: it starts at [t0] and takes the samples [l]. *)
Record searched (L : lib) (p : vparams) (tle : tle_t) (t0 : b64) (l : list smp) : Prop := mk_searched {
  sc_begin : begins L p t0;
  sc_times : timed (vstep p) t0 l;
  sc_true : Forall (faithful L p tle) l;
  sc_range : Forall (fun m => fle (m_t m) (range_end p) = true) l }.
(** What the program calls the start. *)
Definition started_at (p : vparams) (m : smp) (s : sat) : Prop :=
  sa_sep s = m_sep m /\ date_of (sa_mjd s) = Ok (sa_date s) /\ on_time p (sa_mjd s) m.
