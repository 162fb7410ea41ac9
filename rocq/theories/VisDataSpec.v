(** What the three objects of a reported event should contain, in terms of the numerical library. *)
From Coq Require Import String Ascii ZArith List Bool.
From Verif Require Import CLib FloatModel CalendarModel SkymapModel VisCliModel TleModel VisModel VisSpec.
Import ListNotations.
Open Scope Z_scope.

(** Right ascension, declination and distance of the satellite at [t], seen by the [n]-th call of the propagator. *)
Definition place_at (L : lib) (tle : tle_t) (n : nat) (t : b64) : b64 * b64 * b64 := l_radec L (l_observer L t) (position L tle n t).
(** The Sun at [t]. *)
Definition sun_of (L : lib) (t : b64) : sun := l_sun L t (fst (l_lmst L t)) (snd (l_lmst L t)) (fdiv (fst (l_lmst L t)) RAD2HRS).

(** The data [x] of an event are those of the instant [t], with the coordinates [rd] of date and the Sun of [tsun]; J2000 coordinates are
    obtained with the date [jdp]. *)
Record data_of (L : lib) (p : vparams) (tle : tle_t) (n : nat) (t : b64) (rd : b64 * b64) (tsun jdp : b64) (x : list Z * geo * sun * sat) : Prop := mk_data_of {
  do_geo : snd (fst (fst x)) = l_geo L (position L tle n t) (snd (l_lmst L t));
  do_sun : snd (fst x) = sun_of L tsun;
  do_dist : sa_dkm (snd x) = snd (place_at L tle n t);
  do_sep : sa_sep (snd x) = zenith_distance L p tle n t;
  do_horizon : (sa_alt (snd x), sa_az (snd x)) = fst (l_dechalat L (snd rd) (fsub (fst (l_lmst L t)) (fmul (fst rd) RAD2HRS)));
  do_j2000 : (sa_ra (snd x), sa_dec (snd x)) = l_precess L jdp (fst rd) (snd rd) }.
(** ... and the coordinates of date are those of the instant. *)
Definition data_at (L : lib) (p : vparams) (tle : tle_t) (n : nat) (t tsun jdp : b64) (x : list Z * geo * sun * sat) : Prop :=
  data_of L p tle n t (fst (place_at L tle n t)) tsun jdp x.

(** [pa] and [speed] describe the motion from [t] to one step later, seen from where the observer is at [t]. *)
Definition motion_at (L : lib) (p : vparams) (tle : tle_t) (n n' : nat) (t : b64) (m : b64 * b64) : Prop :=
  let '(ra, dec, _) := place_at L tle n t in
  let later := fadd (fmul (fsub t (l_epoch L tle)) (of_int 1440)) (fdiv (fmul (of_int (v_delta_time p)) (of_int 1440)) SEC_IN_DAY) in
  let '(ra1, dec1, _) := l_radec L (l_observer L t) (l_propagate L n' (l_deep L tle) tle later) in
  m = (l_pa L ra dec ra1 dec1, fdiv (fmul (l_skysep L ra dec ra1 dec1) (of_int 60)) (of_int (v_delta_time p))).
Definition motion_of (x : list Z * geo * sun * sat) : b64 * b64 := (sa_parang (snd x), sa_speed (snd x)).

(** What the end contains.  [x1] is the start, [m :: lit] the visible samples and [en] how the search ended. *)
Definition end_data (L : lib) (p : vparams) (tle : tle_t) (n : nat) (x1 : list Z * geo * sun * sat) (m : smp) (lit : list smp) (en : ending) (x : list Z * geo * sun * sat) : Prop :=
  let back t := fsub (fadd t (vstep p)) (vstep p) in
  let before := m_t (List.last (m :: lit) m) in
  match en with
  | Shadow z => data_at L p tle n (m_t z) (m_t z) (fadd (m_t z) (vstep p)) x
  | Left z => data_at L p tle n (m_t z) before (back (m_t z)) x
  | Range => match lit with
             | [] => data_of L p tle n before (sa_ra (snd x1), sa_dec (snd x1)) before (back before) x
             | _ => data_at L p tle n before before (back before) x
             end
  end.
Definition named (nm : string) (x : list Z * geo * sun * sat) : Prop := fst (fst (fst x)) = bytes nm.
(** The four events of a run that sees the satellite. *)
Record told (L : lib) (p : vparams) (tle : tle_t) (l : list smp) (evs : list (list Z * geo * sun * sat)) : Prop := mk_told {
  to_all : exists idle m lit en x1 x2 x3 x4 n1 n2 n3 n4 n5 mid tmax,
    l = idle ++ (m :: lit) ++ last_ones en /\ Forall (fun m => visible m = false) idle /\ Forall (fun m => visible m = true) (m :: lit) /\ ends_so en /\
    evs = [x1; x2; x3; x4] /\ named "start" x1 /\ named "end" x2 /\ named "mid" x3 /\ named "max" x4 /\
    data_at L p tle n1 (m_t m) (m_t m) (fadd (m_t m) (vstep p)) x1 /\
    end_data L p tle n2 x1 m lit en x2 /\
    (date_of mid = Ok (sa_date (snd x3)) /\ let t := fadd mid JD_OFF in data_at L p tle n3 t t t x3) /\
    (top_time l tmax /\ date_of (fsub tmax JD_OFF) = Ok (sa_date (snd x4)) /\ data_at L p tle n4 tmax tmax tmax x4) /\
    exists mo, motion_at L p tle n1 n5 (m_t m) mo /\ Forall (fun x => motion_of x = mo) evs }.
