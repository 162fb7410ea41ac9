(** What the Moon and the Sun do to the orbit of a satellite, by the theory and without the code: the tide-raising potential of a
    distant body, its average over the orbit of the satellite and over the orbit of the body, and the equations of Lagrange for the
    elements of the orbit under a potential.  Lengths are in units of the semi-major axis of the orbit of the satellite, and
    potentials are divided by its square. *)
From Coq Require Import Reals.
Open Scope R_scope.

Definition space : Type := R * R * R.
Definition inner (a b : space) : R := let '(x, y, z) := a in let '(x', y', z') := b in x * x' + y * y' + z * z'.
Definition along (k : R) (a : space) (l : R) (b : space) : space :=
  let '(x, y, z) := a in let '(x', y', z') := b in (k * x + l * x', k * y + l * y', k * z + l * z').

(** The direction of the pericentre of an orbit, and the direction a right angle further along it.  An orbit is placed by the
    cosines and sines of its argument of pericentre, of its inclination and of its node. *)
Definition pericentre (cw sw ci si ch sh : R) : space := (cw * ch - sw * ci * sh, cw * sh + sw * ci * ch, sw * si).
Definition quadrature (cw sw ci si ch sh : R) : space := (- sw * ch - cw * ci * sh, - sw * sh + cw * ci * ch, cw * si).
Definition toward_p (i w h : R) : space := pericentre (cos w) (sin w) (cos i) (sin i) (cos h) (sin h).
Definition toward_q (i w h : R) : space := quadrature (cos w) (sin w) (cos i) (sin i) (cos h) (sin h).

(** The place of the satellite at the eccentric anomaly E. *)
Definition place (e i w h E : R) : space := along (cos E - e) (toward_p i w h) (sqrt (1 - e * e) * sin E) (toward_q i w h).

(** The tide raised at r by a distant body in the direction s. *)
Definition tide (s r : space) : R := 3 / 2 * (inner s r * inner s r) - 1 / 2 * inner r r.

(** m is the mean of g over a turn. *)
Definition mean (g : R -> R) (m : R) : Prop := exists G, (forall x, derivable_pt_lim G x (g x)) /\ G (2 * PI) - G 0 = 2 * PI * m.

(** A function of the elements e, i, w, h is the mean over time, along the orbit of the satellite, of the potential at its place:
    by Kepler's equation time runs at the rate 1 - e cos E. *)
Definition potential : Type := R -> R -> R -> R -> R.
Definition over_orbit (V : space -> R) (F : potential) : Prop :=
  forall e i w h, 0 <= e < 1 -> mean (fun E => (1 - e * cos E) * V (place e i w h E)) (F e i w h).

(** The rates at which eccentricity, inclination, argument of perigee, node and mean anomaly drift under the potential k F: the
    equations of Lagrange.  F is proportional to the square of the semi-major axis. *)
Record drift := mk_drift { r_e : R; r_i : R; r_w : R; r_h : R; r_m : R }.
Definition lagrange (k : R) (F : potential) (n e i w h : R) (d : drift) : Prop :=
  exists Fe Fi Fw Fh,
    derivable_pt_lim (fun x => F x i w h) e Fe /\ derivable_pt_lim (fun x => F e x w h) i Fi
    /\ derivable_pt_lim (fun x => F e i x h) w Fw /\ derivable_pt_lim (fun x => F e i w x) h Fh
    /\ let b := sqrt (1 - e * e) in
       r_e d = - k * b / (n * e) * Fw
       /\ r_i d = k * (cos i * Fw - Fh) / (n * b * sin i)
       /\ r_h d = k * Fi / (n * b * sin i)
       /\ r_w d = k * b / (n * e) * Fe - cos i * r_h d
       /\ r_m d = - k * (b * b) / (n * e) * Fe - 4 * k / n * F e i w h.

(** The orbit of the body, and where the body is at the angle f from its pericentre. *)
Record path := mk_path { p_cw : R; p_sw : R; p_ci : R; p_si : R; p_ch : R; p_sh : R }.
Definition body (o : path) (f : R) : space :=
  along (cos f) (pericentre (p_cw o) (p_sw o) (p_ci o) (p_si o) (p_ch o) (p_sh o))
        (sin f) (quadrature (p_cw o) (p_sw o) (p_ci o) (p_si o) (p_ch o) (p_sh o)).

(** The potential of the body when it is at the angle f, averaged over the orbit of the satellite; its mean over the orbit of the
    body; and the part of it that depends on no direction. *)
Definition raised (o : path) (F : R -> potential) : Prop := forall f, over_orbit (tide (body o f)) (F f).
Definition raised_mean (o : path) (F : potential) : Prop :=
  exists G, raised o G /\ forall e i w h, 0 <= e < 1 -> mean (fun f => G f e i w h) (F e i w h).
Definition round_part (F : potential) : Prop := over_orbit (fun r => - (1 / 2) * inner r r) F.

(** ** The orbits of the Sun and the Moon around the Earth *)
(** Mean elements, after Newcomb and Brown, in degrees; d is in days from 1900 January 0.5.  The equator is inclined to the
    ecliptic by the angle it had about 1963. *)
Definition deg (x : R) : R := x * PI / 180.
Definition obliquity : R := deg (234441 / 10000).
Definition sun_perigee : R := deg (2812208 / 10000).
Definition sun_anomaly (d : R) : R := deg (358475833 / 1000000 + 985600267 / 1000000000 * d).
Definition moon_inclination : R := deg (51454 / 10000).
Definition moon_node (d : R) : R := deg (259183275 / 1000000 - 529539222 / 10000000000 * d).
Definition moon_perigee (d : R) : R := deg (334329556 / 1000000 + 1114040803 / 10000000000 * d).
Definition moon_anomaly (d : R) : R := deg (296104608 / 1000000 + 130649924465 / 10000000000 * d).
(** From the ecliptic to the equator. *)
Definition equatorial (v : space) : space :=
  let '(x, y, z) := v in (x, y * cos obliquity - z * sin obliquity, y * sin obliquity + z * cos obliquity).
Definition sun_p : space := equatorial (toward_p 0 sun_perigee 0).
Definition sun_q : space := equatorial (toward_q 0 sun_perigee 0).
Definition moon_p (d : R) : space := equatorial (toward_p moon_inclination (moon_perigee d - moon_node d) (moon_node d)).
Definition moon_q (d : R) : space := equatorial (toward_q moon_inclination (moon_perigee d - moon_node d) (moon_node d)).
Definition near (tol : R) (a b : space) : Prop :=
  let '(x, y, z) := a in let '(x', y', z') := b in Rabs (x - x') <= tol /\ Rabs (y - y') <= tol /\ Rabs (z - z') <= tol.
Definition follows (tol : R) (o : path) (p q : space) : Prop := near tol (body o 0) p /\ near tol (body o (PI / 2)) q.
(** The mean motions, in radians per minute, and the mass of the Moon in units of that of the Earth and the Moon together, as
    Hinks had it.  By Kepler's third law the tide of a body of the share m, going round at the rate n, has the strength m n^2. *)
Definition sun_motion : R := deg (985600267 / 1000000000) / 1440.
Definition moon_motion : R := deg (130649924465 / 10000000000) / 1440.
Definition moon_share : R := 1 / (1 + 8153 / 100).
Definition sun_eccentricity : R := 1675 / 100000.
Definition moon_eccentricity : R := 5490 / 100000.

(** What a body on the path o does when its tide has the strength k and it goes round at the rate v: its secular drifts d ... *)
Definition secular_drift (o : path) (k n e i w h : R) (d : drift) : Prop := exists F, raised_mean o F /\ lagrange k F n e i w h d.
(** ... and the oscillations about them, as functions of the angle f of the body: each has the mean 0 and the rate of change that
    the equations of Lagrange give for the body at f, less the secular drift.  The distance of the body changes, and its tide with the
    third power; of that only the part linear in the eccentricity c and independent of direction is kept. *)
Definition oscillation (o : path) (k v c n e i w h : R) (x : R -> drift) : Prop :=
  (mean (fun f => r_e (x f)) 0 /\ mean (fun f => r_i (x f)) 0 /\ mean (fun f => r_w (x f)) 0 /\ mean (fun f => r_h (x f)) 0 /\ mean (fun f => r_m (x f)) 0)
  /\ exists F M C d d0, raised o F /\ raised_mean o M /\ round_part C /\ lagrange k M n e i w h d /\ lagrange k C n e i w h d0
  /\ forall f, exists g, lagrange k (F f) n e i w h g /\
     let rate a a1 a0 := (a - a1 + 3 * c * cos f * a0) / v in
     derivable_pt_lim (fun f => r_e (x f)) f (rate (r_e g) (r_e d) (r_e d0))
     /\ derivable_pt_lim (fun f => r_i (x f)) f (rate (r_i g) (r_i d) (r_i d0))
     /\ derivable_pt_lim (fun f => r_w (x f)) f (rate (r_w g) (r_w d) (r_w d0))
     /\ derivable_pt_lim (fun f => r_h (x f)) f (rate (r_h g) (r_h d) (r_h d0))
     /\ derivable_pt_lim (fun f => r_m (x f)) f (rate (r_m g) (r_m d) (r_m d0)).
(** The true anomaly for the mean anomaly m, to the first order of the eccentricity. *)
Definition true_anomaly (c m : R) : R := m + 2 * c * sin m.
(** An orbit like that of the Sun, and one like that of the Moon d days after 1900. *)
Definition like_sun (o : path) (k v : R) : Prop :=
  follows (/ 10 ^ 6) o sun_p sun_q /\ Rabs (v - sun_motion) <= / 10 ^ 5 * sun_motion /\ Rabs (k - sun_motion * sun_motion) <= / 10 ^ 4 * (sun_motion * sun_motion).
Definition like_moon (d : R) (o : path) (k v : R) : Prop :=
  follows (/ 10 ^ 5) o (moon_p d) (moon_q d) /\ Rabs (v - moon_motion) <= / 10 ^ 5 * moon_motion
  /\ Rabs (k - moon_share * (moon_motion * moon_motion)) <= / 10 ^ 4 * (moon_share * (moon_motion * moon_motion)).
