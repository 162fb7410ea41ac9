(** What earthtilt.c and zenith_site_ra.c should compute, written from the published formulae. *)
From Coq Require Import ZArith List Reals.
Import ListNotations.
Open Scope R_scope.

(** ** The 1980 IAU theory of nutation (Wahr; Seidelmann, Celest. Mech. 27 (1982) 79) *)
(** Multiples of l, l', F, D, Omega; then, in units of 0.0001 seconds of arc: longitude, 10 x its change per century, obliquity, 10 x its change per century. *)
Definition multiples : Type := (Z * Z * Z * Z * Z)%type.
Definition iau1980 : list (multiples * (Z * Z * Z * Z)) := (
  [
   ((0, 0, 0, 0, 1), (-171996, -1742, 92025, 89)); ((0, 0, 0, 0, 2), (2062, 2, -895, 5)); ((-2, 0, 2, 0, 1), (46, 0, -24, 0));
   ((2, 0, -2, 0, 0), (11, 0, 0, 0)); ((-2, 0, 2, 0, 2), (-3, 0, 1, 0)); ((1, -1, 0, -1, 0), (-3, 0, 0, 0));
   ((0, -2, 2, -2, 1), (-2, 0, 1, 0)); ((2, 0, -2, 0, 1), (1, 0, 0, 0)); ((0, 0, 2, -2, 2), (-13187, -16, 5736, -31));
   ((0, 1, 0, 0, 0), (1426, -34, 54, -1)); ((0, 1, 2, -2, 2), (-517, 12, 224, -6)); ((0, -1, 2, -2, 2), (217, -5, -95, 3));
   ((0, 0, 2, -2, 1), (129, 1, -70, 0)); ((2, 0, 0, -2, 0), (48, 0, 1, 0)); ((0, 0, 2, -2, 0), (-22, 0, 0, 0));
   ((0, 2, 0, 0, 0), (17, -1, 0, 0)); ((0, 1, 0, 0, 1), (-15, 0, 9, 0)); ((0, 2, 2, -2, 2), (-16, 1, 7, 0));
   ((0, -1, 0, 0, 1), (-12, 0, 6, 0)); ((-2, 0, 0, 2, 1), (-6, 0, 3, 0)); ((0, -1, 2, -2, 1), (-5, 0, 3, 0));
   ((2, 0, 0, -2, 1), (4, 0, -2, 0)); ((0, 1, 2, -2, 1), (4, 0, -2, 0)); ((1, 0, 0, -1, 0), (-4, 0, 0, 0));
   ((2, 1, 0, -2, 0), (1, 0, 0, 0)); ((0, 0, -2, 2, 1), (1, 0, 0, 0)); ((0, 1, -2, 2, 0), (-1, 0, 0, 0));
   ((0, 1, 0, 0, 2), (1, 0, 0, 0)); ((-1, 0, 0, 1, 1), (1, 0, 0, 0)); ((0, 1, 2, -2, 0), (-1, 0, 0, 0));
   ((0, 0, 2, 0, 2), (-2274, -2, 977, -5)); ((1, 0, 0, 0, 0), (712, 1, -7, 0)); ((0, 0, 2, 0, 1), (-386, -4, 200, 0));
   ((1, 0, 2, 0, 2), (-301, 0, 129, -1)); ((1, 0, 0, -2, 0), (-158, 0, -1, 0)); ((-1, 0, 2, 0, 2), (123, 0, -53, 0));
   ((0, 0, 0, 2, 0), (63, 0, -2, 0)); ((1, 0, 0, 0, 1), (63, 1, -33, 0)); ((-1, 0, 0, 0, 1), (-58, -1, 32, 0));
   ((-1, 0, 2, 2, 2), (-59, 0, 26, 0)); ((1, 0, 2, 0, 1), (-51, 0, 27, 0)); ((0, 0, 2, 2, 2), (-38, 0, 16, 0));
   ((2, 0, 0, 0, 0), (29, 0, -1, 0)); ((1, 0, 2, -2, 2), (29, 0, -12, 0)); ((2, 0, 2, 0, 2), (-31, 0, 13, 0));
   ((0, 0, 2, 0, 0), (26, 0, -1, 0)); ((-1, 0, 2, 0, 1), (21, 0, -10, 0)); ((-1, 0, 0, 2, 1), (16, 0, -8, 0));
   ((1, 0, 0, -2, 1), (-13, 0, 7, 0)); ((-1, 0, 2, 2, 1), (-10, 0, 5, 0)); ((1, 1, 0, -2, 0), (-7, 0, 0, 0));
   ((0, 1, 2, 0, 2), (7, 0, -3, 0)); ((0, -1, 2, 0, 2), (-7, 0, 3, 0)); ((1, 0, 2, 2, 2), (-8, 0, 3, 0));
   ((1, 0, 0, 2, 0), (6, 0, 0, 0)); ((2, 0, 2, -2, 2), (6, 0, -3, 0)); ((0, 0, 0, 2, 1), (-6, 0, 3, 0));
   ((0, 0, 2, 2, 1), (-7, 0, 3, 0)); ((1, 0, 2, -2, 1), (6, 0, -3, 0)); ((0, 0, 0, -2, 1), (-5, 0, 3, 0));
   ((1, -1, 0, 0, 0), (5, 0, 0, 0)); ((2, 0, 2, 0, 1), (-5, 0, 3, 0)); ((0, 1, 0, -2, 0), (-4, 0, 0, 0));
   ((1, 0, -2, 0, 0), (4, 0, 0, 0)); ((0, 0, 0, 1, 0), (-4, 0, 0, 0)); ((1, 1, 0, 0, 0), (-3, 0, 0, 0));
   ((1, 0, 2, 0, 0), (3, 0, 0, 0)); ((1, -1, 2, 0, 2), (-3, 0, 1, 0)); ((-1, -1, 2, 2, 2), (-3, 0, 1, 0));
   ((-2, 0, 0, 0, 1), (-2, 0, 1, 0)); ((3, 0, 2, 0, 2), (-3, 0, 1, 0)); ((0, -1, 2, 2, 2), (-3, 0, 1, 0));
   ((1, 1, 2, 0, 2), (2, 0, -1, 0)); ((-1, 0, 2, -2, 1), (-2, 0, 1, 0)); ((2, 0, 0, 0, 1), (2, 0, -1, 0));
   ((1, 0, 0, 0, 2), (-2, 0, 1, 0)); ((3, 0, 0, 0, 0), (2, 0, 0, 0)); ((0, 0, 2, 1, 2), (2, 0, -1, 0));
   ((-1, 0, 0, 0, 2), (1, 0, -1, 0)); ((1, 0, 0, -4, 0), (-1, 0, 0, 0)); ((-2, 0, 2, 2, 2), (1, 0, -1, 0));
   ((-1, 0, 2, 4, 2), (-2, 0, 1, 0)); ((2, 0, 0, -4, 0), (-1, 0, 0, 0)); ((1, 1, 2, -2, 2), (1, 0, -1, 0));
   ((1, 0, 2, 2, 1), (-1, 0, 1, 0)); ((-2, 0, 2, 4, 2), (-1, 0, 1, 0)); ((-1, 0, 4, 0, 2), (1, 0, 0, 0));
   ((1, -1, 0, -2, 0), (1, 0, 0, 0)); ((2, 0, 2, -2, 1), (1, 0, -1, 0)); ((2, 0, 2, 2, 2), (-1, 0, 0, 0));
   ((1, 0, 0, 2, 1), (-1, 0, 0, 0)); ((0, 0, 4, -2, 2), (1, 0, 0, 0)); ((3, 0, 2, -2, 2), (1, 0, 0, 0));
   ((1, 0, 2, -2, 0), (-1, 0, 0, 0)); ((0, 1, 2, 0, 1), (1, 0, 0, 0)); ((-1, -1, 0, 2, 1), (1, 0, 0, 0));
   ((0, 0, -2, 0, 1), (-1, 0, 0, 0)); ((0, 0, 2, -1, 2), (-1, 0, 0, 0)); ((0, 1, 0, 2, 0), (-1, 0, 0, 0));
   ((1, 0, -2, -2, 0), (-1, 0, 0, 0)); ((0, -1, 2, 0, 1), (-1, 0, 0, 0)); ((1, 1, 0, -2, 1), (-1, 0, 0, 0));
   ((1, 0, -2, 2, 0), (-1, 0, 0, 0)); ((2, 0, 0, 2, 0), (1, 0, 0, 0)); ((0, 0, 2, 4, 2), (-1, 0, 0, 0));
   ((0, 1, 0, 1, 0), (1, 0, 0, 0))])%Z.
(** Seconds of arc in radians. *)
Definition arcsec (x : R) : R := x * (PI / 648000).
(** The mean anomalies of the Moon and of the Sun, the Moon's argument of latitude, its elongation and its node;
    T in Julian centuries since J2000; one revolution is 1296000 seconds of arc. *)
Definition fundamental (T : R) : R * R * R * R * R :=
  (arcsec (485866.733 + (1325 * 1296000 + 715922.633) * T + 31.310 * T ^ 2 + 0.064 * T ^ 3),
   arcsec (1287099.804 + (99 * 1296000 + 1292581.224) * T - 0.577 * T ^ 2 - 0.012 * T ^ 3),
   arcsec (335778.877 + (1342 * 1296000 + 295263.137) * T - 13.257 * T ^ 2 + 0.011 * T ^ 3),
   arcsec (1072261.307 + (1236 * 1296000 + 1105601.328) * T - 6.891 * T ^ 2 + 0.019 * T ^ 3),
   arcsec (450160.280 - (5 * 1296000 + 482890.539) * T + 7.455 * T ^ 2 + 0.008 * T ^ 3)).
Definition phase (k : multiples) (a : R * R * R * R * R) : R :=
  let '(k1, k2, k3, k4, k5) := k in let '(a1, a2, a3, a4, a5) := a in
  IZR k1 * a1 + IZR k2 * a2 + IZR k3 * a3 + IZR k4 * a4 + IZR k5 * a5.
Definition opposite (k : multiples) : multiples := let '(a1, a2, a3, a4, a5) := k in (- a1, - a2, - a3, - a4, - a5)%Z.
Definition total_of {T : Type} (f : T -> R) (l : list T) : R := fold_right (fun x s => f x + s) 0 l.
(** In seconds of arc, for given arguments. *)
Definition nutation_lon (a : R * R * R * R * R) (T : R) : R :=
  total_of (fun r => let '(k, (p, p', _, _)) := r in (IZR p + IZR p' / 10 * T) * sin (phase k a)) iau1980 / 10000.
Definition nutation_obl (a : R * R * R * R * R) (T : R) : R :=
  total_of (fun r => let '(k, (_, _, e, e')) := r in (IZR e + IZR e' / 10 * T) * cos (phase k a)) iau1980 / 10000.

(** The mean obliquity of the ecliptic in degrees, 84381.448 seconds of arc at J2000 (IAU 1976). *)
Definition mean_obliquity (T : R) : R := 23 + 26 / 60 + (21.448 - 46.8150 * T - 0.00059 * T ^ 2 + 0.001813 * T ^ 3) / 3600.
(** The five results of earthtilt for given nutations. *)
Definition orientation (T dpsi deps : R) : R * R * R * R * R :=
  let true_obl := mean_obliquity T + deps / 3600 in
  (mean_obliquity T, true_obl, dpsi * cos (true_obl * (PI / 180)) / 15, dpsi, deps).

(** Julian centuries since J2000. *)
Definition centuries (jd : R) : R := (jd - 2451545) / 36525.
(** What the theory gives for a date: mean and true obliquity (degrees), equation of the equinoxes (s), nutation in longitude and in obliquity. *)
Definition theory (jd : R) : R * R * R * R * R :=
  let T := centuries jd in orientation T (nutation_lon (fundamental T) T) (nutation_obl (fundamental T) T).
Definition equinoxes (jd : R) : R := let '(_, _, eq, _, _) := theory jd in eq.
(** Five values within d of five others. *)
Definition near5 (d : R) (a b : R * R * R * R * R) : Prop :=
  let '(a1, a2, a3, a4, a5) := a in let '(b1, b2, b3, b4, b5) := b in
  Rabs (a1 - b1) <= d /\ Rabs (a2 - b2) <= d /\ Rabs (a3 - b3) <= d /\ Rabs (a4 - b4) <= d /\ Rabs (a5 - b5) <= d.

(** ** Sidereal time: Williams, Astron. J. 108 (1994) 711, in seconds *)
(** At 0h UT of the day at T Julian centuries since J2000. *)
Definition sidereal_0h (T : R) : R := 24110.54841 + 8640184.7942063 * T + 0.0927701 * T ^ 2 - 0.0000003 * T ^ 3 - 0.000002 * T ^ 4.
(** The length of a day: 86400 s of UT in sidereal seconds, divided by 86400. *)
Definition sidereal_rate (T : R) : R := 1 + (8640184.7942063 + 2 * 0.0927701 * T - 3 * 0.0000003 * T ^ 2 - 4 * 0.000002 * T ^ 3) / (86400 * 36525).
