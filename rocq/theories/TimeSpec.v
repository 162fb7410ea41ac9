(** Greenwich mean sidereal time (Aoki et al. 1982), in real numbers. *)
From Coq Require Import ZArith Reals.
Open Scope R_scope.

(** The midnight (UT) that begins the day of the Julian date jd. *)
Definition day_start (jd : R) : R := IZR (Int_part (jd - 1 / 2)) + 1 / 2.
(** The sidereal time at a midnight, in seconds. *)
Definition sidereal_at_midnight (jd0 : R) : R :=
  let T := (jd0 - 2451545) / 36525 in
  24110.54841 + 8640184.812866 * T + 0.093104 * T ^ 2 - 6.2e-6 * T ^ 3.
(** The sidereal time at jd, in hours, not reduced. *)
Definition gmst_hours (jd : R) : R :=
  24 * (sidereal_at_midnight (day_start jd) / 86400 + 1.00273790934 * (jd - day_start jd)).
