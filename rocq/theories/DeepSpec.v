(** What the deep-space propagator should compute, in real numbers.  Nothing here refers to the model of the program. *)
From Coq Require Import ZArith List Reals.
From Verif Require Import OrbSpec.
Import ListNotations.
Open Scope R_scope.

(** ** Resonance with the Earth's rotation *)
(** Kaula's inclination functions (Theory of Satellite Geodesy, 1966, eq. 3.62):
    F_lmp(i) = sum over t <= min(p, k) of (2l-2t)! / (t! (l-t)! (l-m-2t)! 2^(2l-2t)) sin^(l-m-2t) i
               times the sum over s <= m of C(m, s) cos^s i times the sum over c of C(l-m-2t+s, c) C(m-s, p-t-c) (-1)^(c-k),
    where k is the integer part of (l-m)/2. *)
Fixpoint factorial (n : nat) : Z := match n with O => 1 | S m => Z.of_nat n * factorial m end%Z.
Fixpoint binomial (n k : nat) : Z :=
  match n, k with
  | _, O => 1
  | O, S _ => 0
  | S n', S k' => binomial n' k' + binomial n' k
  end%Z.
Definition total (l : list R) : R := fold_right Rplus 0 l.
Definition alternating (n : nat) : Z := if Nat.even n then 1%Z else (-1)%Z.
Definition kaula_inner (l m p t s : nat) : Z :=
  fold_right Z.add 0%Z
    (map (fun c => binomial (l - m - 2 * t + s) c * binomial (m - s) (p - t - c) * alternating (c + Nat.div2 (l - m)))%Z (seq 0 (S (p - t)))).
Definition kaula (l m p : nat) (i : R) : R :=
  total (map (fun t =>
    IZR (factorial (2 * l - 2 * t)) / IZR (factorial t * factorial (l - t) * factorial (l - m - 2 * t) * 2 ^ Z.of_nat (2 * l - 2 * t)) * sin i ^ (l - m - 2 * t)
    * total (map (fun s => IZR (binomial m s) * cos i ^ s * IZR (kaula_inner l m p t s)) (seq 0 (S m))))
    (seq 0 (S (Nat.min p (Nat.div2 (l - m)))))).

(** The acceleration of the mean motion by the tesseral harmonic (l, m): coefficient times the sine of
    (l - 2p) w + (m / r) lambda - G_lm, r the number of revolutions per day; one triple (coefficient, l - 2p, (m / r, G_lm)) for each term. *)
Definition slow_terms : Type := list (R * Z * Z * R).
Definition slow_rate (ts : slow_terms) (w lambda : R) : R :=
  total (map (fun t => let '(d, j, k, G) := t in d * sin (IZR j * w + IZR k * lambda - G)) ts).
Definition slow_size (ts : slow_terms) : R := total (map (fun t => let '(d, _, k, _) := t in Rabs d * Rabs (IZR k)) ts).
(** The phases of the harmonics (Spacetrack Report No. 3, section 9; radians). *)
Definition G22 : R := 57686396 / 10000000.
Definition G32 : R := 95240898 / 100000000.
Definition G44 : R := 18014998 / 10000000.
Definition G52 : R := 10508330 / 10000000.
Definition G54 : R := 44108898 / 10000000.
Definition lambda31 : R := 13130908 / 100000000.
Definition lambda22 : R := 28843198 / 10000000.
Definition lambda33 : R := 37448087 / 100000000.

(** The eccentricity functions, fitted (Spacetrack Report No. 3, section 9; 5740.032 as in later editions of the code). *)
Definition cubic (a b c d e : R) : R := a + b * e + c * e ^ 2 + d * e ^ 3.
Definition upto (b e : R) (low high : R) : R := if Rle_dec e b then low else high.
Definition below (b e : R) (low high : R) : R := if Rlt_dec e b then low else high.
Definition E201 (e : R) : R := -0.306 - 0.44 * (e - 0.64).
Definition E211 (e : R) : R := upto 0.65 e (cubic 3.616 (-13.247) 16.29 0 e) (cubic (-72.099) 331.819 (-508.738) 266.724 e).
Definition E310 (e : R) : R := upto 0.65 e (cubic (-19.302) 117.39 (-228.419) 156.591 e) (cubic (-346.844) 1582.851 (-2415.925) 1246.113 e).
Definition E322 (e : R) : R := upto 0.65 e (cubic (-18.9068) 109.7927 (-214.6334) 146.5816 e) (cubic (-342.585) 1554.908 (-2366.899) 1215.972 e).
Definition E410 (e : R) : R := upto 0.65 e (cubic (-41.122) 242.694 (-471.094) 313.953 e) (cubic (-1052.797) 4758.686 (-7193.992) 3651.957 e).
Definition E422 (e : R) : R := upto 0.65 e (cubic (-146.407) 841.88 (-1629.014) 1083.435 e) (cubic (-3581.69) 16178.11 (-24462.77) 12422.52 e).
Definition E520 (e : R) : R :=
  upto 0.65 e (cubic (-532.114) 3017.977 (-5740.032) 3708.276 e)
    (upto 0.715 e (cubic 1464.74 (-4664.75) 3763.64 0 e) (cubic (-5149.66) 29936.92 (-54087.36) 31324.56 e)).
Definition E533 (e : R) : R := below 0.7 e (cubic (-919.2277) 4988.61 (-9064.77) 5542.21 e) (cubic (-37995.78) 161616.52 (-229838.2) 109377.94 e).
Definition E521 (e : R) : R := below 0.7 e (cubic (-822.71072) 4568.6173 (-8491.4146) 5337.524 e) (cubic (-51752.104) 218913.95 (-309468.16) 146349.42 e).
Definition E532 (e : R) : R := below 0.7 e (cubic (-853.666) 4690.25 (-8624.77) 5341.4 e) (cubic (-40023.88) 170470.89 (-242699.48) 115605.82 e).
Definition E200 (e : R) : R := 1 - 2.5 * e ^ 2 + 0.8125 * e ^ 4.
Definition E300 (e : R) : R := 1 - 6 * e ^ 2 + 6.60937 * e ^ 4.
Definition E310' (e : R) : R := 1 + 2 * e ^ 2.
(** The size of a harmonic on an orbit of mean motion n and semi-major axis a with [rev] revolutions a day. *)
Definition harmonic (n a q : R) (l m rev : nat) (F E : R) : R := 3 * n ^ 2 * (INR m / INR rev) * q / a ^ l * F * E.

(** ** The motion of a point mass near the Earth, with the Moon and the Sun *)
Definition minus (u v : vec3) : vec3 := plus u (scale (-1) v).
Definition norm (u : vec3) : R := sqrt (dot u u).
Definition GM_earth : R := 398600440000000.      (* m^3 / s^2 *)
Definition GM_moon : R := 4902798000000.
Definition GM_sun : R := 132712439940000000000.
(** Newton's law: the attraction of a mass at [from], at the place [at_]. *)
Definition attraction (GM : R) (at_ from : vec3) : vec3 := let d := minus from at_ in scale (GM / norm d ^ 3) d.
Definition origin : vec3 := v3 0 0 0.
(** The acceleration relative to the Earth's centre, which the Moon and the Sun attract as well. *)
Definition newton (moon sun pos : vec3) : vec3 :=
  plus (attraction GM_earth pos origin)
    (plus (minus (attraction GM_moon pos moon) (attraction GM_moon origin moon)) (minus (attraction GM_sun pos sun) (attraction GM_sun origin sun))).

(** The classical Runge-Kutta step of order 4 for s' = f(t, s), over vectors with [pl] and [sc]. *)
Section RungeKutta.
Context {V : Type} (pl : V -> V -> V) (sc : R -> V -> V) (f : R -> V -> V).
Definition runge_kutta (t h : R) (s : V) : V :=
  let k1 := f t s in
  let k2 := f (t + h / 2) (pl s (sc (h / 2) k1)) in
  let k3 := f (t + h / 2) (pl s (sc (h / 2) k2)) in
  let k4 := f (t + h) (pl s (sc h k3)) in
  pl s (sc (h / 6) (pl k1 (pl (sc 2 k2) (pl (sc 2 k3) k4)))).
End RungeKutta.
Definition plus6 (a b : vec3 * vec3) : vec3 * vec3 := (plus (fst a) (fst b), plus (snd a) (snd b)).
Definition scale6 (k : R) (a : vec3 * vec3) : vec3 * vec3 := (scale k (fst a), scale k (snd a)).
(** Position and velocity as a function of time in seconds; the Moon and the Sun are functions of time. *)
Definition motion (moon sun : R -> vec3) (t : R) (s : vec3 * vec3) : vec3 * vec3 := (snd s, newton (moon t) (sun t) (fst s)).

(** Steps of [dts] days one after the other, from the Julian date jd; the Moon and the Sun are functions of the Julian date. *)
Fixpoint integrate (moon sun : R -> vec3) (dts : list R) (jd : R) (s : vec3 * vec3) : vec3 * vec3 :=
  match dts with
  | [] => s
  | dt :: r =>
      integrate moon sun r (jd + dt)
        (runge_kutta plus6 scale6 (motion (fun t => moon (jd + t / 86400)) (fun t => sun (jd + t / 86400))) 0 (86400 * dt) s)
  end.

(** ** The Moon: the largest terms of Meeus, Astronomical Algorithms (1998), chapter 47, without the powers of T in the arguments *)
Section Moon.
Context (T : R).        (* centuries from J2000 *)
Definition deg (x : R) : R := x * PI / 180.
Definition moon_L : R := deg (218.3164477 + 481267.88123421 * T).
Definition moon_D : R := deg (297.8501921 + 445267.1114034 * T).
Definition moon_M : R := deg (357.5291092 + 35999.0502909 * T).
Definition moon_M' : R := deg (134.9633964 + 477198.8675055 * T).
Definition moon_F : R := deg (93.2720950 + 483202.0175233 * T).
(** Table 47.A, the six and the four largest terms (degrees, metres). *)
Definition moon_lon : R :=
  moon_L + deg (6.288774 * sin moon_M' + 1.274027 * sin (2 * moon_D - moon_M') + 0.658314 * sin (2 * moon_D) + 0.213618 * sin (2 * moon_M')
                - 0.185116 * sin moon_M - 0.114332 * sin (2 * moon_F)).
Definition moon_dist : R :=
  385000560 - 20905355 * cos moon_M' - 3699111 * cos (2 * moon_D - moon_M') - 2955968 * cos (2 * moon_D) - 569925 * cos (2 * moon_M').
(** Table 47.B, the four largest terms. *)
Definition moon_lat : R :=
  deg (5.128122 * sin moon_F + 0.280602 * sin (moon_M' + moon_F) + 0.277693 * sin (moon_M' - moon_F) + 0.173237 * sin (2 * moon_D - moon_F)).
(** Chapter 25: the Sun, with the largest term of the equation of the centre (metres). *)
Definition sun_lon : R := deg (280.46646 + 36000.76983 * T) + deg (1.914602 * sin moon_M).
Definition sun_dist : R := 149597870700 * (1 - 0.016708634 * cos moon_M).
End Moon.
(** The point at the given longitude, latitude and distance. *)
Definition polar (lon lat d : R) : vec3 := v3 (d * cos lat * cos lon) (d * cos lat * sin lon) (d * sin lat).
(** The normalised sizes of the harmonics of the Earth's field (Spacetrack Report No. 3, section 9). *)
Definition Q22 : R := 1.7891679e-6.
Definition Q31 : R := 2.1460748e-6.
Definition Q33 : R := 2.2123015e-7.
Definition root22 : R := 1.7891679e-6.
Definition root32 : R := 3.7393792e-7.
Definition root44 : R := 7.3636953e-9.
Definition root52 : R := 1.1428639e-7.
Definition root54 : R := 2.1765803e-9.
(** The two inclination functions of degree 5 and order 2, with coefficients rounded to nine digits as in that report. *)
Definition F522 (i : R) : R := 9.84375 * sin i * ((sin i)² * (1 - 2 * cos i - 5 * (cos i)²) + 0.33333333 * (-2 + 4 * cos i + 6 * (cos i)²)).
Definition F523 (i : R) : R := sin i * (4.92187512 * (sin i)² * (-2 - 4 * cos i + 10 * (cos i)²) + 6.56250012 * (1 + 2 * cos i - 3 * (cos i)²)).
(** The terms of the one-day resonance, w the argument of perigee and lambda the resonant angle; then those of the half-day resonance. *)
Definition day_terms (del1 del2 del3 : R) : slow_terms := [(del1, 0%Z, 1%Z, lambda31); (del2, 0%Z, 2%Z, 2 * lambda22); (del3, 0%Z, 3%Z, 3 * lambda33)].
Definition half_terms (d2201 d2211 d3210 d3222 d4410 d4422 d5220 d5232 d5421 d5433 : R) : slow_terms :=
  [(d2201, 2%Z, 1%Z, G22); (d2211, 0%Z, 1%Z, G22); (d3210, 1%Z, 1%Z, G32); (d3222, (-1)%Z, 1%Z, G32); (d4410, 2%Z, 2%Z, G44); (d4422, 0%Z, 2%Z, G44);
   (d5220, 1%Z, 1%Z, G52); (d5232, (-1)%Z, 1%Z, G52); (d5421, 1%Z, 2%Z, G54); (d5433, (-1)%Z, 2%Z, G54)].
(** One step h of Taylor's method of order 2 for n' = f(lambda), lambda' = n + c, where f1 is f'(lambda): n and lambda after it. *)
Definition taylor2 (c h n lambda f f1 : R) : R * R :=
  (n + h * f + h ^ 2 / 2 * (f1 * (n + c)), lambda + h * (n + c) + h ^ 2 / 2 * f).
