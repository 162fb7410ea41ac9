(** What SGP8 should compute, by Spacetrack Report No. 3 (Hoots and Roehrich, 1980) and without the code: the equations of the decay
    of an orbit in an atmosphere, in the notation of the report.  Units: the radius of the Earth, radians, minutes. *)
From Coq Require Import Reals.
From Verif Require Import OrbSpec.
Open Scope R_scope.

(** ** The equations of decay *)
(** An orbit has the mean motion n, the eccentricity e and the argument of perigee g; its inclination i does not change.  The mean
    motion n0 belongs to the semi-major axis a0. *)
Section Decay.
Context (bstar i n0 a0 : R).
Let th := cos i.
(** The density falls with the fourth power of the height above s, 78 km; q is (q0 - s)^4 with q0 120 km. *)
Definition height_s : R := 1 + 78 / XKMPER.
Definition q_s : R := 1880279159015270643865 / 1000000000000000000000000000000.
Definition axis (n : R) : R := a0 * Rpower (n0 / n) (2 / 3).
Definition par_p (n e : R) : R := axis n * (1 - e ^ 2).
Definition x_i (n e : R) : R := 1 / (par_p n e - height_s).
Definition et_a (n e : R) : R := e * height_s * x_i n e.
Definition psi_2 (n e : R) : R := 1 - et_a n e ^ 2.
Definition alpha (e : R) : R := sqrt (1 + e ^ 2).
Definition B_1 : R := - K2 * (1 - 3 * th ^ 2).
Definition B_2 : R := - K2 * (1 - th ^ 2).
Definition B_3 : R := A30 / K2 * sin i.
Definition D_5 (n e : R) : R := x_i n e / psi_2 n e.
Definition D_1 (n e : R) : R := D_5 n e / par_p n e.
Definition D_2 (h : R) : R := 12 + 36 * h ^ 2 + 9 / 2 * h ^ 4.
Definition D_3 (h : R) : R := 15 * h ^ 2 + 5 / 2 * h ^ 4.
Definition D_4 (h : R) : R := 5 * h + 15 / 4 * h ^ 3.
Definition D_6 (h : R) : R := 30 * h + 45 / 2 * h ^ 3.
Definition D_7 (h : R) : R := 5 * h + 25 / 2 * h ^ 3.
Definition D_8 (h : R) : R := 1 + 27 / 4 * h ^ 2 + h ^ 4.
Definition C_0 (n e : R) : R := bstar * q_s * n * axis n * x_i n e ^ 4 / (alpha e * Rpower (psi_2 n e) (7 / 2)).
Definition C_1 (n e : R) : R := 3 / 2 * n * alpha e ^ 4 * C_0 n e.
(** The rates of the mean motion, of the eccentricity and, from the flattening of the Earth, of the perigee. *)
Definition n_rate (n e g : R) : R :=
  let h := et_a n e in
  C_1 n e * (2 + h ^ 2 * (3 + 34 * e ^ 2) + 5 * e * h * (4 + h ^ 2) + 17 / 2 * e ^ 2
             + D_1 n e * D_2 h * B_1 + D_1 n e * D_3 h * B_2 * cos (2 * g) + D_5 n e * D_4 h * B_3 * sin g).
Definition e_rate (n e g : R) : R :=
  let h := et_a n e in
  - C_0 n e * (h * (4 + h ^ 2 + e ^ 2 * (31 / 2 + 7 * h ^ 2)) + e * (5 + 15 * h ^ 2)
               + D_1 n e * D_6 h * B_1 + D_1 n e * D_7 h * B_2 * cos (2 * g) + D_5 n e * D_8 h * B_3 * sin g).
Definition g_rate (n e : R) : R := - (3 / 2) * K2 * n / par_p n e ^ 2 * (1 - 5 * th ^ 2).
End Decay.

(** F' is the derivative of F around 0; F vanishes at 0 together with its first k derivatives. *)
Definition derives (F F' : R -> R) : Prop := exists d, 0 < d /\ forall t, Rabs t < d -> derivable_pt_lim F t (F' t).
Fixpoint flat (k : nat) (F : R -> R) : Prop :=
  F 0 = 0 /\ match k with O => True | S k => exists F', derives F F' /\ flat k F' end.

(** The curves n, e, g start at the given orbit and obey the equations of decay at the epoch: n to the second order of the time, e and
    g to the first. *)
Definition decays (bstar i n0 a0 e0 w0 : R) (n e g : R -> R) : Prop :=
  n 0 = n0 /\ e 0 = e0 /\ g 0 = w0
  /\ (exists n1, derives n n1 /\ flat 2 (fun t => n1 t - n_rate bstar i n0 a0 (n t) (e t) (g t)))
  /\ (exists e1, derives e e1 /\ flat 1 (fun t => e1 t - e_rate bstar i n0 a0 (n t) (e t) (g t)))
  /\ (exists g1, derives g g1 /\ flat 1 (fun t => g1 t - g_rate i n0 a0 (n t) (e t))).
(** F has the derivatives a, b, c at 0; a, b. *)
Definition jet3 (F : R -> R) (a b c : R) : Prop := exists F1 F2, derives F F1 /\ derives F1 F2 /\ F1 0 = a /\ F2 0 = b /\ derivable_pt_lim F2 0 c.
Definition jet2 (F : R -> R) (a b : R) : Prop := exists F1, derives F F1 /\ F1 0 = a /\ derivable_pt_lim F1 0 b.

(** ** From mean elements at a date to position and velocity *)
(** The secular angles at t when Z has accumulated in the mean anomaly by the growth of the mean motion: the rates of first order
    follow the growth, in proportion to n^(7/3). *)
Section Angles.
Context (i node0 e0 w0 M0 n0 t Z : R).
Let th := cos i.
Let n := n0'' i e0 n0.
Let p := a0'' i e0 n0 * (1 - e0 ^ 2).
Definition M_8 : R := M_DF i e0 M0 n0 t + Z + 7 / 3 * (Z / n) * (- (3 / 2) * n * K2 * sqrt (1 - e0 ^ 2) / p ^ 2 * (1 - 3 * th ^ 2)).
Definition w_8 : R := w_DF i e0 w0 n0 t + 7 / 3 * (Z / n) * (- (3 / 2) * n * K2 / p ^ 2 * (1 - 5 * th ^ 2)).
Definition node_8 : R := node_DF i node0 e0 n0 t + 7 / 3 * (Z / n) * (- 3 * n * K2 / p ^ 2 * th).
End Angles.

Section Place8.
Context (n a e i w node M : R).
Let th := cos i.
Definition newton (x : R) : R := x + (M + e * sin x - x) / (1 - e * cos x).
Definition first_guess : R := M + e * sin M * (1 + e * cos M).
(** E is the approximation of Newton's method, j times improved; the next improvement is within one millionth, or j is 10. *)
Definition solved8 (E : R) : Prop := exists j, (j <= 10)%nat /\ E = Nat.iter j newton first_guess /\ (j = 10%nat \/ Rabs (newton E - E) <= / 10 ^ 6).
Let p := a * (1 - e ^ 2).
(** The short-period terms, at the true anomaly f. *)
Definition d_r (f : R) : R := K2 / (2 * p) * ((1 - th ^ 2) * cos (2 * (f + w)) + 3 * (1 - 3 * th ^ 2)) - A30 / (4 * K2) * sin i * sin (f + w).
Definition d_r' (f r : R) : R := - n * (a / r) ^ 2 * (K2 / p * (1 - th ^ 2) * sin (2 * (f + w)) + A30 / (4 * K2) * sin i * cos (f + w)).
Definition tan_dI (f : R) : R := 3 / 2 * (K2 / p ^ 2) * sin i * cos (2 * (f + w)) - A30 / (4 * K2 * p) * e * sin w.
Definition d_I (f : R) : R := th * tan_dI f.
Definition d_rf (f r : R) : R := - n * (a / r) ^ 2 * d_r f + n * a * (a / r) * sin i * tan_dI f.
(** sin(i/2) times the change of the argument of latitude. *)
Definition s_du (f : R) : R :=
  sin (i / 2) * (K2 / (2 * p ^ 2) * (1 / 2 * (1 - 7 * th ^ 2) * sin (2 * (f + w)) - 3 * (1 - 5 * th ^ 2) * (f - M + e * sin f))
                 - A30 / (4 * K2 * p) * sin i * cos (f + w) * (2 + e * cos f))
  - A30 / (4 * K2 * p) * (1 / 2 * (th ^ 2 / cos (i / 2)) * e * cos w).
Definition d_lam (f : R) : R :=
  K2 / (2 * p ^ 2) * (1 / 2 * (1 + 6 * th - 7 * th ^ 2) * sin (2 * (f + w)) - 3 * (1 - 5 * th ^ 2 + 2 * th) * (f - M + e * sin f))
  + A30 / (4 * K2 * p) * sin i * (e * th / (1 + th) * cos w - (2 + e * cos f) * cos (f + w)).
(** sin(i/2) sin u and sin(i/2) cos u with the terms, to the first order; [now] is the inclination at the date. *)
Definition y_4 (now f : R) : R := sin (now / 2) * sin (f + w) + cos (f + w) * s_du f + 1 / 2 * cos (i / 2) * sin (f + w) * d_I f.
Definition y_5 (now f : R) : R := sin (now / 2) * cos (f + w) - sin (f + w) * s_du f + 1 / 2 * cos (i / 2) * cos (f + w) * d_I f.
Definition placed8 (now E : R) (pos vel : vec3) : Prop :=
  exists f r, 0 <= f < 2 * PI /\ r = a * (1 - e * cos E) /\ r * cos f = a * (cos E - e) /\ r * sin f = a * sqrt (1 - e ^ 2) * sin E /\
    (y_4 now f ^ 2 + y_5 now f ^ 2 <= 1 ->
     exists I u h, 0 <= I <= PI /\ sin (I / 2) * sin u = y_4 now f /\ sin (I / 2) * cos u = y_5 now f /\ u + h = f + w + node + d_lam f /\
       pos = scale (XKMPER * (r + d_r f)) (radial h I u) /\
       vel = scale XKMPER (plus (scale (n * a * e * sin f / sqrt (1 - e ^ 2) + d_r' f r) (radial h I u))
                                (scale (n * a ^ 2 * sqrt (1 - e ^ 2) / r + d_rf f r) (transverse h I u)))).
End Place8.
