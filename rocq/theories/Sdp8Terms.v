(** The words used in the theorems about SDP8: histories of calls, and the elements of date before the lunar and solar periodic terms. *)
From Coq Require Import ZArith List Reals.
From Verif Require Import CLib ArithModel OrbModel OrbSpec DeepModel DeepSpec DeepTerms Sgp8Model Sgp8Spec Sdp8Model.
Import ListNotations.
Open Scope R_scope.

(** The fields that survive a call after calls of SDP8 for the times [ts], each ended and without undefined behaviour, following SDP8_init. *)
Inductive called8 (A : arith) (t : dorb A) (p : par8d A) : list (num A) -> dstate A -> Prop :=
| called8_0 : called8 A t p [] (fresh A (p_deep A p))
| called8_1 : forall ts n s v v' out, called8 A t p ts v -> SDP8 A n s t p v = Ok (Some (v', out)) -> called8 A t p (s :: ts) v'.

(** The parameters g with k in the place of its part shared with the other propagators. *)
Definition with_com (k : common_t ideal) (g : deep ideal) : deep ideal :=
  mk_deep ideal k (g_thgr ideal g) (g_omegaq ideal g) (g_zmol ideal g) (g_zmos ideal g) (g_sse ideal g) (g_ssi ideal g) (g_ssl ideal g) (g_ssg ideal g) (g_ssh ideal g)
    (g_sun ideal g) (g_moon ideal g) (g_res ideal g).

(** The elements of date, for the mean motion n of the resonance or of the epoch, the angle [base] from it, and the rates of the Sun and
    the Moon in g: the mean motion grows at the rate of the equations of decay, the eccentricity so that the perigee stays, and the
    angles as in SGP8. *)
Section Date8.
Context (t : dorb ideal) (g : deep ideal).
Let o := d_orb ideal t.
Let i0 : R := o_xincl ideal o.
Let e0 : R := o_eo ideal o.
Let n0 : R := o_xno ideal o.
Let N := n0'' i0 e0 n0.
Definition rate8 : R := n_rate (o_bstar ideal o) i0 N (a0'' i0 e0 n0) N e0 (o_omegao ideal o).
Definition grown (s : R) : R := rate8 * s ^ 2 / 2.
Definition omega8 (s : R) : R := w_8 i0 e0 (o_omegao ideal o) n0 s (grown s) + g_ssg ideal g * s.
Definition node8 (s : R) : R := node_8 i0 (o_xnodeo ideal o) e0 n0 s (grown s) + g_ssh ideal g * s.
Definition elements8 (n base s : R) : elems ideal :=
  mk_elems ideal (base + grown s + 7 / 3 * (grown s / N) * (- (3 / 2) * N * K2 * sqrt (1 - e0 ^ 2) / (a0'' i0 e0 n0 * (1 - e0 ^ 2)) ^ 2 * (1 - 3 * cos i0 ^ 2)))
    (omega8 s) (node8 s)
    (e0 + g_sse ideal g * s - 2 / 3 * (rate8 / N) * (1 - e0) * s) (i0 + g_ssi ideal g * s) (n + rate8 * s).
Definition base8_resonant (c : coefs ideal) (lambda s : R) : R :=
  let theta := g_thgr ideal g + 437526908801129966 / 100000000000000000000 * s in
  match c with
  | Half _ _ _ _ _ _ _ _ _ _ _ => lambda - 2 * node8 s + 2 * theta
  | Synchronous _ _ _ _ => lambda - node8 s - omega8 s + theta
  end.
End Date8.
(** What SDP8 computes from the elements y with the periodic terms: the place of the report's equations, for the inclination i0 of the
    epoch in the short-period terms and the inclination of date elsewhere. *)
Definition finished8 (i0 : R) (y : elems ideal) (pos vel : vec3) : Prop :=
  exists M E k, 0 <= M < 2 * PI /\ M = y_xll ideal y + 2 * PI * IZR k /\ solved8 (y_em ideal y) M E
    /\ placed8 (y_xn ideal y) (Rpower (KE / y_xn ideal y) (2 / 3)) (y_em ideal y) i0 (y_omgadf ideal y) (y_xnode ideal y) M (y_xinc ideal y) E pos vel.
