(** The words used in the theorems about the deep-space propagator: histories of calls, and the steps of its integrators. *)
From Coq Require Import ZArith List Reals.
From Flocq Require Import Core IEEE754.BinarySingleNaN.
From Verif Require Import CLib FloatModel ArithModel FloatLemmas OrbModel OrbSpec DeepModel DeepSpec.
Import ListNotations.

Section Terms.
Context (A : arith).
(** The static variables of sdp4.c:86-103 after the positions for the dates [js] were asked for, since the program started. *)
Definition after_dates (js : list (num A)) : cache A :=
  fold_left (fun h j => fst (cached_lunar_solar_position A h j)) js (cache0 A).
(** The state vector (sdp4.c:224-264) after the steps [dts], in days, from the date jd. *)
Fixpoint walk (dts : list (num A)) (h : cache A) (jd : num A) (s : state6 A) : cache A * state6 A :=
  match dts with
  | [] => (h, s)
  | dt :: r => let '(h, s) := high_step A h jd dt s in walk r h (add A jd dt) s
  end.
(** The resonance integrator (deep.c:595-630) after the steps [dts], in minutes: atime, xni, xli. *)
Fixpoint resonance_walk (dts : list (num A)) (derivs : num A -> num A -> num A * num A) (xfact atime xni xli : num A) : num A * num A * num A :=
  match dts with
  | [] => (atime, xni, xli)
  | dt :: r => let '(xli, xni) := dpsec_step A derivs xfact dt atime xni xli in resonance_walk r derivs xfact (add A atime dt) xni xli
  end.
(** The fields that survive a call (deep.c:184, 431-433) after calls of SDP4 for the times [ts], each ended and without undefined behaviour,
    following SDP4_init. *)
Inductive called (t : dorb A) (g : deep A) : list (num A) -> dstate A -> Prop :=
| called_0 : called t g [] (fresh A g)
| called_1 : forall ts n s v v' out, called t g ts v -> SDP4_deep A n s t g v = Ok (Some (v', out)) -> called t g (s :: ts) v'.
End Terms.
Definition sum (l : list R) : R := fold_right Rplus 0%R l.
Open Scope R_scope.
(** A step of at most one day towards t, in real arithmetic and in binary64. *)
Definition signed (t dt : R) : Prop := Rabs dt <= 1 /\ (0 < t -> 0 < dt) /\ (t < 0 -> dt < 0).
Definition signed64 (t : R) (dt : b64) : Prop := fin dt /\ signed t (toR dt).
Definition sum64 (l : list b64) : R := sum (map toR l).
Definition F0 : b64 := round_ratio 0 1.
(** A finite number of at most 2^39 (minutes: a million years). *)
Definition sane (s : b64) : Prop := fin s /\ Rabs (toR s) <= bpow radix2 39.
(** The vectors of the program as vectors of the specification; the positions of the Moon and the Sun (sdp4.c:32-84). *)
Definition to3 (v : vect ideal) : vec3 := let '(x, y, z) := v in v3 x y z.
Definition to6 (s : state6 ideal) : vec3 * vec3 := (to3 (fst s), to3 (snd s)).
Definition first3 (v : vec4 ideal) : vec3 := let '(x, y, z, _) := v in v3 x y z.
Definition moon_at (jd : R) : vec3 := first3 (fst (lunar_solar_position ideal jd)).
Definition sun_at (jd : R) : vec3 := first3 (snd (lunar_solar_position ideal jd)).
(** The terms of the resonance with the coefficients found by Deep_dpinit. *)
Definition terms_of (c : coefs ideal) : slow_terms :=
  match c with
  | Synchronous _ a b c => day_terms a b c
  | Half _ a b c d e f g h i j => half_terms a b c d e f g h i j
  end.
(** The elements of date of SDP4 before the lunar and solar periodic terms, for a mean motion xn and a mean anomaly without drag [base]
    (Spacetrack Report No. 3, sections 6 and 7); q4 stands for (q0 - s)^4; then the place computed from the elements [y] with the periodic terms. *)
Section Date.
Context (t : dorb ideal) (g : deep ideal).
Let o := d_orb ideal t.
Let b : R := o_bstar ideal o.
Let i0 : R := o_xincl ideal o.
Let e0 : R := o_eo ideal o.
Let n0 : R := o_xno ideal o.
Let w0 : R := o_omegao ideal o.
Let M0 : R := o_xmo ideal o.
Let node0 : R := o_xnodeo ideal o.
Context (q4 : R).
Definition elements (xn base s : R) : elems ideal :=
  mk_elems ideal (base + 3 / 2 * n0'' i0 e0 n0 * C1 b i0 e0 n0 q4 * s ^ 2) (w_DF i0 e0 w0 n0 s + g_ssg ideal g * s)
    (mean_node b i0 node0 e0 n0 q4 s + g_ssh ideal g * s) (e0 + g_sse ideal g * s - b * C4 i0 e0 w0 n0 q4 * s) (i0 + g_ssi ideal g * s) xn.
Definition finish (xn s : R) (y : elems ideal) : place ideal :=
  sxpx_posn_vel ideal (y_xnode ideal y) (Rpower (KE / xn) (2 / 3) * (1 - C1 b i0 e0 n0 q4 * s) ^ 2) (y_em ideal y) (cos (y_xinc ideal y)) (sin (y_xinc ideal y))
    (y_xinc ideal y) (y_omgadf ideal y) (y_xll ideal y + y_omgadf ideal y + y_xnode ideal y).
(** The mean anomaly without the drag term: from the mean motion, or from the resonant angle lambda. *)
Definition base_free (s : R) : R := M_DF i0 e0 M0 n0 s + g_ssl ideal g * s.
Definition base_resonant (c : coefs ideal) (lambda s : R) : R :=
  let node := mean_node b i0 node0 e0 n0 q4 s + g_ssh ideal g * s in
  let theta := g_thgr ideal g + 437526908801129966 / 100000000000000000000 * s in
  match c with
  | Half _ _ _ _ _ _ _ _ _ _ _ => lambda - 2 * node + 2 * theta
  | Synchronous _ _ _ _ => lambda - node - (w_DF i0 e0 w0 n0 s + g_ssg ideal g * s) + theta
  end.
End Date.
