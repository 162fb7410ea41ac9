(** The propagator SGP8 (sgp8.c).  Nothing here but the statements. *)
From Coq Require Import ZArith Reals.
From Verif Require Import CLib ArithModel OrbModel OrbSpec Sgp8Model Sgp8Spec Sgp8Proofs3 Sgp8Proofs4 Sgp8Proofs5 Sgp8Proofs6.
Open Scope R_scope.

(** C106: the decay of the orbit. *)
(** Where the drag is felt, mean motion and eccentricity agree with every solution of the equations of decay up to the third and the
    second power of the time, and the mean anomaly gathers the integral of the growth of the mean motion. *)
Theorem C106_decay : forall o (n e g : R -> R) n1 n2 n3 e1 e2,
  let i := o_xincl ideal o in let e0 := o_eo ideal o in let N := n0'' i e0 (o_xno ideal o) in let a := a0'' i e0 (o_xno ideal o) in
  0 < e0 < 1 -> 0 < o_xno ideal o -> 0 < N -> height_s < a * (1 - e0) ->
  decays (o_bstar ideal o) i N a e0 (o_omegao ideal o) n e g -> jet3 n n1 n2 n3 -> jet2 e e1 e2 ->
  216 / 100000 < 1440 * Rabs (n1 / N) -> n2 <> 0 -> n3 <> 0 -> n2 ^ 2 <> n1 * n3 -> 2 * n2 ^ 2 <> n1 * n3 -> 3 * n2 ^ 2 <> 2 * (n1 * n3) -> e1 <> 0 ->
  e1 * (n1 * n3 - n2 ^ 2) <> n1 * n2 * e2 ->
  let at_ t := decay ideal e0 (SGP8_init ideal o) t in
  flat 3 (fun t => fst (fst (at_ t)) - n t) /\ flat 2 (fun t => snd (fst (at_ t)) - e t)
  /\ snd (at_ 0) = 0 /\ (forall t, (n1 * n3 - n2 ^ 2) * t / (n1 * n2) < 1 -> derivable_pt_lim (fun t => snd (at_ t)) t (fst (fst (at_ t)) - N)).
Proof. exact (fun o n e g n1 n2 n3 e1 e2 He Hn HN Ha => decay_ok o He Hn HN Ha n e g n1 n2 n3 e1 e2). Qed.
Print Assumptions C106_decay.
(** Such solutions exist. *)
Theorem C106_solutions : forall o,
  let i := o_xincl ideal o in let e0 := o_eo ideal o in let N := n0'' i e0 (o_xno ideal o) in let a := a0'' i e0 (o_xno ideal o) in
  0 < e0 < 1 -> 0 < N -> height_s < a * (1 - e0) ->
  exists n e g, decays (o_bstar ideal o) i N a e0 (o_omegao ideal o) n e g.
Proof. exact curves_exist. Qed.
Print Assumptions C106_solutions.
(** Elsewhere both are linear in the time, with the rate of the equations of decay for the mean motion and a perigee that stays. *)
Theorem C106_weak_drag : forall o,
  let i := o_xincl ideal o in let e0 := o_eo ideal o in let N := n0'' i e0 (o_xno ideal o) in let a := a0'' i e0 (o_xno ideal o) in
  let rate := n_rate (o_bstar ideal o) i N a N e0 (o_omegao ideal o) in
  0 < e0 < 1 -> 0 < o_xno ideal o -> 0 < N -> height_s < a * (1 - e0) -> 1440 * Rabs (rate / N) <= 216 / 100000 ->
  let at_ t := decay ideal e0 (SGP8_init ideal o) t in
  (forall t, fst (fst (at_ t)) = N + rate * t) /\ (exists k, forall t, snd (fst (at_ t)) = e0 + k * t)
  /\ derivable_pt_lim (fun t => axis N a (fst (fst (at_ t))) * (1 - snd (fst (at_ t)))) 0 0
  /\ forall t, snd (at_ t) = rate * t ^ 2 / 2.
Proof. exact slow_ok. Qed.
Print Assumptions C106_weak_drag.
Theorem C106_density : Rabs (q_s - (42 / XKMPER) ^ 4) <= 1 / 10 ^ 30.
Proof. exact q_is. Qed.
Print Assumptions C106_density.
(** The hypotheses on an orbit of two Earth radii; the fit for the derivatives 1, 1, 1/2 and 1, 1/2, where the mean motion grows by
    2/3 ((1 + t/2)^3 - 1). *)
Example C106_example : (forall bstar, let o := o_oval bstar in 0 < o_eo ideal o < 1 /\ 0 < o_xno ideal o /\ 0 < n0'' (o_xincl ideal o) (o_eo ideal o) (o_xno ideal o)
  /\ height_s < a0'' (o_xincl ideal o) (o_eo ideal o) (o_xno ideal o) * (1 - o_eo ideal o))
  /\ fit ideal 1 (mk_rates8 ideal 1 1 (1 / 2) (1 / 2)) = mk_fit8 ideal 3 (- (1 / 2)) (- (2 / 3)) 2 (-1) (- (1 / 2)).
Proof. exact (conj oval_hyps fit_example). Qed.

(** C107: position and velocity of SGP8. *)
Theorem C107_place : forall o t,
  let i := o_xincl ideal o in let e0 := o_eo ideal o in let n0 := o_xno ideal o in
  0 < e0 < 1 -> 0 < n0 -> 0 < n0'' i e0 n0 -> height_s < a0'' i e0 n0 * (1 - e0) ->
  let p := SGP8_init ideal o in let '(n, e, Z) := decay ideal e0 p t in
  0 < n -> 0 <= e < 1 -> 1 + cos i <> 0 -> cos (i / 2) <> 0 ->
  exists M E k, 0 <= M < 2 * PI /\ M = M_8 i e0 (o_xmo ideal o) n0 t Z + 2 * PI * IZR k /\ solved8 e M E
    /\ pl_code ideal (SGP8 ideal t o p) = 0%Z
    /\ placed8 n (Rpower (KE / n) (2 / 3)) e i (w_8 i e0 (o_omegao ideal o) n0 t Z) (node_8 i (o_xnodeo ideal o) e0 n0 t Z) M i E
         (vec_of (pl_pos ideal (SGP8 ideal t o p))) (vec_of (pl_vel ideal (SGP8 ideal t o p))).
Proof. exact (fun o t He Hn HN Ha => sgp8_ok o He Hn HN Ha t). Qed.
Print Assumptions C107_place.
(** Up to the eccentricity 1/2 the equation of Kepler is always solved. *)
Theorem C107_kepler : forall e M E, 0 <= e <= 1 / 2 -> solved8 e M E -> Rabs (newton e M E - E) <= / 10 ^ 6.
Proof. exact (fun e M E He => solved_half e M He E). Qed.
Print Assumptions C107_kepler.
Example C107_example : first_guess 0 1 = 1 /\ newton 0 1 1 = 1 /\ solved8 0 1 1.
Proof. exact newton_example. Qed.

(** C108: a circular orbit in drag. *)
Theorem C108_circular : forall m o t, zn (o_eo (machine m) o) -> f_fit (machine m) (SGP8_init (machine m) o) <> None ->
  SGP8 (machine m) t o (SGP8_init (machine m) o) = mk_place (machine m) 0 (nan, nan, nan) (nan, nan, nan).
Proof. exact (fun m o t Z => circular_nan m o Z t). Qed.
Print Assumptions C108_circular.
Theorem C108_place_refuted : exists m o, zn (o_eo (machine m) o)
  /\ forall t, SGP8 (machine m) t o (SGP8_init (machine m) o) = mk_place (machine m) 0 (nan, nan, nan) (nan, nan, nan).
Proof. exact no_place8. Qed.
Print Assumptions C108_place_refuted.
Example C108_example : zn (o_eo (machine flat_libm) o_circle) /\ f_fit (machine flat_libm) (SGP8_init (machine flat_libm) o_circle) <> None.
Proof. exact circle_fast. Qed.
