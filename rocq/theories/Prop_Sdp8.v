(** The propagator SDP8 (sdp8.c).  Nothing here but the statements. *)
From Coq Require Import ZArith List Reals.
From Flocq Require Import Core IEEE754.BinarySingleNaN.
From Verif Require Import CLib FloatModel ArithModel FloatLemmas OrbModel OrbSpec DeepModel DeepSpec DeepTerms DeepExamples Sgp8Model Sgp8Spec Sgp8Proofs6 Sdp8Model Sdp8Terms Sdp8Proofs1 Sdp8Proofs2.
Import ListNotations.
Open Scope R_scope.

(** C112: position and velocity of SDP8. *)
(** The terms of the Sun, of the Moon and of the resonances are those of SDP4 (C82, C84, C104, C105). *)
Theorem C112_terms : forall t,
  let o := d_orb ideal t in let i := o_xincl ideal o in let e0 := o_eo ideal o in let n0 := o_xno ideal o in
  0 < e0 < 1 -> 0 < n0 -> height_s < a0'' i e0 n0 * (1 - e0) ->
  exists k, p_deep ideal (SDP8_init ideal t) = with_com k (Deep_dpinit ideal t (sxpx_common_init ideal o)) /\ k_omgdot ideal k = k_omgdot ideal (sxpx_common_init ideal o)
    /\ i_xnodp ideal (k_start ideal k) = n0'' i e0 n0.
Proof. exact same_terms_ex. Qed.
Print Assumptions C112_terms.
Theorem C112_without_resonance : forall t,
  let o := d_orb ideal t in let i := o_xincl ideal o in let e0 := o_eo ideal o in let n0 := o_xno ideal o in let p := SDP8_init ideal t in let g := p_deep ideal p in
  0 < e0 < 1 -> 0 < n0 -> 0 < n0'' i e0 n0 -> height_s < a0'' i e0 n0 * (1 - e0) ->
  forall ts v, called8 ideal t p ts v -> forall s, s <= 10 ^ 20 - 30 -> 1 + cos i <> 0 -> cos (i / 2) <> 0 -> forall n, g_res ideal g = None ->
  exists tau, In tau (s :: ts) /\ Rabs (tau - s) < 30 /\
  let y := apply_perts ideal i (perts_at ideal g tau) (elements8 t g (n0'' i e0 n0) (base_free t g s) s) in
  (0 < y_xn ideal y -> 0 <= y_em ideal y < 1 -> exists v' pl, SDP8 ideal n s t p v = Ok (Some (v', pl)) /\ pl_code ideal pl = 0%Z
     /\ finished8 i y (vec_of (pl_pos ideal pl)) (vec_of (pl_vel ideal pl))).
Proof. exact place8_free. Qed.
Print Assumptions C112_without_resonance.
Theorem C112_in_resonance : forall t,
  let o := d_orb ideal t in let i := o_xincl ideal o in let e0 := o_eo ideal o in let n0 := o_xno ideal o in let p := SDP8_init ideal t in let g := p_deep ideal p in
  0 < e0 < 1 -> 0 < n0 -> 0 < n0'' i e0 n0 -> height_s < a0'' i e0 n0 * (1 - e0) ->
  forall ts v, called8 ideal t p ts v -> forall s, s <= 10 ^ 20 - 30 -> 1 + cos i <> 0 -> cos (i / 2) <> 0 -> forall n r a x l a' x' l',
  g_res ideal g = Some r -> dpsec_start ideal g r s v = (a, x, l) ->
  dpsec_loop ideal n (compute_dpsec_derivs ideal (g_omegaq ideal g) (k_omgdot ideal (g_com ideal g)) (r_coefs ideal r)) (r_xfact ideal r) s a x l = Some (a', x', l') ->
  exists tau, In tau (s :: ts) /\ Rabs (tau - s) < 30 /\
  let y := apply_perts ideal i (perts_at ideal g tau) (elements8 t g x' (base8_resonant t g (r_coefs ideal r) l' s) s) in
  (0 < y_xn ideal y -> 0 <= y_em ideal y < 1 -> exists v' pl, SDP8 ideal n s t p v = Ok (Some (v', pl)) /\ pl_code ideal pl = 0%Z
     /\ finished8 i y (vec_of (pl_pos ideal pl)) (vec_of (pl_vel ideal pl))).
Proof. exact place8_resonant. Qed.
Print Assumptions C112_in_resonance.
Theorem C112_steps : forall t p r ts v s, let g := p_deep ideal p in g_res ideal g = Some r -> called8 ideal t p ts v ->
  let from := if Rlt_dec (Rabs s) (Rabs (s - hd 0 ts)) then 0 else hd 0 ts in
  exists a x l dts, dpsec_start ideal g r s v = (a, x, l) /\ a = from
    /\ Forall (fun d => Rabs d <= 720) dts /\ sum dts = s - from /\ INR (length dts) <= Rmin (Rabs s) (Rabs (s - hd 0 ts)) / 720 + 1
    /\ let derivs := compute_dpsec_derivs ideal (g_omegaq ideal g) (k_omgdot ideal (g_com ideal g)) (r_coefs ideal r) in
       (exists xni' xli', resonance_walk ideal dts derivs (r_xfact ideal r) a x l = (s, xni', xli'))
       /\ forall n, ((length dts <= n)%nat -> dpsec_loop ideal n derivs (r_xfact ideal r) s a x l = Some (resonance_walk ideal dts derivs (r_xfact ideal r) a x l))
                    /\ ((n < length dts)%nat -> dpsec_loop ideal n derivs (r_xfact ideal r) s a x l = None).
Proof. exact resonance_steps8. Qed.
Print Assumptions C112_steps.
(** The hypotheses for an orbit with perigee at 4.5 and apogee at 13.5 Earth radii. *)
Example C112_example : let o := d_orb ideal high_set in let i := o_xincl ideal o in let e := o_eo ideal o in let n := o_xno ideal o in
  (0 < e < 1 /\ 0 < n /\ 0 < n0'' i e n /\ height_s < a0'' i e n * (1 - e) /\ 1 + cos i <> 0 /\ cos (i / 2) <> 0) /\ g_res ideal (p_deep ideal (SDP8_init ideal high_set)) = None.
Proof. exact (conj high8 high8_free). Qed.

(** C113: what SGP8 and SDP8 do with an orbit or a time they cannot use. *)
Theorem C113_eccentricity : forall m o p t, let e := snd (fst (decay (machine m) (o_eo (machine m) o) p t)) in fin e -> 1 < Rabs (toR e) <= bpow radix2 500 ->
  SGP8 (machine m) t o p = mk_place (machine m) 0 (nan, nan, nan) (nan, nan, nan).
Proof. exact sgp8_beyond. Qed.
Print Assumptions C113_eccentricity.
Theorem C113_report_refuted : exists m o t s, o = d_orb (machine m) t /\ 0 < toR (o_eo (machine m) o) < 1 /\ 0 < toR (o_xno (machine m) o) /\ fin s /\
  exists v', SDP8 (machine m) 5 s t (SDP8_init (machine m) t) (fresh (machine m) (p_deep (machine m) (SDP8_init (machine m) t)))
    = Ok (Some (v', mk_place (machine m) 0 (nan, nan, nan) (nan, nan, nan))).
Proof. exact no_report. Qed.
Print Assumptions C113_report_refuted.
Theorem C113_written_first_refuted : exists s, forall m n t p, g_res (machine m) (p_deep (machine m) p) = None ->
  SDP8 (machine m) n s t p (fresh (machine m) (p_deep (machine m) p)) = UB Uninit.
Proof. exact (ex_intro _ B754_nan sdp8_nan). Qed.
Print Assumptions C113_written_first_refuted.
Theorem C113_ends_refuted : exists s, forall m n t p r, g_res (machine m) (p_deep (machine m) p) = Some r ->
  SDP8 (machine m) n s t p (fresh (machine m) (p_deep (machine m) p)) = Ok None.
Proof. exact (ex_intro _ (B754_infinity false) sdp8_never). Qed.
Print Assumptions C113_ends_refuted.
Example C113_example : let e := snd (fst (decay (machine flat_libm) (o_eo (machine flat_libm) o_slow) (SGP8_init (machine flat_libm) o_slow) (round_ratio (-1000000000) 1))) in
  fin e /\ 1 < Rabs (toR e) <= bpow radix2 500.
Proof. exact past_e. Qed.
