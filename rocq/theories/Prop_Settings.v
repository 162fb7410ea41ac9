(** The settings of the resonance integrator (deep.c).  Nothing here but the statements. *)
From Coq Require Import ZArith List Reals.
From Verif Require Import CLib ArithModel OrbModel DeepModel DeepExamples DpsecSetModel DpsecSetSpec DpsecSetProofs1 DpsecSetProofs2 DpsecSetRuns.
Import ListNotations.
Open Scope R_scope.

(** C123: the settings of the resonance integrator. *)
(** With the settings at the start, in any arithmetic, the model of C41-C45 and C81-C83. *)
Theorem C123_default : forall A n s t g v, SDP4_deep_with A n (settings0 A) s t g v = SDP4_deep A n s t g v.
Proof. exact default_same. Qed.
Print Assumptions C123_default.
(** One step, for every order that can be used, is a Taylor series of that order in the acceleration of C82. *)
Theorem C123_series : forall z om od c l a xfact h n, (z_order ideal z <= 20)%Z ->
  exists ds, compute_dpsec_derivs_with ideal z om od c l a = Ok ds
  /\ dpsec_step_with ideal z ds xfact h n l =
     (taylor_angle (fun u => fst (compute_dpsec_derivs ideal om od c u a)) (Z.to_nat (z_order ideal z)) xfact h n l,
      taylor_speed (fun u => fst (compute_dpsec_derivs ideal om od c u a)) (Z.to_nat (z_order ideal z)) xfact h n l).
Proof. exact step_series. Qed.
Print Assumptions C123_series.
Example C123_series_example : forall h, taylor_speed sin 3 0 h 1 0 = 1 + h ^ 2 / 2 /\ taylor_angle sin 3 0 h 1 0 = h + h ^ 3 / 6.
Proof. exact ex_series. Qed.
(** Any order above 20 writes beyond the array, in the first turn of the first call for a resonant orbit. *)
Theorem C123_order_refuted : exists p, forall A n z s t g v r, g_res A g = Some r ->
  SDP4_deep_with A (S n) (sxpx_set_implementation_param A 0 p z) s t g v = UB OutOfBounds.
Proof. exact (ex_intro _ 21%Z (fun A n z s t g v r R => sdp_ub A n (sxpx_set_implementation_param A 0 21 z) s t g v r eq_refl R)). Qed.
Print Assumptions C123_order_refuted.
Theorem C123_order : forall A n z s t g v r, (20 < z_order A z)%Z -> g_res A g = Some r -> SDP4_deep_with A (S n) z s t g v = UB OutOfBounds.
Proof. exact sdp_ub. Qed.
Print Assumptions C123_order.
Example C123_order_example : forall A om od c l a,
  (exists ds, compute_dpsec_derivs_with A (sxpx_set_implementation_param A 0 19 (settings0 A)) om od c l a = Ok ds /\ length ds = 20%nat)
  /\ compute_dpsec_derivs_with A (sxpx_set_implementation_param A 0 21 (settings0 A)) om od c l a = UB OutOfBounds.
Proof. exact ex_orders. Qed.
(** A call ends, after a number of turns that does not depend on the calls before it, when the step is positive ... *)
Theorem C123_ends : forall z, (z_order ideal z <= 20)%Z -> forall t g r, g_res ideal g = Some r -> forall n s y v,
  0 < z_step ideal z -> Rabs s / z_step ideal z + 1 <= INR n -> exists e, Deep_dpsec_with ideal n z t g s y v = Ok (Some e).
Proof. exact dpsec_ends. Qed.
Print Assumptions C123_ends.
(** ... and does not when it is negative, or zero and the time is not the epoch. *)
Theorem C123_negative_step_refuted : exists h, forall t g r, g_res ideal g = Some r ->
  forall n s v, SDP4_deep_with ideal n (sxpx_set_dpsec_integration_step ideal h (settings0 ideal)) s t g v = Ok None.
Proof. exact (ex_intro _ (-1) never_back). Qed.
Print Assumptions C123_negative_step_refuted.
Theorem C123_zero_step_refuted : exists h, forall t g r, g_res ideal g = Some r ->
  forall n s, s <> 0 -> SDP4_deep_with ideal n (sxpx_set_dpsec_integration_step ideal h (settings0 ideal)) s t g (fresh ideal g) = Ok None.
Proof. exact (ex_intro _ 0 never_still). Qed.
Print Assumptions C123_zero_step_refuted.
Theorem C123_negative_step : forall z, (z_order ideal z <= 20)%Z -> forall t g r, g_res ideal g = Some r -> forall n s v,
  z_step ideal z < 0 -> SDP4_deep_with ideal n z s t g v = Ok None.
Proof. exact never_negative. Qed.
Print Assumptions C123_negative_step.
(** With Dundee compliance a call gives what the same call gives straight after SDP4_init, whatever was called before. *)
Theorem C123_dundee : forall z, (z_order ideal z <= 20)%Z -> forall t g r, g_res ideal g = Some r -> 0 < z_step ideal z -> z_dundee ideal z = true ->
  forall ts v n n' s, called_with ideal z t g ts v -> Rabs s / z_step ideal z + 1 <= INR n -> Rabs s / z_step ideal z + 1 <= INR n' ->
  exists v1 v2 out, SDP4_deep_with ideal n z s t g v = Ok (Some (v1, out)) /\ SDP4_deep_with ideal n' z s t g (fresh ideal g) = Ok (Some (v2, out)).
Proof. exact same_as_fresh. Qed.
Print Assumptions C123_dundee.
Example C123_dundee_example : exists v0 o0 v1 v2 out, SDP4_deep_with ideal 3 dundee 1000 geo_set geo_deep (fresh ideal geo_deep) = Ok (Some (v0, o0))
  /\ SDP4_deep_with ideal 3 dundee 500 geo_set geo_deep v0 = Ok (Some (v1, out))
  /\ SDP4_deep_with ideal 3 dundee 500 geo_set geo_deep (fresh ideal geo_deep) = Ok (Some (v2, out)).
Proof. exact ex_history. Qed.
(** The setting SXPX_ZERO_PERTURBATIONS_AT_EPOCH (number 2) of norad.h is ignored, as is every number but 0 and 1. *)
Theorem C123_epoch_setting_refuted : exists p, forall A x z, sxpx_set_implementation_param A p x z = z.
Proof. exact (ex_intro _ 2%Z ignored). Qed.
Print Assumptions C123_epoch_setting_refuted.
