(** Concrete settings of the resonance integrator. *)
From Coq Require Import ZArith List Reals Lra Lia.
From Coquelicot Require Import Coquelicot.
From Verif Require Import CLib ArithModel OrbModel DeepModel DeepProofs1 DeepExamples DpsecSetModel DpsecSetSpec DpsecSetProofs1 DpsecSetProofs2.
Import ListNotations.
Open Scope R_scope.

Definition dundee : settings ideal := sxpx_set_implementation_param ideal 1 1 (settings0 ideal).
Definition geo_deep : deep ideal := Deep_dpinit ideal geo_set (sxpx_common_init ideal (d_orb ideal geo_set)).
Lemma near3 s : Rabs s <= 1000 -> Rabs s / z_step ideal dundee + 1 <= INR 3.
Proof.
  intros B. change (z_step ideal dundee) with (int ideal 720). rewrite int_ideal. cbn [INR]. assert (P := Rabs_pos s).
  apply Rplus_le_reg_r with (-1). apply Rmult_le_reg_r with 720; [lra|]. unfold Rdiv. rewrite Rplus_assoc, Rplus_opp_r, Rplus_0_r, Rmult_assoc, Rinv_l by lra. lra.
Qed.
Lemma step_pos : 0 < z_step ideal dundee.
Proof. change (z_step ideal dundee) with (int ideal 720). rewrite int_ideal. lra. Qed.
Lemma ex_history : exists v0 o0 v1 v2 out, SDP4_deep_with ideal 3 dundee 1000 geo_set geo_deep (fresh ideal geo_deep) = Ok (Some (v0, o0))
  /\ SDP4_deep_with ideal 3 dundee 500 geo_set geo_deep v0 = Ok (Some (v1, out))
  /\ SDP4_deep_with ideal 3 dundee 500 geo_set geo_deep (fresh ideal geo_deep) = Ok (Some (v2, out)).
Proof.
  destruct geo_resonant as [r Hr]. fold geo_deep in Hr.
  assert (B : Rabs 1000 <= 1000) by (rewrite Rabs_pos_eq; lra). assert (B' : Rabs 500 <= 1000) by (rewrite Rabs_pos_eq; lra).
  assert (O : (z_order ideal dundee <= 20)%Z) by (cbn; lia).
  destruct (same_as_fresh dundee O geo_set geo_deep r Hr step_pos eq_refl [] _ 3 3 1000 (called_with_0 _ _ _ _) (near3 _ B) (near3 _ B)) as (v0 & _ & o0 & E0 & _).
  destruct (same_as_fresh dundee O geo_set geo_deep r Hr step_pos eq_refl [1000] v0 3 3 500 (called_with_1 _ _ _ _ _ _ _ _ _ _ (called_with_0 _ _ _ _) E0) (near3 _ B') (near3 _ B')) as (v1 & v2 & out & E1 & E2).
  exists v0, o0, v1, v2, out. auto.
Qed.
(** Orders 19 and 21 (the first that does not fit). *)
Lemma ex_orders A om od c l a : (exists ds, compute_dpsec_derivs_with A (sxpx_set_implementation_param A 0 19 (settings0 A)) om od c l a = Ok ds /\ length ds = 20%nat)
  /\ compute_dpsec_derivs_with A (sxpx_set_implementation_param A 0 21 (settings0 A)) om od c l a = UB OutOfBounds.
Proof. split; [destruct c; eexists; split; reflexivity | apply array_ub; cbn; lia]. Qed.
(** The series of order 3 with f lambda = sin lambda, at 0 and with n + c = 1: n + h^2/2, and lambda + h + h^3/6. *)
Lemma ex_series h : taylor_speed sin 3 0 h 1 0 = 1 + h ^ 2 / 2 /\ taylor_angle sin 3 0 h 1 0 = h + h ^ 3 / 6.
Proof.
  unfold taylor_speed, taylor_angle. cbn [sums Nat.sub Derive_n].
  assert (D1 : forall x, Derive (fun x => sin x) x = cos x) by (intros x; apply is_derive_unique, is_derive_Reals, derivable_pt_lim_sin).
  assert (D2 : Derive (Derive (fun x => sin x)) 0 = - sin 0) by (rewrite (Derive_ext _ cos) by exact D1; apply is_derive_unique, is_derive_Reals, derivable_pt_lim_cos).
  change (Derive (fun x : R => Derive (fun x0 : R => sin x0) x) 0) with (Derive (Derive (fun x => sin x)) 0). rewrite D2, D1, sin_0, cos_0.
  cbn [fact Nat.add Nat.mul INR pow]. split; field.
Qed.
(** Steps that never end. *)
Lemma never_back t g r : g_res ideal g = Some r -> forall n s v, SDP4_deep_with ideal n (sxpx_set_dpsec_integration_step ideal (-1) (settings0 ideal)) s t g v = Ok None.
Proof. intros R n s v. apply (never_negative (sxpx_set_dpsec_integration_step ideal (-1) (settings0 ideal)) ltac:(cbn; lia) t g r R n s v). cbn [sxpx_set_dpsec_integration_step z_step]. lra. Qed.
Lemma never_still t g r : g_res ideal g = Some r -> forall n s, s <> 0 -> SDP4_deep_with ideal n (sxpx_set_dpsec_integration_step ideal 0 (settings0 ideal)) s t g (fresh ideal g) = Ok None.
Proof. intros R n s S. apply (never_zero (sxpx_set_dpsec_integration_step ideal 0 (settings0 ideal)) ltac:(cbn; lia) t g r R n s); [reflexivity | exact S]. Qed.
Lemma ignored A x z : sxpx_set_implementation_param A 2 x z = z.
Proof. reflexivity. Qed.
