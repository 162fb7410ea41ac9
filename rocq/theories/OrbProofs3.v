(** Kepler's equation, in real arithmetic. *)
From Coq Require Import ZArith Reals Lra Lia Bool Psatz.
From Verif Require Import CLib ArithModel GeoLemmas OrbModel OrbSpec OrbProofs1 OrbProofs2.
Open Scope R_scope.

Lemma Rtrunc_near x : Rabs (x - IZR (Rtrunc x)) < 1.
Proof.
  unfold Rtrunc. destruct (Rle_dec 0 x).
  - destruct (base_Int_part x). apply Rabs_def1; lra.
  - destruct (base_Int_part (- x)). rewrite opp_IZR. apply Rabs_def1; lra.
Qed.
Lemma Rfmod_range x y : 0 < y -> Rabs (Rfmod x y) < y.
Proof.
  intros H. unfold Rfmod. assert (T := Rtrunc_near (x / y)).
  replace (x - IZR (Rtrunc (x / y)) * y) with ((x / y - IZR (Rtrunc (x / y))) * y) by (field; lra).
  rewrite Rabs_mult, (Rabs_right y) by lra. set (q := Rabs _) in *. apply Rlt_le_trans with (1 * y); [apply Rmult_lt_compat_r|]; lra.
Qed.
Lemma o_twopi_eq : o_twopi ideal = 2 * PI.
Proof. unfold o_twopi, o_pi, int. cbn. lra. Qed.
Lemma o_pi_eq : o_pi ideal = PI. Proof. reflexivity. Qed.
Lemma centralize_ok x : (exists k, centralize_angle ideal x = x - 2 * PI * IZR k) /\ - PI <= centralize_angle ideal x <= PI.
Proof.
  unfold centralize_angle. change (num ideal) with R in *. cbn [ltn sub add opp c_fmod ideal]. rewrite o_twopi_eq, o_pi_eq.
  assert (P := PI_RGT_0). assert (F := Rfmod_range x (2 * PI) ltac:(lra)). apply Rabs_def2 in F.
  set (f := Rfmod x (2 * PI) : R) in *. change (num ideal) with R in *. assert (K : f = x - 2 * PI * IZR (Rtrunc (x / (2 * PI)))) by (unfold f, Rfmod; ring).
  destruct (Rltb PI f) eqn:Q1; [apply Rltb_t in Q1 | apply Rltb_f in Q1; destruct (Rltb f (- PI)) eqn:Q2; [apply Rltb_t in Q2 | apply Rltb_f in Q2]].
  - split; [|lra]. exists (Rtrunc (x / (2 * PI)) + 1)%Z. rewrite plus_IZR, K. ring.
  - split; [|lra]. exists (Rtrunc (x / (2 * PI)) - 1)%Z. rewrite minus_IZR, K. ring.
  - split; [|lra]. exists (Rtrunc (x / (2 * PI))). exact K.
Qed.

Lemma kepler_sound ax ay U ecc : forall n first E0 E, kepler ideal n first ax ay U ecc E0 = Some E ->
  Rabs (U - E + (ax * sin E - ay * cos E)) < 1 / 1000000000000.
Proof.
  induction n as [|n IH]; intros first E0 E H; [discriminate H|].
  cbn [kepler] in H. cbn [c_sin c_cos add sub mul div c_fabs ltn cst ideal] in H.
  destruct (Rltb (Rabs (U - E0 + (ax * sin E0 - ay * cos E0))) _) eqn:Q.
  - injection H as <-. apply Rltb_t in Q. exact Q.
  - destruct (if first then _ else _) as [d s]. exact (IH _ _ _ H).
Qed.

Lemma Rabs_inv a b : Rabs a <= b -> - b <= a <= b.
Proof. unfold Rabs. destruct (Rcase_abs a); lra. Qed.

(** The left side of Kepler's equation grows at least at the rate 1 - eL. *)
Section Mono.
Context (x y : R) (H : x * x + y * y < 1).
Let el := sqrt (x * x + y * y).
Lemma el_range : 0 <= el < 1.
Proof.
  split; [apply sqrt_pos|]. rewrite <- sqrt_1. apply sqrt_lt_1; try lra.
  assert (0 <= x * x) by apply Rle_0_sqr. assert (0 <= y * y) by apply Rle_0_sqr. lra.
Qed.
Lemma el_bound t : Rabs (x * cos t + y * sin t) <= el /\ Rabs (x * sin t - y * cos t) <= el.
Proof.
  assert (S := sc2 t).
  assert (Q : (x * cos t + y * sin t) * (x * cos t + y * sin t) + (x * sin t - y * cos t) * (x * sin t - y * cos t) = x * x + y * y).
  { transitivity ((x * x + y * y) * (sin t * sin t + cos t * cos t)); [ring|]. rewrite S. ring. }
  assert (0 <= (x * cos t + y * sin t) * (x * cos t + y * sin t)) by apply Rle_0_sqr.
  assert (0 <= (x * sin t - y * cos t) * (x * sin t - y * cos t)) by apply Rle_0_sqr.
  split; rewrite <- sqrt_Rsqr_abs; apply sqrt_le_1; unfold Rsqr; lra.
Qed.
Definition g_left (t : R) : R := t - x * sin t + y * cos t.
Lemma g_der t : derivable_pt_lim g_left t (1 - (x * cos t + y * sin t)).
Proof.
  replace (1 - (x * cos t + y * sin t)) with ((1 - x * cos t) + y * (- sin t)) by ring.
  unfold g_left.
  apply (derivable_pt_lim_plus (fun t => t - x * sin t) (fun t => y * cos t)).
  - apply (derivable_pt_lim_minus (fun t => t) (fun t => x * sin t)).
    + apply derivable_pt_lim_id.
    + apply (derivable_pt_lim_scal sin). apply derivable_pt_lim_sin.
  - apply (derivable_pt_lim_scal cos). apply derivable_pt_lim_cos.
Qed.
Lemma g_grows s t : s <= t -> (1 - el) * (t - s) <= g_left t - g_left s.
Proof.
  intros Q. destruct (Req_dec s t) as [->|N]. { lra. }
  destruct (MVT_cor2 g_left (fun t => 1 - (x * cos t + y * sin t)) s t) as (c & C1 & C2); [lra | intros; apply g_der |].
  rewrite C1. destruct (el_bound c) as [B _]. apply Rabs_inv in B. apply Rmult_le_compat_r; lra.
Qed.
Lemma g_onto U : exists t, g_left t = U.
Proof.
  assert (C : continuity (fun t => g_left t - U)).
  { apply continuity_minus; [|apply continuity_const; intros ?; reflexivity].
    intros t. apply derivable_continuous_pt. exists (1 - (x * cos t + y * sin t)). apply g_der. }
  destruct (IVT (fun t => g_left t - U) (U - 2) (U + 2) C) as (t & T1 & T2); [lra | | |].
  - unfold g_left. destruct (el_bound (U - 2)) as [_ B]. apply Rabs_inv in B. destruct el_range. lra.
  - unfold g_left. destruct (el_bound (U + 2)) as [_ B]. apply Rabs_inv in B. destruct el_range. lra.
  - exists t. lra.
Qed.
Lemma g_near s t : Rabs (t - s) <= Rabs (g_left t - g_left s) / (1 - el).
Proof.
  destruct el_range as [E1 E2].
  apply Rmult_le_reg_r with (1 - el); [lra|]. unfold Rdiv. rewrite Rmult_assoc, Rinv_l, Rmult_1_r by lra.
  destruct (Rle_dec s t) as [Q|Q].
  - assert (G := g_grows s t Q). rewrite (Rabs_right (t - s)) by lra. assert (0 <= (1 - el) * (t - s)) by (apply Rmult_le_pos; lra).
    rewrite Rabs_right by lra. lra.
  - assert (G := g_grows t s ltac:(lra)). rewrite (Rabs_left (t - s)) by lra. assert (0 <= (1 - el) * (s - t)) by (apply Rmult_le_pos; lra).
    rewrite (Rabs_minus_sym (g_left t)), Rabs_right by lra. lra.
Qed.
End Mono.
