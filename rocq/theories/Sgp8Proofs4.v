(** Curves that obey the equations of decay exist; the decay of SGP8 when the drag is weak. *)
From Coq Require Import ZArith Reals Lra Psatz.
From Verif Require Import CLib ArithModel GeoLemmas OrbModel OrbSpec OrbProofs5 OrbExamples DeepProofs1 DeepProofs7 ThirdProofs1 Sgp8Model Sgp8Spec Sgp8Proofs1 Sgp8Proofs2 Sgp8Proofs3.
Open Scope R_scope.

Lemma cubic_1 c0 c1 c2 c3 : derives (fun t => c0 + c1 * t + c2 / 2 * (t * t) + c3 / 6 * (t * t * t)) (fun t => c1 + c2 * t + c3 / 2 * (t * t)).
Proof. apply near_all. intros t. eapply D_eq; [derive|cbv beta; field]. Qed.
Lemma cubic_2 c1 c2 c3 : derives (fun t => c1 + c2 * t + c3 / 2 * (t * t)) (fun t => c2 + c3 * t).
Proof. apply near_all. intros t. eapply D_eq; [derive|cbv beta; field]. Qed.
Lemma cubic_3 c2 c3 : derives (fun t => c2 + c3 * t) (fun _ => c3).
Proof. apply near_all. intros t. eapply D_eq; [derive|cbv beta; ring]. Qed.

Section Exist.
Context (b i N a e0 w0 : R).
Context (HN : 0 < N) (Ha : 0 < a) (Hs : height_s < par_p N a N e0) (Hp : 0 < psi_2 N a N e0) (He : e0 ^ 2 < 1).
Let k (x : R) : R -> R := fun _ => x.
Let r1 := n_rate b i N a N e0 w0.
Let s1 := e_rate b i N a N e0 w0.
Let u1 := g_rate i N a N e0.
Let r2 := N1 b i N a (k N) (k e0) (k w0) (k r1) (k s1) (k u1) 0.
Let s2 := E1 b i N a (k N) (k e0) (k w0) (k r1) (k s1) (k u1) 0.
Let u2 := u1 * (Nn (k N) (k r1) 0 + 2 * D15 (k N) (k e0) (k r1) (k s1) 0).
Let r3 := N2 b i N a (k N) (k e0) (k w0) (k r1) (k s1) (k u1) (k r2) (k s2) (k u2) 0.
Definition n_curve t := N + r1 * t + r2 / 2 * (t * t) + r3 / 6 * (t * t * t).
Definition e_curve t := e0 + s1 * t + s2 / 2 * (t * t) + 0 / 6 * (t * t * t).
Definition g_curve t := w0 + u1 * t + u2 / 2 * (t * t) + 0 / 6 * (t * t * t).
Lemma curves_decay : decays b i N a e0 w0 n_curve e_curve g_curve.
Proof.
  set (n1 := fun t => r1 + r2 * t + r3 / 2 * (t * t)). set (e1 := fun t => s1 + s2 * t + 0 / 2 * (t * t)). set (g1 := fun t => u1 + u2 * t + 0 / 2 * (t * t)).
  set (n2 := fun t => r2 + r3 * t). set (e2 := fun t => s2 + 0 * t). set (g2 := fun t => u2 + 0 * t).
  assert (n_0 : n_curve 0 = N) by (unfold n_curve; ring). assert (e_0 : e_curve 0 = e0) by (unfold e_curve; field). assert (g_0 : g_curve 0 = w0) by (unfold g_curve; field).
  assert (n1_0 : n1 0 = r1) by (unfold n1; field). assert (e1_0 : e1 0 = s1) by (unfold e1; field). assert (g1_0 : g1 0 = u1) by (unfold g1; field).
  assert (n2_0 : n2 0 = r2) by (unfold n2; field). assert (e2_0 : e2 0 = s2) by (unfold e2; field). assert (g2_0 : g2 0 = u2) by (unfold g2; field).
  assert (Dn : derives n_curve n1) by apply cubic_1. assert (De : derives e_curve e1) by apply cubic_1. assert (Dg : derives g_curve g1) by apply cubic_1.
  assert (Dn1 : derives n1 n2) by apply cubic_2. assert (De1 : derives e1 e2) by apply cubic_2. assert (Dg1 : derives g1 g2) by apply cubic_2.
  assert (Dn2 : derives n2 (fun _ => r3)) by apply cubic_3.
  assert (GD := good_near N a e0 n_curve e_curve HN Ha Hs Hp He n1 e1 n_0 e_0 Dn De).
  assert (R2 : N1 b i N a n_curve e_curve g_curve n1 e1 g1 0 = r2).
  { transitivity (N1 b i N a (k (n_curve 0)) (k (e_curve 0)) (k (g_curve 0)) (k (n1 0)) (k (e1 0)) (k (g1 0)) 0); [reflexivity|]. rewrite n_0, e_0, g_0, n1_0, e1_0, g1_0. reflexivity. }
  assert (S2 : E1 b i N a n_curve e_curve g_curve n1 e1 g1 0 = s2).
  { transitivity (E1 b i N a (k (n_curve 0)) (k (e_curve 0)) (k (g_curve 0)) (k (n1 0)) (k (e1 0)) (k (g1 0)) 0); [reflexivity|]. rewrite n_0, e_0, g_0, n1_0, e1_0, g1_0. reflexivity. }
  assert (U2 : g_rate i N a (n_curve 0) (e_curve 0) * (Nn n_curve n1 0 + 2 * D15 n_curve e_curve n1 e1 0) = u2).
  { transitivity (g_rate i N a (n_curve 0) (e_curve 0) * (Nn (k (n_curve 0)) (k (n1 0)) 0 + 2 * D15 (k (n_curve 0)) (k (e_curve 0)) (k (n1 0)) (k (e1 0)) 0)); [reflexivity|].
    rewrite n_0, e_0, n1_0, e1_0. reflexivity. }
  assert (R3 : N2 b i N a n_curve e_curve g_curve n1 e1 g1 n2 e2 g2 0 = r3).
  { transitivity (N2 b i N a (k (n_curve 0)) (k (e_curve 0)) (k (g_curve 0)) (k (n1 0)) (k (e1 0)) (k (g1 0)) (k (n2 0)) (k (e2 0)) (k (g2 0)) 0); [reflexivity|].
    rewrite n_0, e_0, g_0, n1_0, e1_0, g1_0, n2_0, e2_0, g2_0. reflexivity. }
  split; [exact n_0|]. split; [exact e_0|]. split; [exact g_0|]. split; [|split].
  - exists n1. split; [exact Dn|]. split; [rewrite n_0, e_0, g_0, n1_0; unfold r1; ring|].
    exists (fun t => n2 t - N1 b i N a n_curve e_curve g_curve n1 e1 g1 t). split.
    { apply derives_minus; [exact Dn1|]. generalize (near_and _ _ GD (near_and _ _ Dn (near_and _ _ De Dg))). apply near_imp. intros t ((P1 & P2 & P3 & P4) & X1 & X2 & X3). apply D_NR; assumption. }
    split; [rewrite R2, n2_0; ring|]. eexists. split.
    { apply derives_minus; [exact Dn2|]. generalize (near_and _ _ GD (near_and _ _ Dn (near_and _ _ De (near_and _ _ Dg (near_and _ _ Dn1 (near_and _ _ De1 Dg1)))))). apply near_imp.
      intros t ((P1 & P2 & P3 & P4) & X1 & X2 & X3 & X4 & X5 & X6). apply (D_N1 b i N a n_curve e_curve g_curve n1 e1 g1 t) with (n2 := n2) (e2 := e2) (g2 := g2); assumption. }
    split; [|exact I]. cbv beta. rewrite R3. ring.
  - exists e1. split; [exact De|]. split; [rewrite n_0, e_0, g_0, e1_0; unfold s1; ring|].
    exists (fun t => e2 t - E1 b i N a n_curve e_curve g_curve n1 e1 g1 t). split.
    { apply derives_minus; [exact De1|]. generalize (near_and _ _ GD (near_and _ _ Dn (near_and _ _ De Dg))). apply near_imp. intros t ((P1 & P2 & P3 & P4) & X1 & X2 & X3). apply D_ER; assumption. }
    split; [rewrite S2, e2_0; ring|exact I].
  - exists g1. split; [exact Dg|]. split; [rewrite n_0, e_0, g1_0; unfold u1; ring|].
    exists (fun t => g2 t - g_rate i N a (n_curve t) (e_curve t) * (Nn n_curve n1 t + 2 * D15 n_curve e_curve n1 e1 t)). split.
    { apply derives_minus; [exact Dg1|]. generalize (near_and _ _ GD (near_and _ _ Dn (near_and _ _ De Dg))). apply near_imp. intros t ((P1 & P2 & P3 & P4) & X1 & X2 & X3). apply D_GR; assumption. }
    split; [rewrite U2, g2_0; ring|exact I].
Qed.
End Exist.

Section Slow.
Context (o : orb ideal).
Let i : R := o_xincl ideal o.
Let e0 : R := o_eo ideal o.
Let w0 : R := o_omegao ideal o.
Let b : R := o_bstar ideal o.
Let N : R := n0'' i e0 (o_xno ideal o).
Let a : R := a0'' i e0 (o_xno ideal o).
Context (He : 0 < e0 < 1) (Hn : 0 < o_xno ideal o) (HN : 0 < N) (Ha : height_s < a * (1 - e0)).
Theorem curves_exist : exists n e g, decays b i N a e0 w0 n e g.
Proof.
  assert (H : 0 < a) by exact (a_pos o He Ha). exists (n_curve b i N a e0 w0), (e_curve b i N a e0 w0), (g_curve b i N a e0 w0).
  apply curves_decay; [exact HN|exact H|exact (p_gt o He HN Ha)|exact (psi_gt o He HN Ha)|nra].
Qed.
Theorem slow_ok : 1440 * Rabs (n_rate b i N a N e0 w0 / N) <= 216 / 100000 ->
  let at_ t := decay ideal e0 (SGP8_init ideal o) t in let rate := n_rate b i N a N e0 w0 in
  (forall t, fst (fst (at_ t)) = N + rate * t) /\ (exists k, forall t, snd (fst (at_ t)) = e0 + k * t)
  /\ derivable_pt_lim (fun t => axis N a (fst (fst (at_ t))) * (1 - snd (fst (at_ t)))) 0 0
  /\ forall t, snd (at_ t) = rate * t ^ 2 / 2.
Proof.
  intros T at_ rate. assert (S := s_gt). assert (A : 0 < a) by exact (a_pos o He Ha).
  assert (P : f_fit ideal (SGP8_init ideal o) = None /\ f_xnodp ideal (SGP8_init ideal o) = N /\ f_xndt ideal (SGP8_init ideal o) = rate /\ f_edot ideal (SGP8_init ideal o) = - (2 / 3) * (rate / N) * (1 - e0)).
  { unfold SGP8_init. cbv zeta. change (c_sin ideal (o_xincl ideal o)) with (sin (o_xincl ideal o)). rewrite (drag_ok o He Hn HN Ha).
    assert (C : ltn ideal (cst ideal 216 100000) (c_fabs ideal (mul ideal (g_xndtn ideal (drag_is o)) (int ideal 1440))) = false).
    { unfold drag_is. cbn [g_xndtn]. ic. apply Rltb_f. rewrite Rabs_mult. change (n_rate (o_bstar ideal o)) with (n_rate b).
      assert (Q : Rabs (1440 / 1) = 1440) by (rewrite Rabs_right; lra). rewrite Q. rewrite Rmult_comm. apply Rle_ge || idtac. exact T. }
    rewrite C. cbn [f_xndt f_edot f_xnodp f_fit]. split; [reflexivity|]. split; [exact (x_n o He Hn Ha)|]. split; [reflexivity|].
    rewrite tt_is. unfold drag_is. cbn [g_xndtn]. ic. replace (1 / 1) with 1 by lra. reflexivity. }
  destruct P as (P1 & P2 & P3 & P4).
  assert (E : forall t, at_ t = (N + rate * t, e0 + - (2 / 3) * (rate / N) * (1 - e0) * t, rate * t ^ 2 / 2)).
  { intros t. unfold at_, decay. rewrite P1, P2, P3, P4. ic. f_equal. field. }
  split; [intros t; rewrite E; reflexivity|]. split; [eexists; intros t; rewrite E; reflexivity|]. split; [|intros t; rewrite E; reflexivity].
  apply (D_ext (fun t => axis N a (N + rate * t) * (1 - (e0 + - (2 / 3) * (rate / N) * (1 - e0) * t)))); [intros t; rewrite E; reflexivity|].
  assert (K : derivable_pt_lim (fun t => N + rate * t) 0 rate) by (eapply D_eq; [derive|cbv beta; ring]).
  assert (N0 : 0 < N + rate * 0) by lra.
  eapply D_eq; [apply (D_mult (fun t => axis N a (N + rate * t)) (fun t => 1 - (e0 + - (2 / 3) * (rate / N) * (1 - e0) * t))); [apply (D_A N a (fun t => N + rate * t) (fun _ => rate) 0); assumption|derive]|].
  cbv beta. unfold Nn. rewrite !Rmult_0_r, !Rplus_0_r. field. lra.
Qed.
End Slow.

(** An orbit with the semi-major axis of two Earth radii and a perigee half an Earth radius above the ground. *)
Definition o_oval (bstar : R) : orb ideal := mk_orb ideal bstar i_third 0 (1 / 4) 0 0 n_two 48.
Lemma oval_delta a : delta_of i_third (1 / 4) a = 0.
Proof. unfold delta_of. rewrite third. unfold Rdiv. replace (3 * (1 * / 3) - 1) with 0 by lra. ring. Qed.
Lemma oval_a : a0'' i_third (1 / 4) n_two = 2.
Proof. unfold a0'', a_0. cbv zeta. rewrite oval_delta, two_a1. rewrite oval_delta. field. Qed.
Lemma oval_n : n0'' i_third (1 / 4) n_two = n_two.
Proof. unfold n0''. rewrite oval_delta. field. Qed.
Lemma n_two_pos : 0 < n_two.
Proof. unfold n_two. apply Rdiv_lt_0_compat; [unfold KE; lra|]. assert (P : 0 < sqrt 2) by (apply sqrt_lt_R0; lra). lra. Qed.
Lemma oval_hyps bstar : let o := o_oval bstar in 0 < o_eo ideal o < 1 /\ 0 < o_xno ideal o /\ 0 < n0'' (o_xincl ideal o) (o_eo ideal o) (o_xno ideal o)
  /\ height_s < a0'' (o_xincl ideal o) (o_eo ideal o) (o_xno ideal o) * (1 - o_eo ideal o).
Proof. assert (P := n_two_pos). cbn. rewrite oval_n, oval_a. split; [lra|]. split; [exact P|]. split; [exact P|]. unfold height_s, XKMPER. lra. Qed.
(** Derivatives 1, 1, 1/2 of the mean motion and 1, 1/2 of the eccentricity: the mean motion grows as 2/3 (1 + t/2)^3. *)
Lemma fit_example : fit ideal 1 (mk_rates8 ideal 1 1 (1 / 2) (1 / 2)) = mk_fit8 ideal 3 (- (1 / 2)) (- (2 / 3)) 2 (-1) (- (1 / 2)).
Proof. rewrite fit_ok; unfold q_, p_, y_; try lra. f_equal; change (num ideal) with R; field; lra. Qed.
