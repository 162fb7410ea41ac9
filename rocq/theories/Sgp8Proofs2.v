(** What the initialisation of SGP8 computes, in the words of the report. *)
From Coq Require Import ZArith Reals Lra Psatz.
From Verif Require Import CLib ArithModel GeoLemmas OrbModel OrbSpec OrbProofs5 DeepProofs1 DeepProofs7 Sgp8Model Sgp8Spec Sgp8Proofs1.
Open Scope R_scope.

Ltac ic := unfold int; cbn [add sub mul div opp ltn len cst c_sin c_cos c_sqrt c_fabs c_pow ideal num fst snd]; change (num ideal) with R in *.
(** The value of the first let, then the rest. *)
Ltac step w tac := lazymatch goal with |- (let x := ?v in @?b x) = ?r => let E := fresh in assert (E : v = w); [tac|apply (eq_trans (f_equal b E)); clear E; cbv beta] end.
Ltac pass_ := lazymatch goal with |- (let x := ?v in @?b x) = ?r => change (b v = r); cbv beta end.

Section Code.
Context (o : orb ideal).
Let i : R := o_xincl ideal o.
Let e0 : R := o_eo ideal o.
Let w0 : R := o_omegao ideal o.
Let b : R := o_bstar ideal o.
Let N : R := n0'' i e0 (o_xno ideal o).
Let a : R := a0'' i e0 (o_xno ideal o).
Let d := sxpall_common_init ideal o.
Let c := sxp8_common_init ideal o d.
Context (He : 0 < e0 < 1) (Hn : 0 < o_xno ideal o) (HN : 0 < N) (Ha : height_s < a * (1 - e0)).
Local Notation s := height_s.
Lemma s_gt : 1 < s. Proof. unfold height_s, XKMPER. lra. Qed.
Lemma a_pos : 0 < a. Proof. assert (H := s_gt). nra. Qed.
Lemma x_n : i_xnodp ideal d = N. Proof. apply xnodp_eq; [change (0 <= e0 < 1); lra|exact Hn|exact a_pos]. Qed.
Lemma x_a : i_aodp ideal d = a. Proof. apply aodp_eq; [change (0 <= e0 < 1); lra|exact Hn|exact a_pos]. Qed.
Lemma x_b2 : i_betao2 ideal d = 1 - e0 ^ 2. Proof. unfold d, sxpall_common_init. cbv zeta. cbn [i_betao2]. ic. fold e0. lra. Qed.
Lemma x_e2 : i_eosq ideal d = e0 ^ 2. Proof. unfold d, sxpall_common_init. cbv zeta. cbn [i_eosq]. ic. fold e0. ring. Qed.
Lemma x_c : i_cosio ideal d = cos i. Proof. reflexivity. Qed.
Lemma x_c2 : i_cosio2 ideal d = cos i ^ 2. Proof. unfold d, sxpall_common_init. cbv zeta. cbn [i_cosio2]. ic. fold i. ring. Qed.
Lemma axis_0 : axis N a N = a.
Proof. unfold axis. replace (N / N) with 1 by (field; lra). unfold Rpower. rewrite ln_1, Rmult_0_r, exp_0. ring. Qed.
Lemma p_is : par_p N a N e0 = a * (1 - e0 ^ 2). Proof. unfold par_p. rewrite axis_0. reflexivity. Qed.
Lemma p_gt : s < par_p N a N e0. Proof. rewrite p_is. assert (H := s_gt). nra. Qed.
Lemma eta_lt : 0 < et_a N a N e0 < 1.
Proof.
  unfold et_a, x_i. assert (H := p_gt). assert (S := s_gt). assert (D : 0 < par_p N a N e0 - s) by lra.
  replace (e0 * s * (1 / (par_p N a N e0 - s))) with (e0 * s / (par_p N a N e0 - s)) by (field; lra). split.
  - apply Rdiv_lt_0_compat; [nra|exact D].
  - apply (Rmult_lt_reg_r (par_p N a N e0 - s)); [exact D|]. unfold Rdiv. rewrite Rmult_assoc, Rinv_l, Rmult_1_r by lra. rewrite p_is. nra.
Qed.
Lemma psi_gt : 0 < psi_2 N a N e0. Proof. unfold psi_2. assert (H := eta_lt). nra. Qed.
Lemma k2_is : ck2 ideal = K2. Proof. unfold ck2, xj2, ae, K2, J2. ic. lra. Qed.
Lemma k2_pos : 0 < K2. Proof. unfold K2, J2. lra. Qed.
Lemma s_is : s_const ideal = s. Proof. unfold s_const, ae, earth_radius_in_km, height_s, XKMPER. ic. lra. Qed.
Lemma a3_is : a3ovk2 ideal = A30 / K2.
Proof. unfold a3ovk2, minus_xj3, ae. rewrite k2_is. unfold A30, J3. ic. assert (H := k2_pos). field. lra. Qed.
Lemma tt_is : two_thirds ideal = 2 / 3. Proof. unfold two_thirds. ic. lra. Qed.
Lemma Rpower_inv x y : 0 < x -> Rpower (1 / x) y = 1 / Rpower x y.
Proof. intros H. unfold Rpower, Rdiv. rewrite !Rmult_1_l, ln_Rinv by exact H. rewrite <- Rpower.exp_Ropp. f_equal. ring. Qed.

Let h := et_a N a N e0.
Definition drag_is : drag8 ideal :=
  mk_drag8 ideal (par_p N a N e0) (x_i N a N e0) h (h ^ 2) (1 / psi_2 N a N e0) (1 + e0 ^ 2) (e0 * h) (cos (2 * w0)) (D_5 N a N e0) (D_1 N a N e0)
    (D_2 h) (D_3 h) (D_4 h) (B_1 i) (B_2 i) (B_3 i) (C_0 b N a N e0) (C_1 b N a N e0) (D_1 N a N e0 * D_3 h * B_2 i) (D_5 N a N e0 * D_4 h * B_3 i)
    (n_rate b i N a N e0 w0) (n_rate b i N a N e0 w0 / N).
Lemma drag_ok : drag_init ideal o d c (sin i) = drag_is.
Proof.
  assert (S := s_gt). assert (P := p_gt). assert (Q := psi_gt). assert (E := eta_lt). assert (A := a_pos).
  cbv delta [drag_init drag_is int]; cbv beta. rewrite x_n, x_a, x_b2, x_e2, k2_is, s_is, a3_is. fold e0 b.
  pass_. pass_.
  step (par_p N a N e0) ltac:(rewrite p_is; ic; ring).
  step (x_i N a N e0) ltac:(unfold x_i; ic; field; lra).
  step (et_a N a N e0) ltac:(reflexivity).
  step (et_a N a N e0 ^ 2) ltac:(ic; ring).
  step (1 / psi_2 N a N e0) ltac:(unfold psi_2 in *; ic; field; lra).
  step (1 / psi_2 N a N e0) ltac:(ic; apply Rabs_right; apply Rle_ge; left; apply Rdiv_lt_0_compat; lra).
  step (1 + e0 ^ 2) ltac:(ic; field).
  step (e0 * h) ltac:(reflexivity).
  step (cos (2 * w0)) ltac:(rewrite cos_2a_cos; ic; change (b_cosg ideal c) with (cos w0); lra).
  step (D_5 N a N e0) ltac:(unfold D_5; ic; field; lra).
  step (D_1 N a N e0) ltac:(reflexivity).
  step (D_2 h) ltac:(unfold D_2; fold h; ic; field).
  step (D_3 h) ltac:(unfold D_3; fold h; ic; field).
  step (D_4 h) ltac:(unfold D_4; fold h; ic; field).
  step (B_1 i) ltac:(unfold B_1; change (b_tthmun ideal c) with (i_cosio2 ideal d * (3 / 1) - 1 / 1); rewrite x_c2; ic; field).
  step (B_2 i) ltac:(unfold B_2; change (b_unmth2 ideal c) with (1 / 1 - i_cosio2 ideal d); rewrite x_c2; ic; field).
  step (B_3 i) ltac:(reflexivity).
  step (x_i N a N e0) ltac:(reflexivity).
  step (x_i N a N e0 ^ 2) ltac:(ic; ring).
  assert (AL : 0 < alpha e0) by (apply sqrt_lt_R0; nra).
  step (C_0 b N a N e0) idtac.
  { unfold C_0. rewrite axis_0. ic. rewrite Rcpow_pos by (apply Rdiv_lt_0_compat; lra). replace (35 / 10) with (7 / 2) by lra. rewrite Rpower_inv by exact Q. fold (alpha e0).
    unfold qoms2t, q_s. rewrite cst_ideal. assert (0 < Rpower (psi_2 N a N e0) (7 / 2)) by apply exp_pos. field. repeat split; lra. }
  step (1 + e0 ^ 2) ltac:(reflexivity).
  step (C_1 b N a N e0) idtac.
  { unfold C_1. ic. replace (alpha e0 ^ 4) with ((1 + e0 ^ 2) * (1 + e0 ^ 2)); [field|].
    assert (R := sqrt_sqrt (1 + e0 ^ 2) ltac:(nra)). fold (alpha e0) in R. rewrite <- R. ring. }
  step (D_1 N a N e0 * D_3 h * B_2 i) ltac:(reflexivity).
  step (D_5 N a N e0 * D_4 h * B_3 i) ltac:(reflexivity).
  step (n_rate b i N a N e0 w0) idtac.
  { unfold n_rate. cbv zeta. fold h. change (b_sing ideal c) with (sin w0). ic. field. }
  step (n_rate b i N a N e0 w0 / N) ltac:(reflexivity).
  reflexivity.
Qed.
Lemma g_is : b_xgdt1 ideal c = g_rate i N a N e0.
Proof.
  assert (P := p_gt). assert (S := s_gt).
  assert (E : b_xgdt1 ideal c = - (5 / 10) * (3 / 1 * ck2 ideal * (1 / 1 / (i_aodp ideal d * i_betao2 ideal d * (i_aodp ideal d * i_betao2 ideal d))) * i_xnodp ideal d) * (1 / 1 - i_cosio2 ideal d * (5 / 1))) by reflexivity.
  rewrite E, x_n, x_a, x_b2, x_c2, k2_is. unfold g_rate. rewrite p_is in *. change (num ideal) with R. field. nra.
Qed.

(** Curves through the orbit of the element set, with the derivatives of the rates. *)
Context (n e g n1 e1 g1 n2 e2 g2 : R -> R).
Context (n_0 : n 0 = N) (e_0 : e 0 = e0) (g_0 : g 0 = w0).
Context (n1_0 : n1 0 = n_rate b i N a N e0 w0) (e1_0 : e1 0 = e_rate b i N a N e0 w0) (g1_0 : g1 0 = g_rate i N a N e0).
Context (n2_0 : n2 0 = N1 b i N a n e g n1 e1 g1 0) (e2_0 : e2 0 = E1 b i N a n e g n1 e1 g1 0).
Context (g2_0 : g2 0 = g_rate i N a N e0 * (Nn n n1 0 + 2 * D15 n e n1 e1 0)).
Local Notation xi := (x_i N a N e0).
Local Notation psi2 := (psi_2 N a N e0).
Local Notation ts := (TS N a n e n1 e1 0).
Local Notation al := (AL e e1 0).
Local Notation et := (ET N a n e n1 e1 0).
Local Notation ps := (PS N a n e n1 e1 0).
Local Notation l0 := (L0 N a n e n1 e1 0).
Local Notation l1 := (L1 N a n e n1 e1 0).
Local Notation d14 := (D14 N a n e n1 e1 0).
Local Notation d15 := (D15 n e n1 e1 0).
Local Notation nn := (Nn n n1 0).
Local Notation er := (e_rate b i N a N e0 w0).
Local Notation nr := (n_rate b i N a N e0 w0).
Local Notation gr := (g_rate i N a N e0).
Ltac at0 := rewrite ?n_0, ?e_0, ?g_0, ?n1_0, ?e1_0, ?g1_0; fold h; rewrite ?axis_0.
Lemma rates_ok : more_rates ideal o d c drag_is = mk_rates8 ideal er (N1 b i N a n e g n1 e1 g1 0) (E1 b i N a n e g n1 e1 g1 0) (N2 b i N a n e g n1 e1 g1 n2 e2 g2 0).
Proof.
  assert (S := s_gt). assert (P := p_gt). assert (Q := psi_gt). assert (E := eta_lt). assert (A := a_pos). fold h in E.
  assert (Q' : psi2 = 1 - h ^ 2) by reflexivity. assert (PI' := p_is). assert (E2 : e0 ^ 2 < 1) by nra. assert (E3 : 0 < 1 + e0 ^ 2) by nra.
  cbv delta [more_rates int]; cbv beta. rewrite ?x_n, ?x_a, ?x_b2, ?x_e2, ?s_is, ?tt_is. change (num ideal) with R in *.
  step e0 reflexivity. step (e0 ^ 2) reflexivity. step (1 - e0 ^ 2) reflexivity. step (sin w0) reflexivity. step (cos w0) reflexivity. step constr:(gr) ltac:(exact g_is).
  step h reflexivity. step (h ^ 2) reflexivity. step (e0 * h) reflexivity. step (1 / psi2) reflexivity. step (1 + e0 ^ 2) reflexivity. step constr:(xi) reflexivity. step (cos (2 * w0)) reflexivity.
  step (D_1 N a N e0) reflexivity. step (D_2 h) reflexivity. step (D_3 h) reflexivity. step (D_4 h) reflexivity. step (D_5 N a N e0) reflexivity.
  step (B_1 i) reflexivity. step (B_2 i) reflexivity. step (B_3 i) reflexivity. step (C_0 b N a N e0) reflexivity. step (C_1 b N a N e0) reflexivity.
  step (D_1 N a N e0 * D_3 h * B_2 i) reflexivity. step (D_5 N a N e0 * D_4 h * B_3 i) reflexivity. step constr:(nr) reflexivity. step constr:(nn) ltac:(unfold Nn; at0; reflexivity).
  step (D_6 h) ltac:(unfold D_6; ic; field). step (D_7 h) ltac:(unfold D_7; ic; field). step (D_8 h) ltac:(unfold D_8; ic; field).
  step (D9 N a n e 0) ltac:(unfold D9; at0; ic; field). step (D10 N a n e 0) ltac:(unfold D10; at0; ic; field).
  step (d2' h) ltac:(unfold d2'; ic; field). step (d3' h) ltac:(unfold d3'; ic; field). step (d4' h) ltac:(unfold d4'; ic; field).
  step (1 / 3 * nn) ltac:(ic; field).
  step (D_1 N a N e0 * D_7 h * B_2 i) reflexivity. step (D_5 N a N e0 * D_8 h * B_3 i) reflexivity.
  step (sin (2 * w0)) ltac:(rewrite sin_2a; ic; field).
  step constr:(er) ltac:(unfold e_rate; cbv zeta; fold h; ic; field).
  step constr:(ts) ltac:(unfold TS; at0; ic; field).
  step constr:(al) ltac:(unfold AL; at0; reflexivity).
  step constr:(et) ltac:(unfold ET; at0; reflexivity).
  step constr:(ps) ltac:(unfold PS; at0; ic; field; lra).
  step constr:(l0) ltac:(unfold L0; ic; field).
  step constr:(l1) ltac:(unfold L1; ic; field).
  step constr:(d14) ltac:(unfold D14; ic; field).
  step constr:(d15) ltac:(unfold D15; at0; ic; field; lra).
  step (D1t N a n e n1 e1 0) ltac:(unfold D1t; at0; reflexivity).
  step (et * d2' h) reflexivity. step (et * d3' h) reflexivity. step (et * d4' h) reflexivity.
  step (D5t N a n e n1 e1 0) ltac:(unfold D5t; at0; reflexivity).
  step (C4t i N a n e n1 e1 0) ltac:(unfold C4t; at0; reflexivity).
  step (C5t i N a n e n1 e1 0) ltac:(unfold C5t; at0; reflexivity).
  step (D16 i N a n e g n1 e1 g1 0) ltac:(unfold D16; at0; ic; field).
  step (N1 b i N a n e g n1 e1 g1 0) ltac:(unfold N1; at0; reflexivity).
  step (E1 b i N a n e g n1 e1 g1 0) ltac:(unfold E1, d6', d7', d8'; at0; ic; field).
  step constr:(er) reflexivity. step (er ^ 2) ltac:(ic; ring). step constr:(nn) reflexivity.
  step (D17 n n1 n2 0) ltac:(unfold D17; rewrite n2_0; at0; ic; field; lra).
  step (TS2 N a n e n1 e1 n2 e2 0) ltac:(unfold TS2; rewrite e2_0; at0; ic; field).
  step (ET2 N a n e n1 e1 n2 e2 0) ltac:(unfold ET2; rewrite e2_0; at0; ic; field).
  step constr:(ts) reflexivity. step (D18 N a n e n1 e1 n2 e2 0) ltac:(unfold D18; ic; ring).
  step constr:(ps) reflexivity. step constr:(ps) reflexivity.
  step (D19 N a n e n1 e1 n2 e2 0) idtac.
  { unfold D19, PS. at0. ic. rewrite Q' in *. field. repeat split; lra. }
  step (et ^ 2) ltac:(ic; ring).
  step (D1tt N a n e n1 e1 n2 e2 0) idtac.
  { unfold D1tt, D15t. rewrite e2_0. at0. ic. field. lra. }
  step constr:(al) reflexivity.
  step (N2 b i N a n e g n1 e1 g1 n2 e2 g2 0) idtac.
  { unfold N2, ALt, D5tt, D1tt. rewrite e2_0, g2_0. at0. ic. unfold D15. at0. field. lra. }
  reflexivity.
Qed.
End Code.
