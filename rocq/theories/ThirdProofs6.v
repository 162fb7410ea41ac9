(** The orbits of the Moon and the Sun that the program uses. *)
From Coq Require Import ZArith Reals Lra Psatz.
From Verif Require Import CLib ArithModel GeoLemmas TrigBounds OrbModel DeepModel DeepProofs1 DeepProofs7 NutProofs3 OrbExamples ThirdSpec ThirdProofs1 ThirdProofs5.
Open Scope R_scope.

(** ** Angles *)
Lemma trig_of (x a c s t : R) : Rabs (x - a) <= t -> Rabs (cos a - c) <= t -> Rabs (sin a - s) <= t -> Rabs (cos x - c) <= 2 * t /\ Rabs (sin x - s) <= 2 * t.
Proof.
  intros H C S. split.
  - replace (cos x - c) with ((cos x - cos a) + (cos a - c)) by ring. eapply Rle_trans; [apply Rabs_triang|]. pose proof (cos_near x a). lra.
  - replace (sin x - s) with ((sin x - sin a) + (sin a - s)) by ring. eapply Rle_trans; [apply Rabs_triang|]. pose proof (sin_near x a). lra.
Qed.
Lemma obliquity_trig : Rabs (cos obliquity - ce) <= 1 / 10 ^ 8 /\ Rabs (sin obliquity - se) <= 1 / 10 ^ 8.
Proof.
  assert (C := cos_box 1000000000000 409176735 1000000000 6 917448670000 917448675000 ltac:(vm_compute; reflexivity)).
  assert (S := sin_box 1000000000000 409176735 1000000000 6 397854157000 397854161000 ltac:(vm_compute; reflexivity)).
  assert (P := pi_in). replace (1 / 10 ^ 8) with (2 * (5 / 10 ^ 9)) by lra.
  apply (trig_of obliquity (IZR 409176735 / IZR 1000000000)); apply abs2.
  - unfold obliquity, deg. lra.
  - unfold ce. lra.
  - unfold se. lra.
Qed.
Lemma inclination_trig : Rabs (cos moon_inclination - cJ) <= 1 / 10 ^ 8 /\ Rabs (sin moon_inclination - cC) <= 1 / 10 ^ 8.
Proof.
  assert (C := cos_box 1000000000000 89804171 1000000000 6 995970313000 995970316000 ltac:(vm_compute; reflexivity)).
  assert (S := sin_box 1000000000000 89804171 1000000000 6 89683509000 89683513000 ltac:(vm_compute; reflexivity)).
  assert (P := pi_in). replace (1 / 10 ^ 8) with (2 * (5 / 10 ^ 9)) by lra.
  apply (trig_of moon_inclination (IZR 89804171 / IZR 1000000000)); apply abs2.
  - unfold moon_inclination, deg. lra.
  - unfold cJ. lra.
  - unfold cC. lra.
Qed.
Lemma perigee_trig : Rabs (cos sun_perigee - 1945905 / 10000000) <= 2 / 10 ^ 7 /\ Rabs (sin sun_perigee - - (98088458 / 100000000)) <= 2 / 10 ^ 7.
Proof.
  assert (C := cos_box 1000000000000 1374956422 1000000000 10 194590400000 194590500000 ltac:(vm_compute; reflexivity)).
  assert (S := sin_box 1000000000000 1374956422 1000000000 10 980884570000 980884585000 ltac:(vm_compute; reflexivity)).
  assert (P := pi_in). replace (2 / 10 ^ 7) with (2 * (1 / 10 ^ 7)) by lra.
  replace (cos sun_perigee) with (cos (deg (787792 / 10000))) by (rewrite <- (cos_neg (deg _)); replace (sun_perigee) with (- deg (787792 / 10000) + 2 * INR 1 * PI) by (unfold sun_perigee, deg; cbn [INR]; field); rewrite cos_period; reflexivity).
  replace (sin sun_perigee) with (- sin (deg (787792 / 10000))) by (rewrite <- (sin_neg (deg _)); replace (sun_perigee) with (- deg (787792 / 10000) + 2 * INR 1 * PI) by (unfold sun_perigee, deg; cbn [INR]; field); rewrite sin_period; reflexivity).
  replace (- sin (deg (787792 / 10000)) - - (98088458 / 100000000)) with (- (sin (deg (787792 / 10000)) - 98088458 / 100000000)) by ring. rewrite Rabs_Ropp.
  apply (trig_of _ (IZR 1374956422 / IZR 1000000000)); apply abs2.
  - unfold deg. lra.
  - lra.
  - lra.
Qed.
Lemma linear_near a b a' b' d ta tb m : Rabs (a - a') <= ta -> Rabs (b - b') <= tb -> Rabs d <= m -> Rabs (a + b * d - (a' + b' * d)) <= ta + tb * m.
Proof.
  intros A B M. replace (a + b * d - (a' + b' * d)) with ((a - a') + (b - b') * d) by ring. eapply Rle_trans; [apply Rabs_triang|].
  assert (Rabs ((b - b') * d) <= tb * m) by (apply prod_small; assumption). lra.
Qed.
Definition c_node (d : R) : R := 45236020 / 10000000 + - (92422029 / 100000000000) * d.
Definition c_perigee (d : R) : R := 58351514 / 10000000 + 19443680 / 10000000000 * d.
Lemma node_angle d : Rabs d <= 10 ^ 5 -> Rabs (c_node d - moon_node d) <= 1 / 10 ^ 6.
Proof.
  intros D. pose proof pi_in. unfold c_node. replace (moon_node d) with (deg (259183275 / 1000000) + - deg (529539222 / 10000000000) * d) by (unfold moon_node, deg; field).
  eapply Rle_trans; [eapply (linear_near _ _ _ _ _ (5 / 10 ^ 7) (5 / 10 ^ 12) _); [| |exact D]; apply abs2; unfold deg; lra|lra].
Qed.
Lemma perigee_angle d : Rabs d <= 10 ^ 5 -> Rabs (c_perigee d - moon_perigee d) <= 5 / 10 ^ 7.
Proof.
  intros D. pose proof pi_in. unfold c_perigee. replace (moon_perigee d) with (deg (334329556 / 1000000) + deg (1114040803 / 10000000000) * d) by (unfold moon_perigee, deg; field).
  eapply Rle_trans; [eapply (linear_near _ _ _ _ _ (3 / 10 ^ 7) (2 / 10 ^ 12) _); [| |exact D]; apply abs2; unfold deg; lra|lra].
Qed.

(** ** The Moon *)
Definition moon_path (d : R) : path :=
  let b := lunar_orbit ideal d in mk_path (b_cosg ideal b) (b_sing ideal b) (b_cosi ideal b) (b_sini ideal b) (b_cosh ideal b) (b_sinh ideal b).
Lemma moon_path_eq d : let c := cos (c_node d) in let s := sin (c_node d) in let g := Ratan2 (m_x c s) (m_y c s) + (c_perigee d - c_node d) in
  moon_path d = mk_path (cos g) (sin g) (m_ci c) (m_si c) (m_ch c s) (m_sh c s).
Proof.
  cbv zeta. unfold moon_path, lunar_orbit. cbv zeta. cbn [b_cosg b_sing b_cosi b_sini b_cosh b_sinh]. unfold zsini0, zcosi0. rewrite ?int_ideal, ?cst_ideal.
  change (add ideal) with Rplus; change (sub ideal) with Rminus; change (mul ideal) with Rmult; change (div ideal) with Rdiv; change (opp ideal) with Ropp;
  change (c_sin ideal) with sin; change (c_cos ideal) with cos; change (c_sqrt ideal) with sqrt; change (c_atan2 ideal) with Ratan2; change (num ideal) with R.
  replace (IZR 45236020 / IZR 10000000 - IZR 92422029 / IZR 100000000000 * d) with (c_node d) by (unfold c_node; ring).
  fold (c_perigee d). replace (c_perigee d - c_node d) with (c_perigee d + - c_node d) by ring.
  unfold m_x, m_y, m_ch, m_sh, m_si, m_ci, cA, cB, cC, ce, se.
  match goal with |- context [Ratan2 ?a ?b + c_perigee d - c_node d] => replace (Ratan2 a b + c_perigee d - c_node d) with (Ratan2 a b + (c_perigee d + - c_node d)) by ring end.
  reflexivity.
Qed.
Lemma body_0 o : body o 0 = pericentre (p_cw o) (p_sw o) (p_ci o) (p_si o) (p_ch o) (p_sh o).
Proof. unfold body. rewrite cos_0, sin_0. unfold along, pericentre, quadrature. f_equal; [f_equal|]; ring. Qed.
Lemma body_1 o : body o (PI / 2) = quadrature (p_cw o) (p_sw o) (p_ci o) (p_si o) (p_ch o) (p_sh o).
Proof. unfold body. rewrite cos_PI2, sin_PI2. unfold along, pericentre, quadrature. f_equal; [f_equal|]; ring. Qed.
Lemma sum_near a b c d a' b' c' d' ta tb tc td : Rabs (a - a') <= ta -> Rabs (b - b') <= tb -> Rabs (c - c') <= tc -> Rabs (d - d') <= td ->
  Rabs a <= 1 -> Rabs b' <= 1 -> Rabs c <= 1 -> Rabs d' <= 1 -> Rabs (a * b + c * d - (a' * b' + c' * d')) <= ta + tb + (tc + td).
Proof.
  intros. replace (a * b + c * d - (a' * b' + c' * d')) with ((a * b - a' * b') + (c * d - c' * d')) by ring.
  eapply Rle_trans; [apply Rabs_triang|]. apply Rplus_le_compat; apply prod_near; assumption.
Qed.
Lemma trig_1 x : Rabs (cos x) <= 1 /\ Rabs (sin x) <= 1.
Proof. pose proof (COS_bound x). pose proof (SIN_bound x). split; apply abs2; lra. Qed.
Lemma prod_1 a b : Rabs a <= 1 -> Rabs b <= 1 -> Rabs (a * b) <= 1.
Proof. intros. replace 1 with (1 * 1) by ring. apply prod_small; assumption. Qed.
Lemma close_1 a b t : Rabs (a - b) <= t -> Rabs a <= 1 - t -> Rabs b <= 1.
Proof. intros A B. apply abs2 in A, B. apply abs2. lra. Qed.
(** The two directions of the node, with the angles of the specification *)
Section Directions.
Context (d : R) (D : Rabs d <= 10 ^ 5).
Let L := c_node d.
Let L' := moon_node d.
Let c := cos L.
Let s := sin L.
Let e1 := cos obliquity.
Let e2 := sin obliquity.
Let j1 := cos moon_inclination.
Let j2 := sin moon_inclination.
Lemma TT : c * c + s * s = 1.
Proof. unfold c, s. pose proof (square_trig L). lra. Qed.
Lemma c_err : Rabs (c - cos L') <= 1 / 10 ^ 6.
Proof. eapply Rle_trans; [apply cos_near|apply node_angle, D]. Qed.
Lemma s_err : Rabs (s - sin L') <= 1 / 10 ^ 6.
Proof. eapply Rle_trans; [apply sin_near|apply node_angle, D]. Qed.
Lemma swap a b t : Rabs (a - b) <= t -> Rabs (b - a) <= t.
Proof. rewrite Rabs_minus_sym. exact (fun H => H). Qed.
Lemma node_dir : near (2 / 10 ^ 6) (n_x c s, n_y c s, n_z c s) (cos L', e1 * sin L', e2 * sin L').
Proof.
  destruct (n_err c s TT) as (A & B & C). pose proof c_err as EC. pose proof s_err as ES. destruct obliquity_trig as [O1 O2]. fold e1 e2 in O1, O2.
  assert (E1 : Rabs (ce * s - e1 * sin L') <= 1 / 10 ^ 8 + 1 / 10 ^ 6) by (apply prod_near; [apply swap; exact O1|exact ES|apply abs2; unfold ce; lra|apply trig_1]).
  assert (E2 : Rabs (se * s - e2 * sin L') <= 1 / 10 ^ 8 + 1 / 10 ^ 6) by (apply prod_near; [apply swap; exact O2|exact ES|apply abs2; unfold se; lra|apply trig_1]).
  apply abs2 in A, B, C, EC, E1, E2. unfold near. repeat split; apply abs2; lra.
Qed.
Lemma quarter_dir : near (2 / 10 ^ 6) (u_x c s * / m_hyp c s, u_y c s * / m_hyp c s, u_z c s * / m_hyp c s)
  (- j1 * sin L', j1 * cos L' * e1 - j2 * e2, j1 * cos L' * e2 + j2 * e1).
Proof.
  destruct (u_scaled c s TT) as (A & B & C). pose proof c_err as EC. pose proof s_err as ES. destruct obliquity_trig as [O1 O2]. fold e1 e2 in O1, O2.
  destruct inclination_trig as [J1 J2]. fold j1 j2 in J1, J2. pose proof (trig_1 L') as [T1 T2].
  assert (Ce : Rabs ce <= 1) by (apply abs2; unfold ce; lra). assert (Se : Rabs se <= 1) by (apply abs2; unfold se; lra).
  assert (CJ : Rabs cJ <= 1) by (apply abs2; unfold cJ; lra). assert (CC : Rabs cC <= 1) by (apply abs2; unfold cC; lra).
  assert (I1 : Rabs e1 <= 1 /\ Rabs e2 <= 1) by apply trig_1. destruct I1 as [I1 I2].
  assert (E1 : Rabs (cJ * s - j1 * sin L') <= 1 / 10 ^ 8 + 1 / 10 ^ 6) by (apply prod_near; [apply swap; exact J1|exact ES|assumption..]).
  assert (E0 : Rabs (cJ * c - j1 * cos L') <= 1 / 10 ^ 8 + 1 / 10 ^ 6) by (apply prod_near; [apply swap; exact J1|exact EC|assumption..]).
  assert (X : Rabs (cJ * c) <= 1) by (apply prod_1; [assumption|apply trig_1]).
  assert (E2 : Rabs (cJ * c * ce - j1 * cos L' * e1) <= 1 / 10 ^ 8 + 1 / 10 ^ 6 + 1 / 10 ^ 8) by (apply prod_near; [exact E0|apply swap; exact O1|assumption..]).
  assert (E3 : Rabs (cJ * c * se - j1 * cos L' * e2) <= 1 / 10 ^ 8 + 1 / 10 ^ 6 + 1 / 10 ^ 8) by (apply prod_near; [exact E0|apply swap; exact O2|assumption..]).
  assert (E4 : Rabs (cC * se - j2 * e2) <= 1 / 10 ^ 8 + 1 / 10 ^ 8) by (apply prod_near; [apply swap; exact J2|apply swap; exact O2|assumption..]).
  assert (E5 : Rabs (cC * ce - j2 * e1) <= 1 / 10 ^ 8 + 1 / 10 ^ 8) by (apply prod_near; [apply swap; exact J2|apply swap; exact O1|assumption..]).
  apply abs2 in A, B, C, E1, E2, E3, E4, E5. unfold near. repeat split; apply abs2; lra.
Qed.
Lemma target_1 : Rabs (cos L') <= 1 /\ Rabs (e1 * sin L') <= 1 /\ Rabs (e2 * sin L') <= 1
  /\ Rabs (- j1 * sin L') <= 1 /\ Rabs (j1 * cos L' * e1 - j2 * e2) <= 1 /\ Rabs (j1 * cos L' * e2 + j2 * e1) <= 1.
Proof.
  pose proof (trig_1 L') as [T1 T2]. destruct (trig_1 obliquity) as [O1 O2]. destruct (trig_1 moon_inclination) as [J1 J2]. fold e1 e2 in O1, O2. fold j1 j2 in J1, J2.
  destruct obliquity_trig as [P1 P2]. destruct inclination_trig as [Q1 Q2]. fold e1 e2 in P1, P2. fold j1 j2 in Q1, Q2.
  split; [exact T1|]. split; [apply prod_1; assumption|]. split; [apply prod_1; assumption|].
  split; [rewrite <- Ropp_mult_distr_l, Rabs_Ropp; apply prod_1; assumption|].
  assert (X : Rabs (j1 * cos L') <= 1) by (apply prod_1; assumption).
  assert (Y1 : Rabs (j1 * cos L' * e1) <= 1 * (92 / 100)) by (apply prod_small; [exact X|apply abs2 in P1; apply abs2; unfold ce in *; lra]).
  assert (Y2 : Rabs (j1 * cos L' * e2) <= 1 * (4 / 10)) by (apply prod_small; [exact X|apply abs2 in P2; apply abs2; unfold se in *; lra]).
  assert (Y3 : Rabs (j2 * e2) <= 9 / 100 * (4 / 10)) by (apply prod_small; [apply abs2 in Q2; apply abs2; unfold cC in *; lra|apply abs2 in P2; apply abs2; unfold se in *; lra]).
  assert (Y4 : Rabs (j2 * e1) <= 9 / 100 * 1) by (apply prod_small; [apply abs2 in Q2; apply abs2; unfold cC in *; lra|exact O1]).
  apply abs2 in Y1, Y2, Y3, Y4. split; apply abs2; lra.
Qed.
Lemma moon_follows : follows (/ 10 ^ 5) (moon_path d) (moon_p d) (moon_q d).
Proof.
  unfold follows. rewrite body_0, body_1, moon_path_eq. fold L. fold c s. set (w := c_perigee d - L). set (w' := moon_perigee d - L').
  assert (EW : Rabs (w - w') <= 15 / 10 ^ 7).
  { pose proof (node_angle d D) as A. pose proof (perigee_angle d D) as B. apply abs2 in A, B. apply abs2. unfold w, w', L, L'. lra. }
  assert (C1 : Rabs (cos w - cos w') <= 15 / 10 ^ 7) by (eapply Rle_trans; [apply cos_near|exact EW]).
  assert (S1 : Rabs (sin w - sin w') <= 15 / 10 ^ 7) by (eapply Rle_trans; [apply sin_near|exact EW]).
  assert (S2 : Rabs (- sin w - - sin w') <= 15 / 10 ^ 7) by (replace (- sin w - - sin w') with (- (sin w - sin w')) by ring; rewrite Rabs_Ropp; exact S1).
  destruct (trig_1 w) as [W1 W2]. assert (W3 : Rabs (- sin w) <= 1) by (rewrite Rabs_Ropp; exact W2).
  pose proof (hyp_err c s TT) as H. apply abs2 in H.
  assert (HN : m_hyp c s <> 0) by lra.
  destruct (Ratan2_polar (m_x c s) (m_y c s)) as [PX PY].
  { pose proof (hyp2_err c s TT) as X. apply abs2 in X. lra. }
  fold (m_hyp c s) in PX, PY. set (a := Ratan2 (m_x c s) (m_y c s)) in *.
  assert (CA : cos a = m_y c s * / m_hyp c s) by (apply (Rmult_eq_reg_l (m_hyp c s)); [|exact HN]; rewrite <- PX; field; exact HN).
  assert (SA : sin a = m_x c s * / m_hyp c s) by (apply (Rmult_eq_reg_l (m_hyp c s)); [|exact HN]; rewrite <- PY; field; exact HN).
  destruct (u_cross c s TT) as (U1 & U2 & U3). destruct node_dir as (N1 & N2 & N3). destruct quarter_dir as (Q1 & Q2 & Q3).
  destruct target_1 as (T1 & T2 & T3 & T4 & T5 & T6).
  rewrite <- U1, <- U2, <- U3 in *. unfold n_x, n_y, n_z, v_x, v_y, v_z in *.
  cbn [p_cw p_sw p_ci p_si p_ch p_sh]. rewrite cos_plus, sin_plus, CA, SA.
  unfold moon_p, moon_q, equatorial, toward_p, toward_q, pericentre, quadrature, near. fold L' w'. fold e1 e2 j1 j2.
  set (h := / m_hyp c s) in *.
  assert (BND : 15 / 10 ^ 7 + 2 / 10 ^ 6 + (15 / 10 ^ 7 + 2 / 10 ^ 6) <= / 10 ^ 5) by lra.
  repeat split; (eapply Rle_trans; [|exact BND]).
  - pose proof (sum_near _ _ _ _ _ _ _ _ _ _ _ _ C1 N1 S1 Q1 W1 T1 W2 T4) as F. match type of F with Rabs ?x <= _ => match goal with |- Rabs ?y <= _ => replace y with x by ring end end. exact F.
  - pose proof (sum_near _ _ _ _ _ _ _ _ _ _ _ _ C1 N2 S1 Q2 W1 T2 W2 T5) as F. match type of F with Rabs ?x <= _ => match goal with |- Rabs ?y <= _ => replace y with x by ring end end. exact F.
  - pose proof (sum_near _ _ _ _ _ _ _ _ _ _ _ _ C1 N3 S1 Q3 W1 T3 W2 T6) as F. match type of F with Rabs ?x <= _ => match goal with |- Rabs ?y <= _ => replace y with x by ring end end. exact F.
  - pose proof (sum_near _ _ _ _ _ _ _ _ _ _ _ _ S2 N1 C1 Q1 W3 T1 W1 T4) as F. match type of F with Rabs ?x <= _ => match goal with |- Rabs ?y <= _ => replace y with x by ring end end. exact F.
  - pose proof (sum_near _ _ _ _ _ _ _ _ _ _ _ _ S2 N2 C1 Q2 W3 T2 W1 T5) as F. match type of F with Rabs ?x <= _ => match goal with |- Rabs ?y <= _ => replace y with x by ring end end. exact F.
  - pose proof (sum_near _ _ _ _ _ _ _ _ _ _ _ _ S2 N3 C1 Q3 W3 T3 W1 T6) as F. match type of F with Rabs ?x <= _ => match goal with |- Rabs ?y <= _ => replace y with x by ring end end. exact F.
Qed.
End Directions.

(** ** The Sun *)
Definition sun_path : path := mk_path (1945905 / 10000000) (- (98088458 / 100000000)) ce se 1 0.
Lemma sun_follows : follows (/ 10 ^ 6) sun_path sun_p sun_q.
Proof.
  unfold follows. rewrite body_0, body_1. unfold sun_path, sun_p, sun_q, equatorial, toward_p, toward_q, pericentre, quadrature, near. cbn [p_cw p_sw p_ci p_si p_ch p_sh].
  rewrite cos_0, sin_0. destruct perigee_trig as [C S]. destruct obliquity_trig as [O1 O2]. set (c := cos sun_perigee) in *. set (s := sin sun_perigee) in *.
  assert (Ce : Rabs ce <= 1) by (apply abs2; unfold ce; lra). assert (Se : Rabs se <= 1) by (apply abs2; unfold se; lra).
  destruct (trig_1 sun_perigee) as [T1 T2]. fold c in T1. fold s in T2.
  assert (E1 : Rabs (ce * - (98088458 / 100000000) - cos obliquity * s) <= 1 / 10 ^ 8 + 2 / 10 ^ 7) by (apply prod_near; [apply swap; exact O1|apply swap; exact S|assumption..]).
  assert (E2 : Rabs (se * - (98088458 / 100000000) - sin obliquity * s) <= 1 / 10 ^ 8 + 2 / 10 ^ 7) by (apply prod_near; [apply swap; exact O2|apply swap; exact S|assumption..]).
  assert (E3 : Rabs (ce * (1945905 / 10000000) - cos obliquity * c) <= 1 / 10 ^ 8 + 2 / 10 ^ 7) by (apply prod_near; [apply swap; exact O1|apply swap; exact C|assumption..]).
  assert (E4 : Rabs (se * (1945905 / 10000000) - sin obliquity * c) <= 1 / 10 ^ 8 + 2 / 10 ^ 7) by (apply prod_near; [apply swap; exact O2|apply swap; exact C|assumption..]).
  apply abs2 in C, S, E1, E2, E3, E4. repeat split; apply abs2; lra.
Qed.

(** ** Motions, strengths and phases *)
Definition v_sun : R := 119459 / 10000000000.
Definition v_moon : R := 15835218 / 100000000000.
Definition k_sun : R := 4 * (29864797 / 10000000000000) * v_sun.
Definition k_moon : R := 4 * (47968065 / 100000000000000) * v_moon.
Lemma sun_like : like_sun sun_path k_sun v_sun.
Proof.
  pose proof pi_in. assert (B : 1194581 / 10 ^ 11 <= sun_motion <= 1194582 / 10 ^ 11) by (unfold sun_motion, deg; lra).
  split; [exact sun_follows|]. split; apply abs2; unfold k_sun, v_sun; split; nra.
Qed.
Lemma moon_like d : Rabs d <= 10 ^ 5 -> like_moon d (moon_path d) k_moon v_moon.
Proof.
  intros D. pose proof pi_in. assert (B : 158352176 / 10 ^ 12 <= moon_motion <= 158352178 / 10 ^ 12) by (unfold moon_motion, deg; lra).
  split; [apply moon_follows, D|]. split; apply abs2; unfold k_moon, v_moon, moon_share; split; nra.
Qed.
Lemma phase_near a b v a' v' (d tau ta tb tv m : R) x : Rabs (a - a') <= ta -> Rabs (b - v' * 1440) <= tb -> Rabs (v - v') <= tv -> Rabs d <= m ->
  x = a + b * d -> Rabs (x + v * tau - (a' + v' * 1440 * (d + tau / 1440))) <= ta + tb * m + tv * Rabs tau.
Proof.
  intros A B V M ->. replace (a + b * d + v * tau - (a' + v' * 1440 * (d + tau / 1440))) with ((a - a') + (b - v' * 1440) * d + (v - v') * tau) by field.
  assert (Rabs ((b - v' * 1440) * d) <= tb * m) by (apply prod_small; assumption).
  assert (Rabs ((v - v') * tau) <= tv * Rabs tau) by (apply prod_small; [assumption|apply Rle_refl]).
  eapply Rle_trans; [apply Rabs_triang|]. apply Rplus_le_compat; [|assumption]. eapply Rle_trans; [apply Rabs_triang|]. lra.
Qed.
Lemma sun_phase d tau : Rabs d <= 10 ^ 5 -> exists k,
  Rabs (b_zmos ideal (lunar_orbit ideal d) + v_sun * tau - (sun_anomaly (d + tau / 1440) + 2 * PI * IZR k)) <= / 10 ^ 3 + / 10 ^ 10 * Rabs tau.
Proof.
  intros D. pose proof pi_in. change (b_zmos ideal (lunar_orbit ideal d)) with (FMod2p ideal (cst ideal 62565837 10000000 + cst ideal 17201977 1000000000 * d)). rewrite !cst_ideal.
  destruct (proj1 (FMod_ideal (62565837 / 10000000 + 17201977 / 1000000000 * d))) as [k E]. exists (- k)%Z. rewrite E, opp_IZR.
  match goal with |- Rabs ?x <= _ => replace x with ((62565837 / 10000000 + 17201977 / 1000000000 * d) + v_sun * tau - (deg (358475833 / 1000000) + sun_motion * 1440 * (d + tau / 1440)))
    by (unfold sun_anomaly, sun_motion, deg; field) end.
  eapply Rle_trans; [eapply (phase_near _ _ _ _ _ _ _ (1 / 10 ^ 6) (8 / 10 ^ 9) (/ 10 ^ 10) _ _); [| | |exact D|reflexivity]; apply abs2; unfold v_sun, sun_motion, deg; lra|].
  apply Rplus_le_compat_r. lra.
Qed.
Lemma moon_phase d tau : Rabs d <= 10 ^ 5 -> exists k,
  Rabs (b_zmol ideal (lunar_orbit ideal d) + v_moon * tau - (moon_anomaly (d + tau / 1440) + 2 * PI * IZR k)) <= / 10 ^ 3 + / 10 ^ 10 * Rabs tau.
Proof.
  intros D. pose proof pi_in. change (b_zmol ideal (lunar_orbit ideal d)) with (FMod2p ideal (cst ideal 228027132 1000000000 * d - cst ideal 11151842 10000000)). rewrite !cst_ideal.
  destruct (proj1 (FMod_ideal (228027132 / 1000000000 * d - 11151842 / 10000000))) as [k E]. exists (- k - 1)%Z. rewrite E, minus_IZR, opp_IZR.
  match goal with |- Rabs ?x <= _ => replace x with ((- (11151842 / 10000000) + 228027132 / 1000000000 * d) + v_moon * tau - (deg (296104608 / 1000000 - 360) + moon_motion * 1440 * (d + tau / 1440)))
    by (unfold moon_anomaly, moon_motion, deg; field) end.
  eapply Rle_trans; [eapply (phase_near _ _ _ _ _ _ _ (1 / 10 ^ 6) (8 / 10 ^ 9) (/ 10 ^ 10) _ _); [| | |exact D|reflexivity]; apply abs2; unfold v_moon, moon_motion, deg; lra|].
  apply Rplus_le_compat_r. lra.
Qed.
