(** The rates and the periodic terms of one body are those of the theory. *)
From Coq Require Import ZArith Reals Lra.
From Verif Require Import CLib ArithModel GeoLemmas OrbModel DeepModel DeepProofs1 DeepProofs7 ThirdSpec ThirdTerms ThirdProofs1 ThirdProofs2 ThirdProofs3.
Open Scope R_scope.

Definition comp_n (s : space) (h : R) : R := inner s (cos h, sin h, 0).
Definition comp_m (s : space) (i h : R) : R := inner s (- cos i * sin h, cos i * cos h, sin i).
Lemma P_comp s i w h : P s i w h = comp_n s h * cos w + comp_m s i h * sin w.
Proof. destruct s as [[x y] z]. unfold P, comp_n, comp_m, toward_p, pericentre, inner. ring. Qed.
Lemma Q_comp s i w h : Q s i w h = - comp_n s h * sin w + comp_m s i h * cos w.
Proof. destruct s as [[x y] z]. unfold Q, comp_n, comp_m, toward_q, quadrature, inner. ring. Qed.
Lemma pass_core o zn cc ze n e i w h :
  pass o zn cc ze n e i w h = core e i (cos w) (sin w) (e * e) (sqrt (1 - e * e)) (1 - e * e) n zn cc ze
    (comp_n (unit1 o) h) (comp_m (unit1 o) i h) (comp_n (unit2 o) h) (comp_m (unit2 o) i h) (W (unit1 o) i h) (W (unit2 o) i h).
Proof.
  unfold pass. etransitivity; [apply third_body_core|]. cbv zeta. destruct o as [cg sg ci' si' ch' sh'].
  unfold comp_n, comp_m, W, unit1, unit2, inner, pericentre, quadrature. cbn [p_cw p_sw p_ci p_si p_ch p_sh].
  f_equal; ring.
Qed.

Section One.
Context (o : path) (zn cc ze n e i w h : R).
Context (N : n <> 0) (E : 0 < e < 1) (S : sin i <> 0).
Let r := pass o zn cc ze n e i w h.
Let d := drift2 o (4 * cc * zn) n e i w h.
Let b := sqrt (1 - e * e).
Lemma b_nz : b <> 0.
Proof. apply Rgt_not_eq, sqrt_lt_R0. nra. Qed.
Lemma b_sq : b * b = 1 - e * e.
Proof. apply beta2. lra. Qed.
Lemma w_sq : sin w * sin w = 1 - cos w * cos w.
Proof. pose proof (square_trig w). lra. Qed.
Lemma drift2_pqc :
  let D := drift_pqc (4 * cc * zn) n b e (cos i) (sin i) (cos w) (sin w) in
  d = half_sum (D (comp_n (unit1 o) h * cos w + comp_m (unit1 o) i h * sin w) (- comp_n (unit1 o) h * sin w + comp_m (unit1 o) i h * cos w) (W (unit1 o) i h))
               (D (comp_n (unit2 o) h * cos w + comp_m (unit2 o) i h * sin w) (- comp_n (unit2 o) h * sin w + comp_m (unit2 o) i h * cos w) (W (unit2 o) i h)).
Proof. cbv zeta. unfold d, drift2. rewrite !drift_of_pqc, !P_comp, !Q_comp. reflexivity. Qed.
Lemma pass_rates : w_se ideal r = r_e d /\ w_si ideal r = r_i d /\ w_sl ideal r = r_m d /\ w_sgh ideal r = r_w d + cos i * r_h d.
Proof.
  rewrite drift2_pqc. unfold r. rewrite pass_core. cbv zeta. repeat split.
  - apply core_se; [exact N].
  - apply core_si; [exact N|exact b_nz|exact w_sq].
  - apply core_sl; [exact N|exact b_sq|exact w_sq].
  - apply core_sgh; [exact N|exact b_nz|exact S].
Qed.
Lemma pass_node : PI / 60 <= i -> w_sh ideal r = sin i * r_h d.
Proof. intros I. rewrite drift2_pqc. unfold r. rewrite pass_core. apply core_sh; [exact N|exact b_nz|exact S|exact w_sq|exact I]. Qed.
Lemma pass_node0 : i < PI / 60 -> w_sh ideal r = 0.
Proof. intros I. unfold r. rewrite pass_core. apply core_sh0. exact I. Qed.

(** The periodic terms as functions of the angle f of the body *)
Let q := w_amps ideal r.
Definition wave (a2 a3 a4 f : R) : R := a2 * (1 / 2 * (sin f * sin f) - 1 / 4) + a3 * (- (1 / 2) * (sin f * cos f)) + a4 * sin f.
Lemma wave_deriv a2 a3 a4 f : derivable_pt_lim (wave a2 a3 a4) f (a2 * (sin f * cos f) + a3 * (- (1 / 2) * (cos f * cos f - sin f * sin f)) + a4 * cos f).
Proof. unfold wave. eapply D_eq; [derive|cbv beta; field]. Qed.
Lemma wave_mean a2 a3 a4 : mean (wave a2 a3 a4) 0.
Proof.
  exists (fun f => - (1 / 4) * (a2 * (sin f * cos f)) + - (1 / 4) * (a3 * (sin f * sin f)) - a4 * cos f). split.
  - intros f. eapply D_eq; [derive|cbv beta]. unfold wave. assert (T : sin f * sin f = 1 - cos f * cos f) by (pose proof (square_trig f); lra). field [T].
  - rewrite sin_2PI, cos_2PI, sin_0, cos_0. ring.
Qed.
Lemma body_perts_wave zm : let f := zm + 2 * ze * sin zm in
  body_perts ideal q zm ze = mk_perts ideal (wave (q_e2 ideal q) (q_e3 ideal q) 0 f) (wave (q_i2 ideal q) (q_i3 ideal q) 0 f)
    (wave (q_l2 ideal q) (q_l3 ideal q) (q_l4 ideal q) f) (wave (q_gh2 ideal q) (q_gh3 ideal q) (q_gh4 ideal q) f) (wave (q_h2 ideal q) (q_h3 ideal q) 0 f).
Proof.
  cbv zeta. unfold body_perts, wave. cbv zeta. rewrite int_ideal, !cst_ideal.
  change (add ideal) with Rplus; change (sub ideal) with Rminus; change (mul ideal) with Rmult; change (opp ideal) with Ropp; change (c_sin ideal) with sin; change (c_cos ideal) with cos; change (num ideal) with R.
  generalize (sin (zm + 2 * ze * sin zm)), (cos (zm + 2 * ze * sin zm)). intros s c. f_equal; field.
Qed.
Lemma pf_lin f i' : P (body o f) i' w h = cos f * P (unit1 o) i' w h + sin f * P (unit2 o) i' w h.
Proof. unfold P, body. fold (unit1 o) (unit2 o). apply along_inner. Qed.
Lemma qf_lin f i' : Q (body o f) i' w h = cos f * Q (unit1 o) i' w h + sin f * Q (unit2 o) i' w h.
Proof. unfold Q, body. fold (unit1 o) (unit2 o). apply along_inner. Qed.
Lemma wf_lin f i' : W (body o f) i' h = cos f * W (unit1 o) i' h + sin f * W (unit2 o) i' h.
Proof. unfold W, body. fold (unit1 o) (unit2 o). apply along_inner. Qed.
Context (Z : zn <> 0).
Lemma pass_waves f : let x := drift_of (body o f) (4 * cc * zn) n e i w h in let d0 := drift0 (4 * cc * zn) n e i w h in
  let s := sin f in let k := cos f in
  q_e2 ideal q * (s * k) + q_e3 ideal q * (- (1 / 2) * (k * k - s * s)) + 0 * k = (r_e x - r_e d + 3 * ze * k * r_e d0) / zn
  /\ q_i2 ideal q * (s * k) + q_i3 ideal q * (- (1 / 2) * (k * k - s * s)) + 0 * k = (r_i x - r_i d + 3 * ze * k * r_i d0) / zn
  /\ q_l2 ideal q * (s * k) + q_l3 ideal q * (- (1 / 2) * (k * k - s * s)) + q_l4 ideal q * k = (r_m x - r_m d + 3 * ze * k * r_m d0) / zn
  /\ q_gh2 ideal q * (s * k) + q_gh3 ideal q * (- (1 / 2) * (k * k - s * s)) + q_gh4 ideal q * k
     = ((r_w x + cos i * r_h x) - (r_w d + cos i * r_h d) + 3 * ze * k * (r_w d0 + cos i * r_h d0)) / zn
  /\ q_h2 ideal q * (s * k) + q_h3 ideal q * (- (1 / 2) * (k * k - s * s)) + 0 * k = sin i * (r_h x - r_h d + 3 * ze * k * r_h d0) / zn.
Proof.
  cbv zeta. assert (U : sin f * sin f = 1 - cos f * cos f) by (pose proof (square_trig f); lra).
  rewrite drift2_pqc. unfold q, r. rewrite pass_core. cbv zeta. rewrite drift_of_pqc, pf_lin, qf_lin, wf_lin, !P_comp, !Q_comp.
  pose proof b_nz as B. pose proof b_sq as Bb. pose proof w_sq as T.
  split; [|split; [|split; [|split]]].
  - rewrite Rmult_0_l, Rplus_0_r, (core_pe e i n b (cos i) (sin i)) by assumption. fold b. cbn [r_e drift0]. field. exact Z.
  - rewrite Rmult_0_l, Rplus_0_r, (core_pinc e i n b (cos i) (sin i)) by assumption. fold b. cbn [r_i drift0]. field. exact Z.
  - rewrite (core_pl e i n b (cos i) (sin i)) by assumption. reflexivity.
  - rewrite (core_pgh e i n b (cos i) (sin i)) by assumption. reflexivity.
  - rewrite Rmult_0_l, Rplus_0_r, (core_ph e i n b (cos i) (sin i)) by assumption. fold b. cbn [r_h drift0]. field. exact Z.
Qed.
End One.
