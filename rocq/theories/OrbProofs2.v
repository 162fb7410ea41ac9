(** The conic of the last stage of the propagator, in real arithmetic. *)
From Coq Require Import ZArith Reals Lra Lia Bool Psatz.
From Verif Require Import CLib ArithModel GeoLemmas OrbModel OrbSpec OrbProofs1.
Open Scope R_scope.

Lemma ck2_eq : ck2 ideal = K2.
Proof. unfold ck2, xj2, ae, int, K2, J2. cbn. lra. Qed.
Lemma a3ovk2_eq : a3ovk2 ideal = A30 / K2.
Proof. unfold a3ovk2, minus_xj3, ae, int. rewrite ck2_eq. unfold A30, J3, K2, J2. cbn. lra. Qed.
Lemma km_eq : q_km = XKMPER.
Proof. reflexivity. Qed.
Lemma xke_eq : xke ideal = KE.
Proof. reflexivity. Qed.
Lemma K2_pos : 0 < K2.
Proof. unfold K2, J2. lra. Qed.

(** The eccentric longitude on the ellipse with eccentricity vector (x, y). *)
Section Conic.
Context (a x y E : R).
Let el := x * x + y * y.
Context (Ha : 0 < a) (Hel : el < 1).
Let b := sqrt (1 - el).
Let ec := x * cos E + y * sin E.
Let es := x * sin E - y * cos E.
Let r := a * (1 - ec).
Let t := es / (1 + b).
Let cu := a / r * (cos E - x + y * t).
Let su := a / r * (sin E - y - x * t).

Lemma conic_b : 0 < b /\ b * b = 1 - el.
Proof. split. { apply sqrt_lt_R0. lra. } apply sqrt_sqrt. lra. Qed.
Lemma conic_sum : ec * ec + es * es = el.
Proof.
  unfold ec, es, el. assert (S := sc2 E).
  replace ((x * cos E + y * sin E) * (x * cos E + y * sin E) + (x * sin E - y * cos E) * (x * sin E - y * cos E))
    with ((x * x + y * y) * (sin E * sin E + cos E * cos E)) by ring.
  rewrite S. ring.
Qed.
Lemma conic_ec : -1 < ec < 1.
Proof. assert (H := conic_sum). assert (0 <= es * es) by apply Rle_0_sqr. split; nra. Qed.
Lemma conic_r : 0 < r.
Proof. destruct conic_ec. apply Rmult_lt_0_compat; lra. Qed.

Lemma conic_unit : cu * cu + su * su = 1.
Proof.
  destruct conic_b as [B1 B2]. destruct conic_ec as [C1 C2]. assert (S := conic_sum). assert (T := sc2 E).
  assert (R0 := conic_r).
  assert (F : (cos E - x + y * t) * (cos E - x + y * t) + (sin E - y - x * t) * (sin E - y - x * t) = (1 - ec) * (1 - ec)).
  { assert (P : t * (1 + b) = es) by (unfold t; field; lra).
    transitivity ((sin E * sin E + cos E * cos E) + el - 2 * ec - 2 * t * es + t * t * el). { unfold ec, es, el. ring. }
    rewrite T. replace (t * t * el) with (t * t * ((1 - b) * (1 + b))) by (f_equal; lra).
    replace (t * t * ((1 - b) * (1 + b))) with (t * (t * (1 + b)) * (1 - b)) by ring. rewrite P.
    replace (1 + el - 2 * ec - 2 * t * es + t * es * (1 - b)) with (1 + el - 2 * ec - es * (t * (1 + b))) by ring.
    rewrite P. rewrite <- S. ring. }
  unfold cu, su.
  replace (a / r * (cos E - x + y * t) * (a / r * (cos E - x + y * t)) + a / r * (sin E - y - x * t) * (a / r * (sin E - y - x * t)))
    with (a / r * (a / r) * ((cos E - x + y * t) * (cos E - x + y * t) + (sin E - y - x * t) * (sin E - y - x * t))) by ring.
  rewrite F. unfold r. field. split; lra.
Qed.

Lemma conic_angle : cos (Ratan2 su cu) = cu /\ sin (Ratan2 su cu) = su.
Proof.
  assert (U := conic_unit). destruct (Ratan2_polar su cu) as [P Q]. { lra. }
  rewrite U, sqrt_1 in P, Q. split; lra.
Qed.

Lemma conic_point e w : 0 <= e -> x = e * cos w -> y = e * sin w ->
  r * (cu * cos w + su * sin w) = a * (cos (E - w) - e) /\ r * (su * cos w - cu * sin w) = a * sqrt (1 - e ^ 2) * sin (E - w).
Proof.
  intros He Hx Hy. assert (R0 := conic_r). destruct conic_b as [B1 B2]. assert (W := sc2 w).
  assert (L : el = e ^ 2). { unfold el. rewrite Hx, Hy. transitivity (e ^ 2 * (sin w * sin w + cos w * cos w)); [ring|]. rewrite W. ring. }
  assert (Q1 : r * cu = a * (cos E - x + y * t)) by (unfold cu; field; lra).
  assert (Q2 : r * su = a * (sin E - y - x * t)) by (unfold su; field; lra).
  assert (Q3 : es = e * sin (E - w)). { unfold es. rewrite Hx, Hy, sin_minus. ring. }
  split.
  - transitivity (r * cu * cos w + r * su * sin w); [ring|]. rewrite Q1, Q2, cos_minus, Hx, Hy.
    transitivity (a * (cos E * cos w + sin E * sin w - e * (sin w * sin w + cos w * cos w))); [ring|]. rewrite W. ring.
  - transitivity (r * su * cos w - r * cu * sin w); [ring|]. rewrite Q1, Q2.
    transitivity (a * (sin E * cos w - cos E * sin w - t * (x * cos w + y * sin w) + (x * sin w - y * cos w))); [ring|].
    rewrite <- sin_minus. rewrite <- L. fold b.
    replace (x * cos w + y * sin w) with (e * (sin w * sin w + cos w * cos w)) by (rewrite Hx, Hy; ring).
    replace (x * sin w - y * cos w) with 0 by (rewrite Hx, Hy; ring). rewrite W.
    assert (T : t * e = (1 - b) * sin (E - w)).
    { unfold t. rewrite Q3. transitivity (e ^ 2 * sin (E - w) / (1 + b)); [field; lra|]. rewrite <- L.
      replace el with ((1 - b) * (1 + b)) by lra. field. lra. }
    rewrite Rmult_1_r, T. ring.
Qed.
End Conic.

Section Posn.
Context (node a e i w L : R) (Ha : 0 < a) (He : e ^ 2 <> 1).
Let axn := q_axn e w.
Let ayn := q_ayn a e (sin i) w.

Lemma axn_eq : q_axn e w = axN e w.
Proof. reflexivity. Qed.
Lemma ayn_eq : q_ayn a e (sin i) w = ayN a e i w.
Proof.
  unfold q_ayn, ayN, q_temp. rewrite a3ovk2_eq. assert (K := K2_pos). assert (1 - e * e <> 0) by (intros H; apply He; lra).
  field. repeat split; try lra; try (intros Z; apply He; lra).
Qed.
Lemma xlt_eq : q_xlt a e (cos i) (sin i) w L = LT a e i w L.
Proof.
  unfold q_xlt, LT, q_temp. rewrite axn_eq. unfold axN. rewrite a3ovk2_eq. assert (K := K2_pos). assert (1 - e * e <> 0) by (intros H; apply He; lra).
  set (c := cos i). set (s := sin i). replace (1 / 1 + c) with (1 + c) by lra. unfold Rdiv.
  set (k := / (1 + c)). field. repeat split; try lra; try (intros Z; apply He; lra).
Qed.
Lemma elsq_eq : q_elsq a e (sin i) w = eL2 a e i w.
Proof. unfold q_elsq, eL2. rewrite axn_eq, ayn_eq. ring. Qed.

Context (Hl : eL2 a e i w <= 1 - 1 / 1000000).
Lemma el_lt : axN e w * axN e w + ayN a e i w * ayN a e i w < 1.
Proof. unfold eL2 in Hl. lra. Qed.

Section E.
Context (E : R).
Let r := q_r a e (sin i) w E.
Let u := q_u a e (sin i) w E.

Lemma r_eq : r = a * (1 - (axN e w * cos E + ayN a e i w * sin E)).
Proof. unfold r, q_r, q_ecos. rewrite axn_eq, ayn_eq. unfold Rdiv. lra. Qed.
Lemma r_pos : 0 < r.
Proof. rewrite r_eq. apply conic_r; [exact Ha | exact el_lt]. Qed.
Lemma one1 : forall z, 1 / 1 - z = 1 - z. Proof. intros; lra. Qed.
Lemma one2 : forall z, 1 / 1 + z = 1 + z. Proof. intros; lra. Qed.
Lemma cu_eq : q_cosu a e (sin i) w E = cos u /\ q_sinu a e (sin i) w E = sin u.
Proof.
  unfold u, q_u.
  assert (H := conic_angle a (axN e w) (ayN a e i w) E Ha el_lt). cbv zeta in H.
  unfold q_cosu, q_sinu, q_t, q_esin, q_betal, q_r, q_ecos. rewrite ?one1, ?one2, elsq_eq, axn_eq, ayn_eq.
  unfold eL2. replace (axN e w ^ 2) with (axN e w * axN e w) by ring. replace (ayN a e i w ^ 2) with (ayN a e i w * ayN a e i w) by ring.
  destruct H as [H1 H2]. split; symmetry; assumption.
Qed.
Lemma ellipse : on_ellipse a e i w E r u.
Proof.
  intros eL wL P Q S.
  assert (H := conic_point a (axN e w) (ayN a e i w) E Ha el_lt eL wL P Q S). cbv zeta in H.
  destruct cu_eq as [C1 C2]. rewrite cos_minus, sin_minus, <- C1, <- C2, r_eq.
  unfold q_cosu, q_sinu, q_t, q_esin, q_betal, q_r, q_ecos. rewrite ?one1, ?one2, elsq_eq, axn_eq, ayn_eq.
  unfold eL2. replace (axN e w ^ 2) with (axN e w * axN e w) by ring. replace (ayN a e i w ^ 2) with (ayN a e i w * ayN a e i w) by ring.
  exact H.
Qed.
Lemma s2u_eq : q_sin2u a e (sin i) w E = sin (2 * u).
Proof. unfold q_sin2u. destruct cu_eq as [C1 C2]. rewrite C1, C2, sin_2a. lra. Qed.
Lemma c2u_eq : q_cos2u a e (sin i) w E = cos (2 * u).
Proof. unfold q_cos2u. destruct cu_eq as [C1 C2]. rewrite C1, cos_2a_cos. lra. Qed.
Lemma pl_eq : q_pl a e (sin i) w = pL a e i w.
Proof. unfold q_pl, pL. rewrite elsq_eq. lra. Qed.
Lemma pL_gt : 0 < pL a e i w.
Proof. apply Rmult_lt_0_compat; lra. Qed.
Lemma t1_eq : q_t1 a e (sin i) w = K2 / pL a e i w.
Proof. unfold q_t1. rewrite ck2_eq, pl_eq. reflexivity. Qed.
Lemma t2_eq : q_t2 a e (sin i) w = K2 / pL a e i w ^ 2.
Proof. unfold q_t2. rewrite t1_eq, pl_eq. assert (P := pL_gt). field. lra. Qed.
Lemma betal_eq : q_betal a e (sin i) w = sqrt (1 - eL2 a e i w).
Proof. unfold q_betal. rewrite one1, elsq_eq. reflexivity. Qed.

Lemma rk_eq : q_rk a e (cos i) (sin i) w E = r_k a e i w r u.
Proof.
  unfold q_rk, r_k. rewrite t1_eq, t2_eq, betal_eq, c2u_eq. fold r. unfold q_x3, q_s2. assert (P := pL_gt).
  field. lra.
Qed.
Lemma uk_eq : q_uk a e (cos i) (sin i) w E = u_k a e i w u.
Proof. unfold q_uk, u_k. rewrite t2_eq, s2u_eq. fold u. unfold q_x7. assert (P := pL_gt). field. lra. Qed.
Lemma nodek_eq : q_nodek node a e (cos i) (sin i) w E = node_k node a e i w u.
Proof. unfold q_nodek, node_k. rewrite t2_eq, s2u_eq. assert (P := pL_gt). field. lra. Qed.
Lemma inck_eq : q_inck a e (cos i) (sin i) i w E = i_k a e i w u.
Proof. unfold q_inck, i_k. rewrite t2_eq, c2u_eq. assert (P := pL_gt). field. lra. Qed.
Lemma rdotk_eq : q_rdotk a e (cos i) (sin i) w E = rdot_k a e i w E r u.
Proof.
  unfold q_rdotk, rdot_k, r_dot, q_xn, n_mean. rewrite xke_eq, t1_eq, s2u_eq. fold r. unfold q_s2, q_esin. rewrite axn_eq, ayn_eq.
  assert (P := pL_gt). assert (Q := r_pos). assert (0 < sqrt a) by (apply sqrt_lt_R0; lra). field. repeat split; lra.
Qed.
Lemma rfdotk_eq : q_rfdotk a e (cos i) (sin i) w E = rfdot_k a e i w r u.
Proof.
  unfold q_rfdotk, rfdot_k, rf_dot, q_xn, n_mean. rewrite xke_eq, t1_eq, c2u_eq, pl_eq. fold r. unfold q_s2, q_x3.
  assert (P := pL_gt). assert (Q := r_pos). assert (0 < sqrt a) by (apply sqrt_lt_R0; lra). field. repeat split; lra.
Qed.
Lemma place_ok : placed node a e i w E (vec_of (q_pos node a e (cos i) (sin i) i w E)) (vec_of (q_vel node a e (cos i) (sin i) i w E)).
Proof.
  exists r, u. split; [exact r_eq|]. split; [exact ellipse|].
  unfold q_pos, q_vel, vec_of. cbn [fst snd]. rewrite km_eq, rk_eq, rdotk_eq, rfdotk_eq.
  unfold q_ux, q_uy, q_uz, q_vx, q_vy, q_vz. rewrite uk_eq, nodek_eq, inck_eq.
  unfold radial, transverse, turn, tilt, scale, plus. cbn [c_x c_y c_z].
  split; f_equal; change (num ideal) with R; ring.
Qed.
End E.
End Posn.

(** The frame is orthonormal, whatever the angles. *)
Lemma frame node i u : dot (radial node i u) (radial node i u) = 1 /\ dot (transverse node i u) (transverse node i u) = 1
  /\ dot (radial node i u) (transverse node i u) = 0.
Proof.
  unfold dot, radial, transverse, turn, tilt. cbn [c_x c_y c_z].
  assert (N := sc2 node). assert (I := sc2 i). assert (U := sc2 u).
  set (cn := cos node) in *. set (sn := sin node) in *. set (ci := cos i) in *. set (si := sin i) in *. set (cu := cos u) in *. set (su := sin u) in *.
  assert (T : forall p q, (cn * p - sn * q) * (cn * p - sn * q) + (sn * p + cn * q) * (sn * p + cn * q) = p * p + q * q).
  { intros p q. transitivity ((sn * sn + cn * cn) * (p * p + q * q)); [ring|]. rewrite N. ring. }
  split; [|split].
  - rewrite T. transitivity (cu * cu + su * su * (si * si + ci * ci)); [ring|]. rewrite I. lra.
  - rewrite T. transitivity (su * su + cu * cu * (si * si + ci * ci)); [ring|]. rewrite I. lra.
  - transitivity ((sn * sn + cn * cn) * (- (cu * su)) + (sn * sn + cn * cn) * (ci * ci * su * cu) + si * si * su * cu); [ring|]. rewrite N.
    transitivity (su * cu * (si * si + ci * ci - 1)); [ring|]. rewrite I. ring.
Qed.
