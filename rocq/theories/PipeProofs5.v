(** A satellite on a circular orbit of 1.44 Earth radii, over the Sun's side at its epoch and behind the Earth 73 minutes later. *)
From Coq Require Import ZArith Reals Lra Lia Bool Psatz List.
From Verif Require GeoProofs6.
From Verif Require Import CLib ArithModel GeoLemmas OrbModel OrbSpec OrbTerms OrbProofs2 OrbProofs3 OrbProofs4 OrbProofs5 OrbProofs6 OrbProofs7 OrbProofs8 OrbExamples.
Open Scope R_scope.

Definition n_low : R := KE / (1728 / 1000).
Definition o_low : orb ideal := mk_orb ideal 0 i_third 0 0 0 0 n_low 48.
Lemma low_a1 : a_1 n_low = 144 / 100.
Proof.
  unfold a_1, n_low. assert (0 < KE) by (unfold KE; lra). replace (KE / (KE / (1728 / 1000))) with (1728 / 1000) by (field; lra).
  replace (1728 / 1000) with (Rpower (144 / 100) (3 / 2)).
  - rewrite Rpower_mult. replace (3 / 2 * (2 / 3)) with 1 by lra. apply Rpower_1. lra.
  - replace (3 / 2) with (1 + / 2) by lra. rewrite Rpower_plus, Rpower_1, Rpower_sqrt by lra.
    replace (sqrt (144 / 100)) with (12 / 10); [lra|]. replace (144 / 100) with ((12 / 10) ^ 2) by lra. rewrite sqrt_pow2; lra.
Qed.
Lemma low_a : a0'' i_third 0 n_low = 144 / 100.
Proof. unfold a0'', a_0. cbv zeta. rewrite two_delta, low_a1. rewrite two_delta. field. Qed.
Lemma low_n : n0'' i_third 0 n_low = n_low.
Proof. unfold n0''. rewrite two_delta. field. Qed.
Lemma n_low_range : 4303 / 100000 <= n_low <= 4304 / 100000.
Proof. unfold n_low, KE. lra. Qed.
Lemma low_hyps : 0 <= o_eo ideal o_low < 1 /\ 0 < o_xno ideal o_low /\ 0 < a0'' (o_xincl ideal o_low) (o_eo ideal o_low) (o_xno ideal o_low)
  /\ a0'' (o_xincl ideal o_low) (o_eo ideal o_low) (o_xno ideal o_low) <> s_star (o_xincl ideal o_low) (o_eo ideal o_low) (o_xno ideal o_low)
  /\ eta0 (o_xincl ideal o_low) (o_eo ideal o_low) (o_xno ideal o_low) ^ 2 <> 1.
Proof.
  cbn [o_eo o_xincl o_xno o_low]. rewrite low_a. split; [lra|]. split; [generalize n_low_range; lra|]. split; [lra|].
  split.
  - unfold s_star, perigee_km. rewrite low_a. unfold XKMPER. destruct (Rle_dec _ 98); [lra|]. destruct (Rlt_dec _ 156); lra.
  - unfold eta0. rewrite low_a. intros H. replace (144 / 100 * 0 * xi i_third 0 n_low) with 0 in H by ring. lra.
Qed.
Lemma low_near : select_ephemeris ideal o_low = 0%Z.
Proof.
  destruct low_hyps as (H1 & H0 & H2 & _). destruct (chosen o_low ltac:(cbn; lia)) as [_ C]. destruct (C H0 ltac:(lra)) as (_ & _ & D).
  rewrite D; [|cbn; lia|apply H1|exact H2]. cbn [o_low o_xincl o_eo o_xno]. rewrite low_n. clear C D. destruct (Rle_dec _ _) as [N|]; [|reflexivity]. exfalso.
  assert (NR := n_low_range). assert (P := pi_bounds). assert (225 * n_low <= 2 * PI); [|lra].
  apply (Rmult_le_compat_r n_low) in N; [|lra]. replace (2 * PI / n_low * n_low) with (2 * PI) in N by (field; lra). exact N.
Qed.

Lemma third_range : 57 / 100 <= cos i_third <= 58 / 100 /\ 81 / 100 <= sin i_third <= 82 / 100.
Proof.
  assert (T := third). assert (S := sc2 i_third).
  assert (C0 : 0 <= cos i_third). { unfold i_third. rewrite cos_acos; [apply sqrt_pos|]. assert (A := sqrt_pos (1 / 3)). assert (B : sqrt (1 / 3) * sqrt (1 / 3) = 1 / 3) by (apply sqrt_sqrt; lra). nra. }
  assert (S0 : 0 <= sin i_third). { apply sin_ge_0; unfold i_third; apply acos_bound. }
  simpl in T. split; split; nra.
Qed.

(** The rates of node, perigee and anomaly over the mean motion. *)
Definition low_node : R := - (3 * K2 * cos i_third / (144 / 100) ^ 2) + 3 * K2 ^ 2 * (4 * cos i_third - 19 * cos i_third ^ 3) / (2 * (144 / 100) ^ 4)
  + 5 * K4 * cos i_third * (3 - 7 * cos i_third ^ 2) / (2 * (144 / 100) ^ 4).
Definition low_w : R := - (3 * K2 * (1 - 5 * cos i_third ^ 2) / (2 * (144 / 100) ^ 2)) + 3 * K2 ^ 2 * (7 - 114 * cos i_third ^ 2 + 395 * cos i_third ^ 4) / (16 * (144 / 100) ^ 4)
  + 5 * K4 * (3 - 36 * cos i_third ^ 2 + 49 * cos i_third ^ 4) / (4 * (144 / 100) ^ 4).
Definition low_M : R := 1 + 3 * K2 * (- 1 + 3 * cos i_third ^ 2) / (2 * (144 / 100) ^ 2) + 3 * K2 ^ 2 * (13 - 78 * cos i_third ^ 2 + 137 * cos i_third ^ 4) / (16 * (144 / 100) ^ 4).
Lemma low_rates : - (1 / 1000) <= low_node <= 0 /\ 0 <= low_w <= 1 / 1000 /\ 1 <= low_M <= 1 + 1 / 1000.
Proof.
  assert (T := third). assert (T4 : cos i_third ^ 4 = 1 / 9) by (replace (cos i_third ^ 4) with ((cos i_third ^ 2) ^ 2) by ring; rewrite T; lra).
  assert (T3 : cos i_third ^ 3 = cos i_third / 3) by (replace (cos i_third ^ 3) with (cos i_third * cos i_third ^ 2) by ring; rewrite T; lra).
  destruct third_range as [C _].
  unfold low_node, low_w, low_M. rewrite T3, T4, T. unfold K2, K4, J2, J4. set (c := cos i_third) in *. clearbody c. split; [|split]; lra.
Qed.

Lemma low_propagate t : propagate t o_low = Ok (sxpx_posn_vel ideal (low_node * n_low * t) (144 / 100) (1 / 1000000) (cos i_third) (sin i_third) i_third
  (low_w * n_low * t) ((low_M + low_w + low_node) * n_low * t)).
Proof.
  destruct low_hyps as (H1 & H0 & H2 & H3 & H4). destruct (report o_low t H1 H0 H2 H3 H4) as (q4 & _ & ->).
  cbn [o_low o_bstar o_xincl o_xnodeo o_eo o_omegao o_xmo o_xno].
  assert (C10 : C1 0 i_third 0 n_low q4 = 0) by (unfold C1; ring).
  assert (D20 : D2 0 i_third 0 n_low q4 = 0) by (unfold D2; rewrite C10; ring).
  assert (D30 : D3 0 i_third 0 n_low q4 = 0) by (unfold D3; rewrite C10; ring).
  assert (D40 : D4 0 i_third 0 n_low q4 = 0) by (unfold D4; rewrite C10; ring).
  assert (B0 : beta0 0 = 1) by (unfold beta0; replace (1 - 0 ^ 2) with 1 by ring; apply sqrt_1).
  assert (AF : a_factor 0 i_third 0 n_low q4 t = 1) by (unfold a_factor; rewrite D20, D30, D40, C10; destruct (low _ _ _); ring).
  assert (DS : d_sum 0 i_third 0 0 0 n_low q4 t = 0) by (unfold d_sum; destruct (Rlt_dec _ _); [reflexivity | lra]).
  assert (M1 : mean_M 0 i_third 0 0 0 n_low q4 t = low_M * n_low * t).
  { unfold mean_M. rewrite DS. unfold M_DF. rewrite B0, low_a, low_n. unfold low_M. destruct (low _ _ _); field. }
  assert (W1 : mean_w 0 i_third 0 0 0 n_low q4 t = low_w * n_low * t).
  { unfold mean_w. rewrite DS. unfold w_DF. rewrite B0, low_a, low_n. unfold low_w. destruct (low _ _ _); field. }
  assert (N1 : mean_node 0 i_third 0 0 n_low q4 t = low_node * n_low * t).
  { unfold mean_node. rewrite C10. unfold node_DF. rewrite B0, low_a, low_n. unfold low_node. field. }
  assert (E1 : mean_e 0 i_third 0 0 0 n_low q4 t = 0) by (unfold mean_e; destruct (low _ _ _); ring).
  assert (L1 : mean_L 0 i_third 0 0 0 0 n_low q4 t = (low_M + low_w + low_node) * n_low * t).
  { unfold mean_L. rewrite M1, W1, N1, D20, D30, D40, C10. destruct (low _ _ _); field. }
  rewrite AF, M1 || rewrite AF. destruct (Rlt_dec 1 0); [lra|].
  assert (A1 : mean_a 0 i_third 0 n_low q4 t = 144 / 100) by (unfold mean_a; rewrite AF, low_a; ring).
  rewrite A1, E1, W1, N1, L1. rewrite Rmax_right by lra. reflexivity.
Qed.

Lemma cos_diff x y : Rabs (cos x - cos y) <= Rabs (x - y).
Proof.
  replace (cos x - cos y) with (sin (PI / 2 - x) - sin (PI / 2 - y)) by (rewrite !sin_shift; ring).
  eapply Rle_trans; [apply GeoProofs6.sin_lip|]. replace (PI / 2 - x - (PI / 2 - y)) with (- (x - y)) by ring. rewrite Rabs_Ropp. lra.
Qed.

(** An orbit like this one: nearly circular, at an inclination with 3 cos^2 i = 1. *)
Section Ring.
Context (node w L : R) (E : R) (pos vel : vec3) (U : R) (k : Z).
Let a : R := 144 / 100.
Let e : R := 1 / 1000000.
Let i := i_third.
Context (PL : placed node a e i w E pos vel) (UU : U = LT a e i w L - node - 2 * PI * IZR k) (KD : Rabs (kepler_defect a e i w U E) < 1 / 10 ^ 12).
Context (HN : Rabs node <= 5 / 1000).

Lemma unit_bounds t : Rabs (cos t) <= 1 /\ Rabs (sin t) <= 1.
Proof. split; apply Rabs_le; [apply COS_bound | apply SIN_bound]. Qed.
Lemma ring_ax : Rabs (axN e w) <= 1 / 1000000.
Proof. unfold axN, e. rewrite Rabs_mult, (Rabs_pos_eq (1 / 1000000)) by lra. destruct (unit_bounds w). lra. Qed.
Lemma ring_long : 0 <= A30 * sin i / (4 * K2 * a * (1 - e ^ 2)) <= 9 / 10000.
Proof.
  destruct third_range as [_ S]. fold i in S. unfold A30, J3, K2, J2, a, e. set (s := sin i) in *. clearbody s.
  match goal with |- 0 <= ?x / ?y <= _ => assert (0 < y) by lra; split; [apply Rmult_le_pos; [lra | apply Rlt_le, Rinv_0_lt_compat; assumption]|] end.
  apply (Rmult_le_reg_r (4 * (1082616 / 1000000000 / 2) * (144 / 100) * (1 - (1 / 1000000) ^ 2))); [lra|].
  unfold Rdiv at 1. rewrite Rmult_assoc, Rinv_l by lra. lra.
Qed.
Lemma ring_ay : Rabs (ayN a e i w) <= 1 / 1000.
Proof.
  unfold ayN. eapply Rle_trans; [apply Rabs_triang|]. assert (A := ring_long). rewrite (Rabs_pos_eq (_ / _)) by lra. rewrite Rabs_mult. destruct (unit_bounds w).
  rewrite (Rabs_pos_eq e) by (unfold e; lra). assert (e * Rabs (sin w) <= e * 1) by (apply Rmult_le_compat_l; unfold e; lra). unfold e in *. lra.
Qed.
Lemma ring_el : 0 <= eL2 a e i w <= 2 / 1000000.
Proof.
  unfold eL2. assert (A := ring_ax). assert (B := ring_ay). rewrite <- (pow2_abs (axN e w)), <- (pow2_abs (ayN a e i w)).
  assert (P1 := Rabs_pos (axN e w)). assert (P2 := Rabs_pos (ayN a e i w)). split; [apply Rplus_le_le_0_compat; apply pow2_ge_0|].
  assert (Rabs (axN e w) ^ 2 <= (1 / 1000000) ^ 2) by (apply pow_incr; lra). assert (Rabs (ayN a e i w) ^ 2 <= (1 / 1000) ^ 2) by (apply pow_incr; lra). lra.
Qed.
Lemma ring_LT : Rabs (LT a e i w L - L) <= 1 / 100000.
Proof.
  unfold LT. replace (L + _ - L) with (A30 * sin i / (8 * K2 * a * (1 - e ^ 2)) * (e * cos w) * ((3 + 5 * cos i) / (1 + cos i))) by ring.
  replace (A30 * sin i / (8 * K2 * a * (1 - e ^ 2))) with (A30 * sin i / (4 * K2 * a * (1 - e ^ 2)) / 2).
  2: { unfold A30, J3, K2, J2, a, e. field. }
  assert (A := ring_long). set (g := A30 * sin i / (4 * K2 * a * (1 - e ^ 2))) in *. destruct third_range as [C _]. fold i in C. set (c := cos i) in *.
  assert (Q : 0 <= (3 + 5 * c) / (1 + c) <= 5).
  { split; [apply Rmult_le_pos; [lra | apply Rlt_le, Rinv_0_lt_compat; lra]|]. apply (Rmult_le_reg_r (1 + c)); [lra|]. unfold Rdiv. rewrite Rmult_assoc, Rinv_l by lra. lra. }
  set (d := (3 + 5 * c) / (1 + c)) in *. assert (X := ring_ax). unfold axN in X. set (f := e * cos w) in *.
  rewrite !Rabs_mult. rewrite (Rabs_pos_eq (g / 2)), (Rabs_pos_eq d) by lra. assert (F := Rabs_pos f).
  apply Rle_trans with (1 * (1 / 1000000) * 5); [|lra]. apply Rmult_le_compat; try lra. { apply Rmult_le_pos; lra. } apply Rmult_le_compat; lra.
Qed.
Lemma ring_E : Rabs (cos E - cos (L - node)) <= 2 / 1000.
Proof.
  assert (A := ring_ax). assert (B := ring_ay). assert (T := ring_LT). unfold kepler_defect in KD.
  destruct (unit_bounds E) as [CE SE].
  assert (XA : Rabs (axN e w * sin E) <= 1 / 1000000) by (rewrite Rabs_mult; assert (P := Rabs_pos (axN e w)); assert (Rabs (axN e w) * Rabs (sin E) <= Rabs (axN e w) * 1) by (apply Rmult_le_compat_l; lra); lra).
  assert (YA : Rabs (ayN a e i w * cos E) <= 1 / 1000) by (rewrite Rabs_mult; assert (P := Rabs_pos (ayN a e i w)); assert (Rabs (ayN a e i w) * Rabs (cos E) <= Rabs (ayN a e i w) * 1) by (apply Rmult_le_compat_l; lra); lra).
  assert (EU : Rabs (E - U) <= 15 / 10000).
  { apply Rlt_le, Rabs_inv in KD. apply Rabs_inv in XA, YA. apply Rabs_le. lra. }
  assert (CU : cos U = cos (LT a e i w L - node)).
  { rewrite UU. rewrite <- (cos_turns (LT a e i w L - node - 2 * PI * IZR k) k). f_equal. ring. }
  assert (Q1 := cos_diff E U). assert (Q2 := cos_diff (LT a e i w L - node) (L - node)). replace (LT a e i w L - node - (L - node)) with (LT a e i w L - L) in Q2 by ring.
  rewrite CU in Q1. assert (Q3 := Rle_trans _ _ _ Q1 EU). assert (Q4 := Rle_trans _ _ _ Q2 T). apply Rabs_inv in Q3, Q4. apply Rabs_le. lra.
Qed.

Lemma ring_place : exists rho ux uy uz, pos = v3 (rho * ux) (rho * uy) (rho * uz) /\ ux * ux + uy * uy + uz * uz = 1 /\
  143 / 100 * XKMPER <= rho <= 145 / 100 * XKMPER /\ Rabs (ux - cos (L - node)) <= 3 / 100.
Proof.
  destruct PL as (r & u & HR & OE & HP & _). assert (A := ring_ax). assert (B := ring_ay). assert (EL := ring_el). assert (CE := ring_E).
  assert (pl1 : 143 / 100 <= pL a e i w <= 144 / 100) by (unfold pL, a in *; lra).
  destruct (unit_bounds E) as [CE1 SE1].
  assert (R1 : Rabs (r - a) <= 15 / 10000).
  { rewrite HR. replace (a * (1 - (axN e w * cos E + ayN a e i w * sin E)) - a) with (- (a * (axN e w * cos E + ayN a e i w * sin E))) by ring.
    rewrite Rabs_Ropp, Rabs_mult, (Rabs_pos_eq a) by (unfold a; lra).
    assert (S : Rabs (axN e w * cos E + ayN a e i w * sin E) <= 1 / 1000000 * 1 + 1 / 1000 * 1).
    { eapply Rle_trans; [apply Rabs_triang|]. rewrite !Rabs_mult. apply Rplus_le_compat; apply Rmult_le_compat; try apply Rabs_pos; lra. }
    unfold a in *. lra. }
  assert (R2 : 1438 / 1000 <= r <= 1442 / 1000) by (apply Rabs_inv in R1; unfold a in *; lra).
  (* u is close to E *)
  assert (UC : Rabs (cos u - cos E) <= 5 / 1000).
  { assert (X : exists wL, axN e w = sqrt (eL2 a e i w) * cos wL /\ ayN a e i w = sqrt (eL2 a e i w) * sin wL).
    { replace (eL2 a e i w) with (axN e w * axN e w + ayN a e i w * ayN a e i w) by (unfold eL2; ring).
      destruct (Req_dec (axN e w * axN e w + ayN a e i w * ayN a e i w) 0) as [Z|Z].
      - exists 0. assert (Z0 : forall v, v * v = 0 -> v = 0) by (intros v V; apply Rmult_integral in V; tauto).
        assert (Z1 : 0 <= axN e w * axN e w) by apply Rle_0_sqr. assert (Z2 : 0 <= ayN a e i w * ayN a e i w) by apply Rle_0_sqr.
        rewrite Z, sqrt_0, (Z0 (axN e w)), (Z0 (ayN a e i w)) by lra. lra.
      - destruct (Ratan2_polar _ _ Z) as [E1 E2]. eexists. split; [exact E1 | exact E2]. }
    destruct X as (wL & X1 & X2). set (el := sqrt (eL2 a e i w)) in *. assert (L0 : 0 <= el) by apply sqrt_pos.
    assert (L2 : el * el = eL2 a e i w) by (apply sqrt_sqrt; lra). assert (L1 : el <= 15 / 10000) by nra.
    destruct (OE el wL L0 X1 X2) as [O1 O2].
    assert (BT : 1 - el * el <= sqrt (1 - el ^ 2) <= 1).
    { assert (P := sqrt_pos (1 - el ^ 2)). assert (S : sqrt (1 - el ^ 2) * sqrt (1 - el ^ 2) = 1 - el ^ 2) by (apply sqrt_sqrt; nra). split; nra. }
    set (b := sqrt (1 - el ^ 2)) in *.
    assert (RC : r * cos u = a * (cos E - el * cos wL + (1 - b) * (sin wL * sin (E - wL)))).
    { transitivity (cos wL * (r * cos (u - wL)) - sin wL * (r * sin (u - wL))).
      - replace (cos u) with (cos (wL + (u - wL))) by (f_equal; ring). rewrite cos_plus. ring.
      - rewrite O1, O2. replace (cos E) with (cos (wL + (E - wL))) by (f_equal; ring). rewrite cos_plus. ring. }
    assert (D1 : Rabs (el * cos wL) <= 15 / 10000).
    { rewrite Rabs_mult, (Rabs_pos_eq el) by lra. destruct (unit_bounds wL). assert (el * Rabs (cos wL) <= el * 1) by (apply Rmult_le_compat_l; lra). lra. }
    assert (D2 : Rabs ((1 - b) * (sin wL * sin (E - wL))) <= 1 / 10000).
    { rewrite !Rabs_mult, (Rabs_pos_eq (1 - b)) by lra. destruct (unit_bounds wL), (unit_bounds (E - wL)).
      assert (Rabs (sin wL) * Rabs (sin (E - wL)) <= 1 * 1) by (apply Rmult_le_compat; try apply Rabs_pos; lra).
      assert ((1 - b) * (Rabs (sin wL) * Rabs (sin (E - wL))) <= (1 - b) * (1 * 1)) by (apply Rmult_le_compat_l; lra). nra. }
    assert (RCE : Rabs (r * (cos u - cos E)) <= 5 / 1000).
    { replace (r * (cos u - cos E)) with (a * (- (el * cos wL) + (1 - b) * (sin wL * sin (E - wL))) - (r - a) * cos E) by (rewrite Rmult_minus_distr_l, RC; ring).
      assert (S1 : Rabs ((r - a) * cos E) <= 15 / 10000 * 1) by (rewrite Rabs_mult; apply Rmult_le_compat; try apply Rabs_pos; lra).
      apply Rabs_inv in D1, D2, S1. apply Rabs_le. unfold a in *. lra. }
    rewrite Rabs_mult, (Rabs_pos_eq r) in RCE by lra. assert (P := Rabs_pos (cos u - cos E)). assert (1 * Rabs (cos u - cos E) <= r * Rabs (cos u - cos E)) by (apply Rmult_le_compat_r; lra). lra. }
  assert (K2v : 0 < K2 <= 6 / 10000) by (unfold K2, J2; lra). assert (T2 := third). fold i in T2. destruct third_range as [C1' S1']. fold i in C1', S1'.
  assert (Kp : 0 <= K2 / pL a e i w ^ 2 <= 4 / 10000).
  { split; [apply Rmult_le_pos; [lra | apply Rlt_le, Rinv_0_lt_compat, pow_lt; lra]|]. apply (Rmult_le_reg_r (pL a e i w ^ 2)); [apply pow_lt; lra|]. unfold Rdiv. rewrite Rmult_assoc, Rinv_l by (apply pow_nonzero; lra). nra. }
  destruct (unit_bounds (2 * u)) as [C2u S2u].
  assert (UK : Rabs (u_k a e i w u - u) <= 1 / 1000).
  { unfold u_k. rewrite T2. replace (u - K2 / (4 * pL a e i w ^ 2) * (7 * (1 / 3) - 1) * sin (2 * u) - u) with (- (K2 / pL a e i w ^ 2 * (1 / 3) * sin (2 * u))) by (field; lra).
    rewrite Rabs_Ropp, Rabs_mult, (Rabs_pos_eq (_ * (1 / 3))) by lra. assert (P := Rabs_pos (sin (2 * u))). assert (K2 / pL a e i w ^ 2 * (1 / 3) * Rabs (sin (2 * u)) <= K2 / pL a e i w ^ 2 * (1 / 3) * 1) by (apply Rmult_le_compat_l; lra). lra. }
  assert (NK : Rabs (node_k node a e i w u) <= 6 / 1000).
  { unfold node_k. eapply Rle_trans; [apply Rabs_triang|]. replace (3 * K2 * cos i / (2 * pL a e i w ^ 2) * sin (2 * u)) with (K2 / pL a e i w ^ 2 * (3 / 2 * cos i) * sin (2 * u)) by (field; lra).
    rewrite !Rabs_mult. rewrite (Rabs_pos_eq (K2 / pL a e i w ^ 2)), (Rabs_pos_eq (cos i)), (Rabs_pos_eq (3 / 2)) by lra.
    assert (K2 / pL a e i w ^ 2 * (3 / 2 * cos i) * Rabs (sin (2 * u)) <= 4 / 10000 * 1 * 1); [|lra].
    apply Rmult_le_compat; try lra; [apply Rmult_le_pos; lra | apply Rabs_pos | apply Rmult_le_compat; lra]. }
  assert (RK : 143 / 100 <= r_k a e i w r u <= 145 / 100).
  { unfold r_k. rewrite T2. replace (3 * (1 / 3) - 1) with 0 by lra.
    assert (Q : Rabs (K2 / (2 * pL a e i w) * (1 - 1 / 3) * cos (2 * u)) <= 1 / 1000).
    { replace (K2 / (2 * pL a e i w) * (1 - 1 / 3) * cos (2 * u)) with (K2 / pL a e i w ^ 2 * (pL a e i w / 3) * cos (2 * u)) by (field; lra).
      rewrite !Rabs_mult. rewrite (Rabs_pos_eq (K2 / pL a e i w ^ 2)), (Rabs_pos_eq (pL a e i w / 3)) by lra.
      assert (K2 / pL a e i w ^ 2 * (pL a e i w / 3) * Rabs (cos (2 * u)) <= 4 / 10000 * 1 * 1); [|lra].
      apply Rmult_le_compat; try lra; [apply Rmult_le_pos; lra | apply Rabs_pos | apply Rmult_le_compat; lra]. }
    rewrite Rmult_0_r, Rminus_0_r, Rmult_1_r. apply Rabs_inv in Q. lra. }
  cbv zeta in HP. destruct (frame (node_k node a e i w u) (i_k a e i w u) (u_k a e i w u)) as (F1 & _).
  set (V := radial (node_k node a e i w u) (i_k a e i w u) (u_k a e i w u)) in *.
  exists (XKMPER * r_k a e i w r u), (c_x V), (c_y V), (c_z V). split; [exact HP|]. split; [exact F1|]. split; [unfold XKMPER in *; lra|].
  assert (VX : c_x V = cos (node_k node a e i w u) * cos (u_k a e i w u) - sin (node_k node a e i w u) * (cos (i_k a e i w u) * sin (u_k a e i w u))).
  { unfold V, radial, turn, tilt. cbn [c_x c_y c_z]. ring. }
  rewrite VX. set (nk := node_k node a e i w u) in *. set (uk := u_k a e i w u) in *. set (ik := i_k a e i w u).
  assert (G1 := cos_diff nk 0). rewrite cos_0, Rminus_0_r in G1. assert (G2 := GeoProofs6.sin_lip nk 0). rewrite sin_0, !Rminus_0_r in G2.
  assert (G3 := cos_diff uk u). assert (Z1 : Rabs ((cos nk - 1) * cos uk) <= 6 / 1000 * 1) by (rewrite Rabs_mult; destruct (unit_bounds uk); apply Rmult_le_compat; try apply Rabs_pos; lra).
  assert (Z2 : Rabs (sin nk * (cos ik * sin uk)) <= 6 / 1000 * (1 * 1)).
  { rewrite !Rabs_mult. destruct (unit_bounds uk), (unit_bounds ik). apply Rmult_le_compat; try apply Rabs_pos; try lra; [apply Rmult_le_pos; apply Rabs_pos|]. apply Rmult_le_compat; try apply Rabs_pos; lra. }
  assert (G4 := Rle_trans _ _ _ G3 UK). apply Rabs_inv in Z1, Z2, G4, UC, CE. apply Rabs_le. lra.
Qed.
End Ring.

Lemma low_where t : Rabs t <= 100 -> exists p rho ux uy uz, propagate t o_low = Ok p /\ pl_code ideal p = 0%Z /\ pl_pos ideal p = (rho * ux, rho * uy, rho * uz) /\
  ux * ux + uy * uy + uz * uz = 1 /\ 143 / 100 * XKMPER <= rho <= 145 / 100 * XKMPER /\ Rabs (ux - cos ((low_M + low_w) * n_low * t)) <= 3 / 100.
Proof.
  intros T. rewrite low_propagate. eexists. set (p := sxpx_posn_vel _ _ _ _ _ _ _ _ _).
  destruct low_rates as (R1 & R2 & R3). assert (NR := n_low_range).
  assert (ND : Rabs (low_node * n_low * t) <= 5 / 1000).
  { rewrite !Rabs_mult. rewrite (Rabs_pos_eq n_low) by lra. apply Rle_trans with (1 / 1000 * (4304 / 100000) * 100); [|lra].
    assert (Rabs low_node <= 1 / 1000) by (apply Rabs_le; lra).
    apply Rmult_le_compat; try apply Rabs_pos; try lra; [apply Rmult_le_pos; [apply Rabs_pos | lra]|]. apply Rmult_le_compat; try apply Rabs_pos; lra. }
  assert (EL := ring_el (low_w * n_low * t)).
  assert (C : pl_code ideal p = 0%Z).
  { unfold p. rewrite posn_converges; try lra. unfold Rmin. destruct (Rle_dec _ _); destruct (Rlt_dec _ 1); try reflexivity; exfalso; lra. }
  destruct (posn_cases (low_node * n_low * t) (144 / 100) (1 / 1000000) i_third (low_w * n_low * t) ((low_M + low_w + low_node) * n_low * t)) as [(D & _)|[(D & _)|(U & E & k & D & _ & UU & _ & KD & PLC)]]; try lra;
    fold p in D; try (rewrite C in D; discriminate).
  destruct (ring_place _ _ _ E _ _ U k PLC UU KD ND) as (rho & ux & uy & uz & P1 & P2 & P3 & P4).
  exists rho, ux, uy, uz. split; [reflexivity|]. split; [exact C|]. split.
  - fold p in P1. unfold vec_of in P1. assert (X := f_equal c_x P1). assert (Y := f_equal c_y P1). assert (Z := f_equal c_z P1). cbn [c_x c_y c_z] in X, Y, Z.
    rewrite <- X, <- Y, <- Z. change (pl_pos ideal p = (fst (fst (pl_pos ideal p)), snd (fst (pl_pos ideal p)), snd (pl_pos ideal p))). destruct (pl_pos ideal p) as [[? ?] ?]. reflexivity.
  - split; [exact P2|]. split; [exact P3|]. replace ((low_M + low_w) * n_low * t) with ((low_M + low_w + low_node) * n_low * t - low_node * n_low * t) by ring. exact P4.
Qed.
