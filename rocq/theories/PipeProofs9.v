(** A satellite exactly in the zenith is reported a third of a degree away from it. *)
From Coq Require Import ZArith Reals Lra Lia Bool Psatz List.
From Verif Require GeoProofs6.
From Verif Require Import CLib ArithModel GeoLemmas OrbModel OrbSpec OrbTerms OrbProofs2 OrbProofs3 OrbProofs4 OrbProofs5 OrbProofs6 OrbProofs7 OrbProofs8 OrbExamples PipeProofs5.
Open Scope R_scope.

(** A circular orbit of 1.44 Earth radii in the plane of the equator. *)
Definition o_flat : orb ideal := mk_orb ideal 0 0 0 0 0 0 n_low 48.
Lemma flat_delta a : delta_of 0 0 a = 3 * K2 / a ^ 2.
Proof.
  unfold delta_of, beta0. rewrite cos_0. replace (1 - 0 ^ 2) with 1 by ring. rewrite sqrt_1. unfold Rdiv. set (x := / a ^ 2). field.
Qed.
Lemma flat_delta_range a : 142 / 100 <= a <= 146 / 100 -> 7 / 10000 <= delta_of 0 0 a <= 9 / 10000.
Proof.
  intros A. rewrite flat_delta. unfold K2, J2. assert (0 < a ^ 2) by (apply pow_lt; lra).
  split; apply (Rmult_le_reg_r (a ^ 2)); try lra.
  - replace (3 * (1082616 / 1000000000 / 2) / a ^ 2 * a ^ 2) with (3 * (1082616 / 1000000000 / 2)) by (field; lra). simpl. nra.
  - replace (3 * (1082616 / 1000000000 / 2) / a ^ 2 * a ^ 2) with (3 * (1082616 / 1000000000 / 2)) by (field; lra). simpl. nra.
Qed.
Lemma flat_a0 : 143 / 100 <= a_0 0 0 n_low <= 144 / 100.
Proof.
  unfold a_0. cbv zeta. rewrite low_a1. assert (D := flat_delta_range (144 / 100) ltac:(lra)). set (d := delta_of 0 0 (144 / 100)) in *. clearbody d.
  assert (0 <= d * d <= 1 / 1000000) by nra. assert (0 <= d * d * d <= 1 / 1000000) by nra. simpl. lra.
Qed.
Lemma flat_a : 143 / 100 <= a0'' 0 0 n_low <= 145 / 100.
Proof.
  unfold a0''. assert (A := flat_a0). assert (D := flat_delta_range (a_0 0 0 n_low) ltac:(lra)). set (a := a_0 0 0 n_low) in *. set (d := delta_of 0 0 a) in *. clearbody d a.
  split; apply (Rmult_le_reg_r (1 - d)); try lra; unfold Rdiv; rewrite (Rmult_assoc a), Rinv_l by lra; nra.
Qed.
Lemma flat_n : 429 / 10000 <= n0'' 0 0 n_low <= 431 / 10000.
Proof.
  unfold n0''. assert (A := flat_a0). assert (D := flat_delta_range (a_0 0 0 n_low) ltac:(lra)). set (d := delta_of 0 0 (a_0 0 0 n_low)) in *. clearbody d.
  assert (N := n_low_range). split; apply (Rmult_le_reg_r (1 + d)); try lra; unfold Rdiv; rewrite (Rmult_assoc n_low), Rinv_l by lra; nra.
Qed.
Lemma flat_hyps : 0 <= o_eo ideal o_flat < 1 /\ 0 < o_xno ideal o_flat /\ 0 < a0'' (o_xincl ideal o_flat) (o_eo ideal o_flat) (o_xno ideal o_flat)
  /\ a0'' (o_xincl ideal o_flat) (o_eo ideal o_flat) (o_xno ideal o_flat) <> s_star (o_xincl ideal o_flat) (o_eo ideal o_flat) (o_xno ideal o_flat)
  /\ eta0 (o_xincl ideal o_flat) (o_eo ideal o_flat) (o_xno ideal o_flat) ^ 2 <> 1.
Proof.
  cbn [o_eo o_xincl o_xno o_flat]. assert (A := flat_a). split; [lra|]. split; [generalize n_low_range; lra|]. split; [lra|].
  split.
  - unfold s_star, perigee_km, XKMPER. destruct (Rle_dec _ 98); [lra|]. destruct (Rlt_dec _ 156); lra.
  - unfold eta0. intros H. replace (a0'' 0 0 n_low * 0 * xi 0 0 n_low) with 0 in H by ring. lra.
Qed.
Lemma flat_near : select_ephemeris ideal o_flat = 0%Z.
Proof.
  destruct flat_hyps as (H1 & H0 & H2 & _). destruct (chosen o_flat ltac:(cbn; lia)) as [_ C]. destruct (C H0 ltac:(lra)) as (_ & _ & D).
  rewrite D; [|cbn; lia|apply H1|exact H2]. cbn [o_flat o_xincl o_eo o_xno]. clear C D. destruct (Rle_dec _ _) as [N|]; [|reflexivity]. exfalso.
  assert (NR := flat_n). assert (P := pi_bounds). set (n := n0'' 0 0 n_low) in *. assert (225 * n <= 2 * PI); [|lra].
  apply (Rmult_le_compat_r n) in N; [|lra]. replace (2 * PI / n * n) with (2 * PI) in N by (field; lra). exact N.
Qed.
Lemma flat_propagate t : exists node w L, propagate t o_flat = Ok (sxpx_posn_vel ideal node (a0'' 0 0 n_low) (1 / 1000000) (cos 0) (sin 0) 0 w L).
Proof.
  destruct flat_hyps as (H1 & H0 & H2 & H3 & H4). destruct (report o_flat t H1 H0 H2 H3 H4) as (q4 & _ & ->).
  cbn [o_flat o_bstar o_xincl o_xnodeo o_eo o_omegao o_xmo o_xno].
  assert (C10 : C1 0 0 0 n_low q4 = 0) by (unfold C1; ring).
  assert (AF : a_factor 0 0 0 n_low q4 t = 1) by (unfold a_factor, D2, D3, D4; rewrite C10; destruct (low _ _ _); ring).
  assert (E1 : mean_e 0 0 0 0 0 n_low q4 t = 0) by (unfold mean_e; destruct (low _ _ _); ring).
  assert (A1 : mean_a 0 0 0 n_low q4 t = a0'' 0 0 n_low) by (unfold mean_a; rewrite AF; ring).
  rewrite AF. destruct (Rlt_dec 1 0); [lra|]. rewrite A1, E1, Rmax_right by lra. do 3 eexists. reflexivity.
Qed.

Lemma flat_el a w : eL2 a (1 / 1000000) 0 w = 1 / 1000000000000.
Proof.
  unfold eL2, axN, ayN. rewrite sin_0. assert (S := sc2 w). unfold Rdiv at 3. rewrite !Rmult_0_r, Rmult_0_l, Rplus_0_r.
  replace ((1 / 1000000 * cos w) ^ 2 + (1 / 1000000 * sin w) ^ 2) with (1 / 1000000000000 * (sin w * sin w + cos w * cos w)) by field. rewrite S. ring.
Qed.
(** Where it is: over the equator. *)
Lemma flat_where t : exists p rho phi, propagate t o_flat = Ok p /\ pl_code ideal p = 0%Z /\ 6400 < rho /\ pl_pos ideal p = (rho * cos phi, rho * sin phi, 0).
Proof.
  destruct (flat_propagate t) as (node & w & L & ->). eexists. set (p := sxpx_posn_vel _ _ _ _ _ _ _ _ _). assert (A := flat_a). set (a := a0'' 0 0 n_low) in *.
  assert (EL := flat_el a w).
  assert (C : pl_code ideal p = 0%Z).
  { unfold p. rewrite posn_converges; try lra. unfold Rmin. destruct (Rle_dec _ _); destruct (Rlt_dec _ 1); try reflexivity; exfalso; lra. }
  destruct (posn_cases node a (1 / 1000000) 0 w L) as [(D & _)|[(D & _)|(U & E & k & D & _ & _ & _ & _ & PLC)]]; try lra;
    fold p in D; try (rewrite C in D; discriminate). fold p in PLC. clear D.
  destruct PLC as (r & u & RR & _ & HP & _). cbv zeta in HP. unfold i_k in HP. rewrite sin_0, Rmult_0_r, Rmult_0_l, Rplus_0_l in HP.
  set (nk := node_k node a (1 / 1000000) 0 w u) in *. set (uk := u_k a (1 / 1000000) 0 w u) in *. set (rk := r_k a (1 / 1000000) 0 w r u) in *.
  exists (XKMPER * rk), (nk + uk). split; [reflexivity|]. split; [exact C|]. split.
  - assert (AX : Rabs (axN (1 / 1000000) w * cos E + ayN a (1 / 1000000) 0 w * sin E) <= 2 / 1000000).
    { unfold axN, ayN. rewrite sin_0. unfold Rdiv at 3. rewrite !Rmult_0_r, Rmult_0_l, Rplus_0_r.
      assert (X1 := COS_bound w). assert (X2 := SIN_bound w). assert (X3 := COS_bound E). assert (X4 := SIN_bound E). apply Rabs_le.
      replace (1 / 1000000 * cos w * cos E + 1 / 1000000 * sin w * sin E) with (1 / 1000000 * cos (w - E)) by (rewrite cos_minus; ring).
      assert (X5 := COS_bound (w - E)). lra. }
    apply Rabs_inv in AX. set (x := axN (1 / 1000000) w * cos E + ayN a (1 / 1000000) 0 w * sin E) in *. clearbody x.
    assert (R1 : 142 / 100 <= r). { rewrite RR. nra. }
    unfold rk, r_k, pL. rewrite EL, cos_0. set (s := sqrt (1 - 1 / 1000000000000)).
    assert (S : 0 <= s <= 1). { split; [apply sqrt_pos|]. apply Rle_trans with (sqrt 1); [apply sqrt_le_1; lra | rewrite sqrt_1; lra]. }
    set (pl := a * (1 - 1 / 1000000000000)). assert (PL : 142 / 100 <= pl) by (unfold pl; lra). clearbody s pl.
    replace (1 - 1 ^ 2) with 0 by ring. rewrite Rmult_0_r, Rmult_0_l, Rplus_0_r. replace (3 * 1 ^ 2 - 1) with 2 by ring.
    assert (PI2 : 0 <= / pl ^ 2 <= 1). { assert (1 <= pl ^ 2) by (simpl; nra). split; [apply Rlt_le, Rinv_0_lt_compat; lra|]. apply Rle_trans with (/ 1); [apply Rinv_le_contravar; lra | rewrite Rinv_1; lra]. }
    replace (3 / 2 * K2 * s / pl ^ 2 * 2) with (3 * K2 * (s * / pl ^ 2)) by (unfold Rdiv; field; lra).
    set (y := s * / pl ^ 2). assert (Y : 0 <= y <= 1) by (unfold y; nra). clearbody y. unfold XKMPER, K2, J2. nra.
  - unfold vec_of in HP. assert (X := f_equal c_x HP). assert (Y := f_equal c_y HP). assert (Z := f_equal c_z HP).
    unfold radial, turn, tilt, scale in X, Y, Z. cbn [c_x c_y c_z] in X, Y, Z. rewrite sin_0, cos_0 in X, Y, Z.
    change (pl_pos ideal p = (XKMPER * rk * cos (nk + uk), XKMPER * rk * sin (nk + uk), 0)). destruct (pl_pos ideal p) as [[px py] pz]. cbn [fst snd] in X, Y, Z. rewrite cos_plus, sin_plus.
    apply f_equal2; [apply f_equal2|]; [etransitivity; [exact X|] | etransitivity; [exact Y|] | etransitivity; [exact Z|]];
      match goal with |- ?x = ?y => change (@eq R x y) end; ring.
Qed.
