(** Where the satellite of PipeProofs9 is at a time. *)
From Coq Require Import ZArith Reals Lra Lia Bool Psatz List.
From Verif Require GeoProofs6.
From Verif Require Import CLib ArithModel GeoLemmas OrbModel OrbSpec OrbTerms OrbProofs2 OrbProofs3 OrbProofs4 OrbProofs5 OrbProofs6 OrbProofs7 OrbProofs8 OrbExamples PipeProofs5 PipeProofs9.
Open Scope R_scope.

(** The rate of the mean longitude. *)
Definition flat_rate : R :=
  let a := a0'' 0 0 n_low in
  (1 + 6 * K2 / a ^ 2 + 45 * K2 ^ 2 / a ^ 4 + 10 * K4 / a ^ 4) * n0'' 0 0 n_low.
Lemma flat_rate_range : 429 / 10000 <= flat_rate <= 433 / 10000.
Proof.
  unfold flat_rate. cbv zeta. assert (A := flat_a). assert (N := flat_n). set (a := a0'' 0 0 n_low) in *. set (n := n0'' 0 0 n_low) in *.
  assert (X : 0 <= / a ^ 2 <= 49 / 100).
  { assert (X0 : 2044 / 1000 <= a ^ 2) by (simpl; nra). split; [apply Rlt_le, Rinv_0_lt_compat; lra|].
    apply (Rmult_le_reg_r (a ^ 2)); [lra|]. rewrite Rinv_l by lra. lra. }
  replace (/ a ^ 4) with (/ a ^ 2 * / a ^ 2) by (field; lra). unfold Rdiv. replace (/ a ^ 4) with (/ a ^ 2 * / a ^ 2) by (field; lra). set (x := / a ^ 2) in *. clearbody a n x.
  assert (X2 : 0 <= x * x <= 1) by nra. set (y := x * x) in *. clearbody y. unfold K2, K4, J2, J4.
  match goal with |- _ <= ?f * n <= _ => assert (F : 1 <= f <= 1003 / 1000) by lra; set (g := f) in * end. clearbody g. split; nra.
Qed.

Lemma flat_mean t : exists w node, propagate t o_flat = Ok (sxpx_posn_vel ideal node (a0'' 0 0 n_low) (1 / 1000000) (cos 0) (sin 0) 0 w (flat_rate * t)).
Proof.
  destruct flat_hyps as (H1 & H0 & H2 & H3 & H4). destruct (report o_flat t H1 H0 H2 H3 H4) as (q4 & _ & ->).
  cbn [o_flat o_bstar o_xincl o_xnodeo o_eo o_omegao o_xmo o_xno].
  assert (C10 : C1 0 0 0 n_low q4 = 0) by (unfold C1; ring).
  assert (D20 : D2 0 0 0 n_low q4 = 0) by (unfold D2; rewrite C10; ring).
  assert (D30 : D3 0 0 0 n_low q4 = 0) by (unfold D3; rewrite C10; ring).
  assert (D40 : D4 0 0 0 n_low q4 = 0) by (unfold D4; rewrite C10; ring).
  assert (AF : a_factor 0 0 0 n_low q4 t = 1) by (unfold a_factor; rewrite D20, D30, D40, C10; destruct (low _ _ _); ring).
  assert (E1 : mean_e 0 0 0 0 0 n_low q4 t = 0) by (unfold mean_e; destruct (low _ _ _); ring).
  assert (A1 : mean_a 0 0 0 n_low q4 t = a0'' 0 0 n_low) by (unfold mean_a; rewrite AF; ring).
  assert (B0 : beta0 0 = 1) by (unfold beta0; replace (1 - 0 ^ 2) with 1 by ring; apply sqrt_1).
  assert (DS : d_sum 0 0 0 0 0 n_low q4 t = 0) by (unfold d_sum; destruct (Rlt_dec _ _); [reflexivity | lra]).
  assert (L1 : mean_L 0 0 0 0 0 0 n_low q4 t = flat_rate * t).
  { unfold mean_L, mean_M, mean_w, mean_node, M_DF, w_DF, node_DF. rewrite DS, D20, D30, D40, C10, B0, cos_0. unfold flat_rate. cbv zeta. assert (A := flat_a). destruct (low _ _ _); field; lra. }
  rewrite AF. destruct (Rlt_dec 1 0); [lra|]. rewrite A1, E1, L1, Rmax_right by lra. do 2 eexists. reflexivity.
Qed.

Lemma turned_near c s c' s' n d : Rabs (c - c') <= d -> Rabs (s - s') <= d ->
  Rabs ((cos n * c - sin n * s) - (cos n * c' - sin n * s')) <= 2 * d /\ Rabs ((sin n * c + cos n * s) - (sin n * c' + cos n * s')) <= 2 * d.
Proof.
  intros A B. destruct (unit_bounds n) as [C S]. assert (P1 := Rabs_pos (c - c')). assert (P2 := Rabs_pos (s - s')). split.
  - replace (cos n * c - sin n * s - (cos n * c' - sin n * s')) with (cos n * (c - c') + - (sin n * (s - s'))) by ring. eapply Rle_trans; [apply Rabs_triang|]. rewrite Rabs_Ropp, !Rabs_mult.
    assert (Rabs (cos n) * Rabs (c - c') <= 1 * d) by (apply Rmult_le_compat; try apply Rabs_pos; lra). assert (Rabs (sin n) * Rabs (s - s') <= 1 * d) by (apply Rmult_le_compat; try apply Rabs_pos; lra). lra.
  - replace (sin n * c + cos n * s - (sin n * c' + cos n * s')) with (sin n * (c - c') + cos n * (s - s')) by ring. eapply Rle_trans; [apply Rabs_triang|]. rewrite !Rabs_mult.
    assert (Rabs (sin n) * Rabs (c - c') <= 1 * d) by (apply Rmult_le_compat; try apply Rabs_pos; lra). assert (Rabs (cos n) * Rabs (s - s') <= 1 * d) by (apply Rmult_le_compat; try apply Rabs_pos; lra). lra.
Qed.

Lemma flat_moves t : exists p rho phi, propagate t o_flat = Ok p /\ pl_code ideal p = 0%Z /\ 142 / 100 * XKMPER <= rho <= 146 / 100 * XKMPER /\
  pl_pos ideal p = (rho * cos phi, rho * sin phi, 0) /\ Rabs (cos phi - cos (flat_rate * t)) <= 2 / 100000 /\ Rabs (sin phi - sin (flat_rate * t)) <= 2 / 100000.
Proof.
  destruct (flat_mean t) as (w & node & ->). eexists. set (p := sxpx_posn_vel _ _ _ _ _ _ _ _ _). assert (A := flat_a). set (a := a0'' 0 0 n_low) in *. set (L := flat_rate * t) in *.
  assert (EL := flat_el a w).
  assert (C : pl_code ideal p = 0%Z).
  { unfold p. rewrite posn_converges; try lra. unfold Rmin. destruct (Rle_dec _ _); destruct (Rlt_dec _ 1); try reflexivity; exfalso; lra. }
  destruct (posn_cases node a (1 / 1000000) 0 w L) as [(D & _)|[(D & _)|(U & E & k & D & _ & UU & _ & KD & PLC)]]; try lra;
    fold p in D; try (rewrite C in D; discriminate). fold p in PLC. clear D.
  assert (LL : LT a (1 / 1000000) 0 w L = L) by (unfold LT; rewrite sin_0; unfold Rdiv; ring). rewrite LL in UU.
  assert (AX : axN (1 / 1000000) w = 1 / 1000000 * cos w) by reflexivity.
  assert (AY : ayN a (1 / 1000000) 0 w = 1 / 1000000 * sin w) by (unfold ayN; rewrite sin_0; unfold Rdiv; ring).
  destruct PLC as (r & u & RR & OE & HP & _). cbv zeta in HP. unfold i_k in HP. rewrite sin_0, Rmult_0_r, Rmult_0_l, Rplus_0_l in HP.
  assert (NU : node_k node a (1 / 1000000) 0 w u + u_k a (1 / 1000000) 0 w u = node + u).
  { unfold node_k, u_k. rewrite cos_0. assert (0 < pL a (1 / 1000000) 0 w) by (unfold pL; rewrite EL; lra). field. lra. }
  set (nk := node_k node a (1 / 1000000) 0 w u) in *. set (uk := u_k a (1 / 1000000) 0 w u) in *. set (rk := r_k a (1 / 1000000) 0 w r u) in *.
  (* the radius *)
  rewrite AX, AY in RR. replace (1 / 1000000 * cos w * cos E + 1 / 1000000 * sin w * sin E) with (1 / 1000000 * cos (w - E)) in RR by (rewrite cos_minus; ring).
  assert (RA : Rabs (r - a) <= 2 / 1000000).
  { rewrite RR. replace (a * (1 - 1 / 1000000 * cos (w - E)) - a) with (- (a * (1 / 1000000) * cos (w - E))) by ring. rewrite Rabs_Ropp, Rabs_mult, Rabs_pos_eq by lra.
    destruct (unit_bounds (w - E)) as [B _]. assert (B0 := Rabs_pos (cos (w - E))). nra. }
  assert (R1 : 1429 / 1000 <= r <= 1451 / 1000) by (apply Rabs_inv in RA; lra).
  (* the true argument of latitude *)
  assert (OE' := OE (1 / 1000000) w ltac:(lra) AX AY). destruct OE' as [O1 O2].
  assert (BT : 1 - 1 / 1000000 <= sqrt (1 - (1 / 1000000) ^ 2) <= 1).
  { assert (P := sqrt_pos (1 - (1 / 1000000) ^ 2)). assert (S : sqrt (1 - (1 / 1000000) ^ 2) * sqrt (1 - (1 / 1000000) ^ 2) = 1 - (1 / 1000000) ^ 2) by (apply sqrt_sqrt; lra). split; nra. }
  set (b := sqrt (1 - (1 / 1000000) ^ 2)) in *. clearbody b.
  destruct (unit_bounds w) as [B1 B2]. destruct (unit_bounds (E - w)) as [B3 B4]. destruct (unit_bounds E) as [B5 B6].
  assert (M1 : forall x y, Rabs x <= 1 -> Rabs y <= 1 -> Rabs ((1 - b) * (x * y)) <= 1 / 1000000).
  { intros x y X Y. rewrite !Rabs_mult, (Rabs_pos_eq (1 - b)) by lra. assert (Rabs x * Rabs y <= 1 * 1) by (apply Rmult_le_compat; try apply Rabs_pos; lra).
    assert (0 <= Rabs x * Rabs y) by (apply Rmult_le_pos; apply Rabs_pos). nra. }
  assert (RC : r * (cos u - cos E) = a * (- (1 / 1000000 * cos w) + (1 - b) * (sin w * sin (E - w))) - (r - a) * cos E).
  { assert (RC : r * cos u = a * (cos E - 1 / 1000000 * cos w + (1 - b) * (sin w * sin (E - w)))).
    { transitivity (cos w * (r * cos (u - w)) - sin w * (r * sin (u - w))).
      - replace (cos u) with (cos (w + (u - w))) by (f_equal; ring). rewrite cos_plus. ring.
      - rewrite O1, O2. replace (cos E) with (cos (w + (E - w))) by (f_equal; ring). rewrite cos_plus. ring. }
    rewrite Rmult_minus_distr_l, RC. ring. }
  assert (RS : r * (sin u - sin E) = a * (- (1 / 1000000 * sin w) + - ((1 - b) * (cos w * sin (E - w)))) - (r - a) * sin E).
  { assert (RS : r * sin u = a * (sin E - 1 / 1000000 * sin w - (1 - b) * (cos w * sin (E - w)))).
    { transitivity (sin w * (r * cos (u - w)) + cos w * (r * sin (u - w))).
      - replace (sin u) with (sin (w + (u - w))) by (f_equal; ring). rewrite sin_plus. ring.
      - rewrite O1, O2. replace (sin E) with (sin (w + (E - w))) by (f_equal; ring). rewrite sin_plus. ring. }
    rewrite Rmult_minus_distr_l, RS. ring. }
  assert (DIV : forall x, Rabs (r * x) <= 6 / 1000000 -> Rabs x <= 5 / 1000000).
  { intros x X. rewrite Rabs_mult, (Rabs_pos_eq r) in X by lra. assert (P := Rabs_pos x). nra. }
  assert (SM : forall x, Rabs x <= 1 -> Rabs (1 / 1000000 * x) <= 1 / 1000000) by (intros x X; rewrite Rabs_mult, Rabs_pos_eq by lra; lra).
  assert (RE : forall x, Rabs x <= 1 -> Rabs ((r - a) * x) <= 2 / 1000000 * 1) by (intros x X; rewrite Rabs_mult; apply Rmult_le_compat; try apply Rabs_pos; lra).
  assert (UC : Rabs (cos u - cos E) <= 5 / 1000000).
  { apply DIV. rewrite RC. assert (Q1 := M1 _ _ B2 B4). assert (Q2 := SM _ B1). assert (Q3 := RE _ B5). apply Rabs_inv in Q1, Q2, Q3. apply Rabs_le. split; nra. }
  assert (US : Rabs (sin u - sin E) <= 5 / 1000000).
  { apply DIV. rewrite RS. assert (Q1 := M1 _ _ B1 B4). assert (Q2 := SM _ B2). assert (Q3 := RE _ B6). apply Rabs_inv in Q1, Q2, Q3. apply Rabs_le. split; nra. }
  (* the eccentric longitude *)
  assert (EU : Rabs (E - U) <= 3 / 1000000).
  { unfold kepler_defect in KD. rewrite AX, AY in KD. assert (Q : 1 / 1000000 * cos w * sin E - 1 / 1000000 * sin w * cos E = 1 / 1000000 * sin (E - w)) by (rewrite sin_minus; ring).
    assert (Q1 := SM _ B4). apply Rlt_le, Rabs_inv in KD. apply Rabs_inv in Q1. apply Rabs_le. lra. }
  assert (CU : cos U = cos (L - node)) by (rewrite UU, <- (cos_turns (L - node - 2 * PI * IZR k) k); f_equal; ring).
  assert (SU : sin U = sin (L - node)) by (rewrite UU, <- (sin_turns (L - node - 2 * PI * IZR k) k); f_equal; ring).
  assert (Q1 := Rle_trans _ _ _ (cos_diff E U) EU). assert (Q2 := Rle_trans _ _ _ (GeoProofs6.sin_lip E U) EU). rewrite CU in Q1. rewrite SU in Q2.
  assert (UC2 : Rabs (cos u - cos (L - node)) <= 1 / 100000) by (apply Rabs_inv in UC, Q1; apply Rabs_le; lra).
  assert (US2 : Rabs (sin u - sin (L - node)) <= 1 / 100000) by (apply Rabs_inv in US, Q2; apply Rabs_le; lra).
  destruct (turned_near _ _ _ _ node _ UC2 US2) as [T1 T2]. replace (cos node * cos u - sin node * sin u) with (cos (node + u)) in T1 by (rewrite cos_plus; ring).
  replace (cos node * cos (L - node) - sin node * sin (L - node)) with (cos L) in T1 by (rewrite <- cos_plus; f_equal; ring).
  replace (sin node * cos u + cos node * sin u) with (sin (node + u)) in T2 by (rewrite sin_plus; ring).
  exists (XKMPER * rk), (node + u). split; [reflexivity|]. split; [exact C|]. split; [|split].
  - unfold rk, r_k, pL. rewrite EL, cos_0. set (s := sqrt (1 - 1 / 1000000000000)).
    assert (S : 0 <= s <= 1). { split; [apply sqrt_pos|]. apply Rle_trans with (sqrt 1); [apply sqrt_le_1; lra | rewrite sqrt_1; lra]. }
    set (pl := a * (1 - 1 / 1000000000000)). assert (PL : 142 / 100 <= pl) by (unfold pl; lra). clearbody s pl.
    replace (1 - 1 ^ 2) with 0 by ring. rewrite Rmult_0_r, Rmult_0_l, Rplus_0_r. replace (3 * 1 ^ 2 - 1) with 2 by ring.
    assert (PI2 : 0 <= / pl ^ 2 <= 1). { assert (1 <= pl ^ 2) by (simpl; nra). split; [apply Rlt_le, Rinv_0_lt_compat; lra|]. apply Rle_trans with (/ 1); [apply Rinv_le_contravar; lra | rewrite Rinv_1; lra]. }
    replace (3 / 2 * K2 * s / pl ^ 2 * 2) with (3 * K2 * (s * / pl ^ 2)) by (unfold Rdiv; field; lra).
    set (y := s * / pl ^ 2). assert (Y : 0 <= y <= 1) by (unfold y; nra). clearbody y. unfold XKMPER, K2, J2. nra.
  - unfold vec_of in HP. assert (X := f_equal c_x HP). assert (Y := f_equal c_y HP). assert (Z := f_equal c_z HP).
    unfold radial, turn, tilt, scale in X, Y, Z. cbn [c_x c_y c_z] in X, Y, Z. rewrite sin_0, cos_0 in X, Y, Z.
    change (pl_pos ideal p = (XKMPER * rk * cos (node + u), XKMPER * rk * sin (node + u), 0)). rewrite <- NU. destruct (pl_pos ideal p) as [[px py] pz]. cbn [fst snd] in X, Y, Z. rewrite cos_plus, sin_plus.
    apply f_equal2; [apply f_equal2|]; [etransitivity; [exact X|] | etransitivity; [exact Y|] | etransitivity; [exact Z|]];
      match goal with |- ?x = ?y => change (@eq R x y) end; ring.
  - split; [lra|]. replace (sin node * cos (L - node) + cos node * sin (L - node)) with (sin L) in T2; [lra|].
    rewrite <- sin_plus. f_equal. ring.
Qed.
