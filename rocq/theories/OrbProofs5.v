(** The initialisation and the secular terms of SGP4, in real arithmetic. *)
From Coq Require Import ZArith Reals Lra Lia Bool.
From Verif Require Import CLib ArithModel GeoLemmas OrbModel OrbSpec OrbProofs1 OrbProofs2.
Open Scope R_scope.

Section Init.
Context (o : orb ideal).
Let bstar : R := o_bstar ideal o.
Let i0 : R := o_xincl ideal o.
Let node0 : R := o_xnodeo ideal o.
Let e0 : R := o_eo ideal o.
Let w0 : R := o_omegao ideal o.
Let M0 : R := o_xmo ideal o.
Let n0 : R := o_xno ideal o.
Let a'' : R := a0'' i0 e0 n0.
Let n'' : R := n0'' i0 e0 n0.
Let d := sxpall_common_init ideal o.
Context (He : 0 <= e0 < 1) (Hn : 0 < n0).
Context (Ha : 0 < a'').

Ltac ic := cbn [add sub mul div opp ltn len cst c_sin c_cos c_sqrt c_fabs c_pow ideal num]; change (num ideal) with R in *.

Lemma beta_pos : 0 < beta0 e0.
Proof. unfold beta0. apply sqrt_lt_R0. nra. Qed.
Lemma beta_sq : beta0 e0 ^ 2 = 1 - e0 * e0.
Proof. unfold beta0. replace (1 - e0 ^ 2) with (1 - e0 * e0) by ring. replace (sqrt _ ^ 2) with (sqrt (1 - e0 * e0) * sqrt (1 - e0 * e0)) by ring. apply sqrt_sqrt. nra. Qed.
Lemma betao2_eq : i_betao2 ideal d = beta0 e0 ^ 2.
Proof. rewrite beta_sq. unfold d, sxpall_common_init, int. cbn [i_betao2]. ic. fold e0. lra. Qed.
Lemma betao_eq : i_betao ideal d = beta0 e0.
Proof. unfold d, sxpall_common_init, int, beta0. cbn [i_betao]. ic. fold e0. f_equal. lra. Qed.
Lemma cosio_eq : i_cosio ideal d = cos i0.
Proof. reflexivity. Qed.
Lemma cosio2_eq : i_cosio2 ideal d = cos i0 ^ 2.
Proof. unfold d, sxpall_common_init, int. cbn [i_cosio2]. ic. fold i0. ring. Qed.
Lemma a1_eq : c_pow ideal (div ideal (xke ideal) (o_xno ideal o)) (two_thirds ideal) = a_1 n0.
Proof.
  unfold a_1, two_thirds, int. ic. fold n0. rewrite xke_eq. rewrite Rcpow_pos; [f_equal; lra|]. apply Rdiv_lt_0_compat; [unfold KE; lra | exact Hn].
Qed.
Lemma a1_pos : 0 < a_1 n0.
Proof. apply exp_pos. Qed.
Lemma a0_nz : a_0 i0 e0 n0 <> 0.
Proof. intros Z. unfold a'', a0'' in Ha. rewrite Z in Ha. unfold Rdiv in Ha. lra. Qed.

Lemma tval_eq x : x <> 0 ->
  15 / 10 * ck2 ideal * (3 / 1 * (cos i0 * cos i0) - 1 / 1) / (beta0 e0 * (beta0 e0 ^ 2)) / (x * x) = delta_of i0 e0 x.
Proof. intros X. unfold delta_of. rewrite ck2_eq. assert (B := beta_pos). field. split; lra. Qed.
Lemma both : i_xnodp ideal d = n'' /\ i_aodp ideal d = a''.
Proof.
  assert (B2 := betao2_eq). assert (B := betao_eq). unfold d, sxpall_common_init, int in B, B2. cbn [i_betao i_betao2] in B, B2.
  unfold d, sxpall_common_init, int. cbn [i_xnodp i_aodp]. rewrite B, B2, a1_eq. ic. fold i0 n0.
  assert (P := a1_pos). assert (T := tval_eq (a_1 n0) ltac:(lra)). rewrite T.
  set (q := a_1 n0 * (1 / 1 - _)). 
  assert (Q : q = a_0 i0 e0 n0). { unfold q, a_0. cbv zeta. set (dl := delta_of i0 e0 (a_1 n0)). field. }
  rewrite Q. rewrite (tval_eq (a_0 i0 e0 n0) a0_nz). unfold n'', a'', n0'', a0''. split; f_equal; lra.
Qed.
Lemma xnodp_eq : i_xnodp ideal d = n''. Proof. apply both. Qed.
Lemma aodp_eq : i_aodp ideal d = a''. Proof. apply both. Qed.

Let k := sxpx_common_init ideal o.
Let s := s_star i0 e0 n0.
(** The value used for (q0 - s)^4. *)
Definition q4_used : R := if Rlt_dec (perigee_km i0 e0 n0) 156 then q_star i0 e0 n0 else 1880279159015270643865 / 1000000000000000000000000000000.
Lemma q4_near : Rabs (q4_used - q_star i0 e0 n0) <= 1 / 10 ^ 30.
Proof.
  unfold q4_used. destruct (Rlt_dec _ _) as [H|H].
  - replace (_ - _) with 0 by ring. rewrite Rabs_R0. lra.
  - unfold q_star, s_star. destruct (Rle_dec _ 98); [lra|]. destruct (Rlt_dec _ 156); [lra|].
    unfold XKMPER. apply Rabs_le. lra.
Qed.

Definition pair_used : R * R := (s, q4_used).
Lemma pair_eq :
  (if Rltb ((a'' * (1 / 1 - e0) - ae ideal) * earth_radius_in_km ideal) (156 / 1) then
      let s4 := if Rleb ((a'' * (1 / 1 - e0) - ae ideal) * earth_radius_in_km ideal) (98 / 1) then 20 / 1 else (a'' * (1 / 1 - e0) - ae ideal) * earth_radius_in_km ideal - 78 / 1 in
      let temp_val := (120 / 1 - s4) * ae ideal / earth_radius_in_km ideal in
      let temp_val_squared := temp_val * temp_val in
      (s4 / earth_radius_in_km ideal + ae ideal, temp_val_squared * temp_val_squared)
    else (s_const ideal, qoms2t ideal)) = (s, q4_used).
Proof.
  assert (P : (a'' * (1 / 1 - e0) - ae ideal) * earth_radius_in_km ideal = perigee_km i0 e0 n0).
  { unfold perigee_km, XKMPER. fold a''. unfold ae, earth_radius_in_km, int. ic. lra. }
  rewrite P. cbv zeta.
  unfold s, s_star, q4_used, q_star. fold a''.
  assert (K : earth_radius_in_km ideal = XKMPER) by reflexivity. rewrite K.
  assert (A1 : ae ideal = 1) by (unfold ae, int; ic; lra). rewrite A1.
  assert (PK : perigee_km i0 e0 n0 = (a'' * (1 - e0) - 1) * XKMPER) by reflexivity.
  assert (X : 0 < XKMPER) by (unfold XKMPER; lra).
  destruct (Rltb _ (156 / 1)) eqn:Q1.
  - apply Rltb_t in Q1. destruct (Rlt_dec (perigee_km i0 e0 n0) 156); [|lra].
    unfold s_star. destruct (Rleb _ (98 / 1)) eqn:Q2.
    + apply Rleb_t in Q2. destruct (Rle_dec (perigee_km i0 e0 n0) 98); [|lra]. f_equal; change (num ideal) with R; field; lra.
    + apply Rleb_f in Q2. destruct (Rle_dec (perigee_km i0 e0 n0) 98); [lra|]. destruct (Rlt_dec (perigee_km i0 e0 n0) 156); [|lra].
      rewrite PK. fold a''. f_equal; change (num ideal) with R; field; lra.
  - apply Rltb_f in Q1. destruct (Rlt_dec (perigee_km i0 e0 n0) 156); [lra|]. destruct (Rle_dec (perigee_km i0 e0 n0) 98); [lra|].
    f_equal. unfold s_const. rewrite A1, K. unfold int. ic. field. lra.
Qed.

Context (Hs : a'' <> s) (Hp : eta0 i0 e0 n0 ^ 2 <> 1).
Let x := xi i0 e0 n0.
Let h := eta0 i0 e0 n0.
Let p2 := psi2 i0 e0 n0.

(** sxpx_common_init with its intermediate values replaced. *)
Lemma common_eq : k_c1 ideal k = C1 bstar i0 e0 n0 q4_used
  /\ k_start ideal k = d /\ k_s4 ideal k = s /\ k_tsi ideal k = x /\ k_eta ideal k = h /\ k_coef ideal k = q4_used * x ^ 4
  /\ k_coef1 ideal k = q4_used * x ^ 4 / Rpower p2 (7 / 2) /\ k_sinio ideal k = sin i0
  /\ k_c4 ideal k = C4 i0 e0 w0 n0 q4_used
  /\ k_xmdot ideal k = (1 + 3 * K2 * (- 1 + 3 * cos i0 ^ 2) / (2 * a'' ^ 2 * beta0 e0 ^ 3)
        + 3 * K2 ^ 2 * (13 - 78 * cos i0 ^ 2 + 137 * cos i0 ^ 4) / (16 * a'' ^ 4 * beta0 e0 ^ 7)) * n''
  /\ k_omgdot ideal k = (- (3 * K2 * (1 - 5 * cos i0 ^ 2) / (2 * a'' ^ 2 * beta0 e0 ^ 4))
        + 3 * K2 ^ 2 * (7 - 114 * cos i0 ^ 2 + 395 * cos i0 ^ 4) / (16 * a'' ^ 4 * beta0 e0 ^ 8)
        + 5 * K4 * (3 - 36 * cos i0 ^ 2 + 49 * cos i0 ^ 4) / (4 * a'' ^ 4 * beta0 e0 ^ 8)) * n''
  /\ k_xnodot ideal k = (- (3 * K2 * cos i0 / (a'' ^ 2 * beta0 e0 ^ 4))
           + 3 * K2 ^ 2 * (4 * cos i0 - 19 * cos i0 ^ 3) / (2 * a'' ^ 4 * beta0 e0 ^ 8)
           + 5 * K4 * cos i0 * (3 - 7 * cos i0 ^ 2) / (2 * a'' ^ 4 * beta0 e0 ^ 8)) * n''
  /\ k_xnodcf ideal k = - (21 / 2 * (n'' * K2 * cos i0 / (a'' ^ 2 * beta0 e0 ^ 2)) * C1 bstar i0 e0 n0 q4_used)
  /\ k_t2cof ideal k = 3 / 2 * C1 bstar i0 e0 n0 q4_used.
Proof.
  assert (CK4 : ck4 ideal = K4) by (unfold ck4, xj4, ae, int, K4, J4; ic; lra).
  unfold k, sxpx_common_init, int. fold d. ic. rewrite aodp_eq, xnodp_eq, betao2_eq, betao_eq, cosio2_eq, cosio_eq, ck2_eq, CK4. fold e0 i0 w0 bstar.
  match goal with |- context [match ?P with pair _ _ => _ end] => assert (PE : P = (s, q4_used)) by exact pair_eq; rewrite PE; clear PE end.
  cbn [k_c1 k_start k_s4 k_tsi k_eta k_coef k_coef1 k_sinio k_c4 k_xmdot k_omgdot k_xnodot k_xnodcf k_t2cof].
  assert (X : 1 / 1 / (a'' - s) = x). { unfold x, xi. fold a'' s. field. lra. }
  rewrite X. assert (Hh : a'' * e0 * x = h) by reflexivity. rewrite Hh.
  assert (P2 : Rabs (1 / 1 - h * h) = p2). { unfold p2, psi2. fold h. f_equal. field. }
  rewrite P2. assert (P2nz : p2 <> 0). { unfold p2, psi2. fold h. apply Rabs_no_R0. fold h in Hp. lra. }
  rewrite !(Rcpow_pos p2) by (assert (0 <= p2) by apply Rabs_pos; lra).
  assert (P2p : Rpower p2 (35 / 10) = Rpower p2 (7 / 2)) by (f_equal; lra). rewrite P2p.
  assert (RP : 0 < Rpower p2 (7 / 2)) by apply exp_pos. set (rp := Rpower p2 (7 / 2)) in *.
  assert (B := beta_pos). set (b := beta0 e0) in *. set (c := cos i0) in *. set (q4 := q4_used) in *.
  assert (EC : bstar * (q4 * (x * x) * (x * x) / rp * n'' * (a'' * (1 / 1 + 15 / 10 * (h * h) + e0 * h * (4 / 1 + h * h))
     + 75 / 100 * K2 * x / p2 * (3 / 1 * c ^ 2 - 1 / 1) * (8 / 1 + 3 / 1 * (h * h) * (8 / 1 + h * h)))) = C1 bstar i0 e0 n0 q4).
  { unfold C1, C2. fold a'' n'' x h p2 rp c. field. split; lra. }
  split; [exact EC|]. rewrite EC. set (c1 := C1 bstar i0 e0 n0 q4).
  split; [reflexivity|]. split; [reflexivity|]. split; [reflexivity|]. split; [reflexivity|].
  split; [ring|]. split; [field; lra|]. split; [reflexivity|].
  split. { unfold C4. fold a'' n'' x h p2 rp c b. replace (2 / 1 * w0) with (2 * w0) by lra. field. repeat split; lra. }
  do 4 (split; [field; repeat split; lra|]).
  field.
Qed.

(** The elements at the date [t]. *)
Definition a_used t : R := if Rlt_dec (a_factor bstar i0 e0 n0 q4_used t) 0 then - mean_a bstar i0 e0 n0 q4_used t else mean_a bstar i0 e0 n0 q4_used t.
Definition e_used t : R := Rmax (mean_e bstar i0 e0 w0 M0 n0 q4_used t) (1 / 1000000).
Lemma SGP4_eq t :
  SGP4 ideal t o (SGP4_init ideal o)
  = Ok (sxpx_posn_vel ideal (mean_node bstar i0 node0 e0 n0 q4_used t) (a_used t) (e_used t) (cos i0) (sin i0) i0
          (mean_w bstar i0 e0 w0 M0 n0 q4_used t) (mean_L bstar i0 node0 e0 w0 M0 n0 q4_used t)).
Proof.
  destruct common_eq as (E1 & E2 & E3 & E4 & E5 & E6 & E7 & E8 & E9 & E10 & E11 & E12 & E13 & E14).
  unfold SGP4, SGP4_init. fold k. rewrite E1, E2, E3, E4, E6, E7, E8, E9, E10, E11, E12, E13, E14.
  cbn [p_c1 p_c4 p_xnodcf p_t2cof p_aodp p_cosio p_sinio p_omgdot p_xmdot p_xnodot p_xnodp p_c5 p_eta p_simple p_more].
  rewrite aodp_eq, xnodp_eq, betao2_eq, cosio_eq. fold bstar i0 node0 e0 w0 M0.
  assert (A1 : ae ideal = 1) by (unfold ae, int; ic; lra). rewrite A1.
  assert (B := beta_pos). assert (HX : a'' * e0 * x = h) by reflexivity.
  assert (P2nz : p2 <> 0). { unfold p2, psi2. fold h. apply Rabs_no_R0. fold h in Hp. lra. }
  assert (RP : 0 < Rpower p2 (7 / 2)) by apply exp_pos.
  unfold int. ic. rewrite !HX.
  assert (LOW : Rltb (a'' * (1 / 1 - e0) / 1) (220 / 1 / earth_radius_in_km ideal + 1) = low i0 e0 n0).
  { unfold low. fold a''. unfold Rltb. change (earth_radius_in_km ideal) with XKMPER.
    replace (a'' * (1 / 1 - e0) / 1) with (a'' * (1 - e0)) by field. replace (220 / 1 / XKMPER) with (220 / XKMPER) by (unfold XKMPER; field). reflexivity. }
  rewrite LOW.
  assert (MDF : M0 + (1 + 3 * K2 * (-1 + 3 * cos i0 ^ 2) / (2 * a'' ^ 2 * beta0 e0 ^ 3)
        + 3 * K2 ^ 2 * (13 - 78 * cos i0 ^ 2 + 137 * cos i0 ^ 4) / (16 * a'' ^ 4 * beta0 e0 ^ 7)) * n'' * t = M_DF i0 e0 M0 n0 t) by reflexivity.
  assert (WDF : w0 + (- (3 * K2 * (1 - 5 * cos i0 ^ 2) / (2 * a'' ^ 2 * beta0 e0 ^ 4))
        + 3 * K2 ^ 2 * (7 - 114 * cos i0 ^ 2 + 395 * cos i0 ^ 4) / (16 * a'' ^ 4 * beta0 e0 ^ 8)
        + 5 * K4 * (3 - 36 * cos i0 ^ 2 + 49 * cos i0 ^ 4) / (4 * a'' ^ 4 * beta0 e0 ^ 8)) * n'' * t = w_DF i0 e0 w0 n0 t) by reflexivity.
  rewrite MDF, WDF.
  set (cc1 := C1 bstar i0 e0 n0 q4_used).
  match goal with |- context [sxpx_posn_vel ideal ?nd _ _ _ _ _ _ _] =>
    assert (ND : nd = mean_node bstar i0 node0 e0 n0 q4_used t) by
      (unfold mean_node; fold a'' n'' cc1; unfold node_DF; fold a'' n''; ring) end.
  destruct (low i0 e0 n0) eqn:LO.
  - cbn [negb bind]. f_equal. unfold mean_w, mean_L, a_used, e_used, a_factor, mean_a, mean_e, a_factor, mean_M, mean_w. rewrite LO. rewrite ND.
    fold cc1 a''. set (c4 := C4 i0 e0 w0 n0 q4_used).
    f_equal; change (num ideal) with R.
    + replace (1 / 1 - cc1 * t) with (1 - cc1 * t) by lra. unfold Rltb.
      destruct (Rlt_dec (1 - cc1 * t) (0 / 1)); destruct (Rlt_dec (1 - cc1 * t) 0); try lra; ring.
    + unfold Rltb, Rmax. destruct (Rlt_dec _ _); destruct (Rle_dec _ _); lra.
    + fold n''. lra.
  - match goal with |- context [match ?P with pair _ _ => Some _ end] =>
      assert (PP : exists oc xc, P = (oc, xc) /\ forall q : R, oc * t + xc * (q - (1 + h * cos M0) ^ 3) =
        if Rlt_dec e0 (1 / 10000) then 0
        else bstar * C3 i0 e0 n0 q4_used * cos w0 * t + - (2 / 3 * q4_used * bstar * x ^ 4 / (e0 * h)) * (q - (1 + h * cos M0) ^ 3)) end.
    { unfold Rltb. destruct (Rlt_dec e0 (1 / 10000)); do 2 eexists; (split; [reflexivity|]); intros q; [field|].
      unfold C3, two_thirds, int. fold x n''. rewrite a3ovk2_eq. ic.
      assert (K := K2_pos). assert (e0 > 0) by lra.
      assert (h <> 0). { change (a'' * e0 * x <> 0). assert (x <> 0). { unfold x, xi. fold a'' s. unfold Rdiv. rewrite Rmult_1_l. apply Rinv_neq_0_compat. lra. }
        apply Rmult_integral_contrapositive_currified; [apply Rmult_integral_contrapositive_currified; lra | assumption]. }
      field. repeat split; lra. }
    destruct PP as (oc & xc & PP & PQ). rewrite PP. clear PP.
    cbn [negb bind r_d2 r_d3 r_d4 r_omgcof r_xmcof r_delmo r_sinmo r_t3cof r_t4cof r_t5cof]. f_equal. rewrite ND.
    set (dsum := d_sum bstar i0 e0 w0 M0 n0 q4_used t).
    match goal with |- context [M_DF i0 e0 M0 n0 t + ?s] => assert (DS : s = dsum) end.
    { unfold dsum, d_sum, d_w, d_M. fold h x. rewrite <- PQ. field. }
    rewrite DS. clear DS.
    unfold mean_w, mean_L, a_used, e_used, a_factor, mean_a, mean_e, a_factor, mean_M, mean_w. rewrite LO. fold dsum. fold cc1 a'' n''.
    assert (DD2 : 4 / 1 * a'' * x * (cc1 * cc1) = D2 bstar i0 e0 n0 q4_used) by (unfold D2; fold a'' x cc1; field).
    rewrite DD2. set (dd2 := D2 bstar i0 e0 n0 q4_used) in *.
    assert (DD3 : (17 / 1 * a'' + s) * (dd2 * x * cc1 / (3 / 1)) = D3 bstar i0 e0 n0 q4_used) by (rewrite <- DD2; unfold D3; fold a'' x cc1 s; field).
    assert (DD4 : 5 / 10 * (dd2 * x * cc1 / (3 / 1)) * a'' * x * (221 / 1 * a'' + 31 / 1 * s) * cc1 = D4 bstar i0 e0 n0 q4_used) by (rewrite <- DD2; unfold D4; fold a'' x cc1 s; field).
    rewrite DD3, DD4. set (dd3 := D3 bstar i0 e0 n0 q4_used) in *. set (dd4 := D4 bstar i0 e0 n0 q4_used) in *.
    assert (CC5 : 2 / 1 * (q4_used * x ^ 4 / Rpower p2 (7 / 2)) * a'' * beta0 e0 ^ 2 * (1 / 1 + 275 / 100 * (h * h + e0 * h) + e0 * h * (h * h)) = C5 i0 e0 n0 q4_used).
    { unfold C5. fold a'' x h p2. field. lra. }
    rewrite CC5. set (c5 := C5 i0 e0 n0 q4_used). set (c4 := C4 i0 e0 w0 n0 q4_used).
    f_equal; change (num ideal) with R.
    + replace (1 / 1 - cc1 * t - dd2 * (t * t) - dd3 * (t * t * t) - dd4 * (t * (t * t * t))) with (1 - cc1 * t - dd2 * t ^ 2 - dd3 * t ^ 3 - dd4 * t ^ 4) by field.
      unfold Rltb. destruct (Rlt_dec _ (0 / 1)); destruct (Rlt_dec _ 0); try lra; ring.
    + set (z := sin _ - sin M0). replace (e0 - (bstar * c4 * t + bstar * c5 * z)) with (e0 - bstar * c4 * t - bstar * c5 * z) by ring.
      set (y := e0 - bstar * c4 * t - bstar * c5 * z). clearbody y. clear. unfold Rltb, Rmax. destruct (Rlt_dec _ _); destruct (Rle_dec _ _); lra.
    + field.
Qed.
End Init.
