(** SGP: initialisation, position and velocity, codes. *)
From Coq Require Import ZArith Reals Lra Psatz Lia Bool List.
From Verif Require Import CLib ArithModel GeoLemmas OrbModel OrbSpec OrbProofs2 OrbProofs3 OrbProofs5 DeepProofs1 DeepProofs7 ThirdProofs1 Sgp8Model Sgp8Spec Sgp8Proofs1 Sgp8Proofs2 Sgp8Proofs5 SgpModel SgpSpec SgpProofs1.
Open Scope R_scope.

Lemma j2_pos : 0 < J2. Proof. unfold J2. lra. Qed.
Lemma xj3_is : xj3 ideal = J3. Proof. unfold xj3, J3. ic. lra. Qed.
Section Init.
Context (o : orb ideal).
Let i : R := o_xincl ideal o.
Let e0 : R := o_eo ideal o.
Let n0 : R := o_xno ideal o.
Let q := SGP_init ideal o.
Let a : R := s_ao ideal q.
Lemma init_values : a <> 0 -> 0 <= e0 < 1 -> 1 + cos i <> 0 ->
  s_qo ideal q = q_0 e0 a /\ s_xlo ideal q = o_xmo ideal o + o_omegao ideal o + o_xnodeo ideal o /\
  s_d1o ideal q = 1 / 4 * J2 * sin i ^ 2 /\ s_d2o ideal q = 1 / 8 * J2 * (7 * cos i ^ 2 - 1) /\ s_d3o ideal q = 3 / 4 * J2 * cos i /\ s_d4o ideal q = 3 / 4 * J2 * cos i * sin i /\
  s_omgdt ideal q = w_rate i e0 n0 a /\ s_xnodot ideal q = node_rate i e0 n0 a /\
  s_c5 ideal q = 1 / 4 * (J3 / J2) * sin i * ((3 + 5 * cos i) / (1 + cos i)) /\ s_c6 ideal q = 1 / 2 * (J3 / J2) * sin i.
Proof.
  intros Ha He Hi. assert (J := j2_pos). assert (E2 : 1 - e0 ^ 2 <> 0) by nra. assert (E3 : 1 - e0 * e0 <> 0) by nra. assert (P : a * (1 - e0 * e0) <> 0) by (apply Rmult_integral_contrapositive; split; assumption).
  unfold w_rate, node_rate, q_0, p_0. 
  assert (Q : q = SGP_init ideal o) by reflexivity. revert Q. unfold SGP_init. cbv zeta. set (a' := mul ideal (c_pow _ _ _) _). intros Q. assert (A : a = a') by (unfold a; rewrite Q; reflexivity).
  rewrite Q. cbn [s_qo s_xlo s_d1o s_d2o s_d3o s_d4o s_omgdt s_xnodot s_c5 s_c6]. rewrite <- A. clear Q A a'. rewrite k2_is, xj3_is. unfold ae. ic. fold i e0 n0. unfold K2.
  set (s := sin i). set (c := cos i) in *. clearbody s c a. repeat split; try (field; repeat split; lra); field; repeat split; try lra; try assumption.
Qed.
(** The semi-major axis: the constants 1/3 and 134/81 are rounded in the source. *)
Lemma axis_near : 0 < n0 -> 0 <= e0 < 1 -> let d := delta_of i e0 (a_1 n0) in
  Rabs (a - a_0 i e0 n0) <= a_1 n0 * (Rabs d + Rabs d ^ 3) / 10 ^ 16.
Proof.
  intros Hn He d. assert (A1 : 0 < a_1 n0) by apply exp_pos.
  assert (B2 : 0 < 1 - e0 * e0) by nra. assert (B : 0 < beta0 e0) by (unfold beta0; apply sqrt_lt_R0; nra). assert (BB : beta0 e0 * beta0 e0 = 1 - e0 * e0) by (unfold beta0; replace (e0 ^ 2) with (e0 * e0) by ring; apply sqrt_sqrt; lra).
  assert (P3 : Rpower (1 - e0 * e0) (15 / 10) = beta0 e0 ^ 3).
  { replace (15 / 10) with (1 + / 2) by lra. rewrite Rpower_plus, Rpower_1 by lra. rewrite Rpower_sqrt by lra. replace (sqrt (1 - e0 * e0)) with (beta0 e0) by (unfold beta0; f_equal; ring). rewrite <- BB. ring. }
  assert (E : a = a_1 n0 * (1 - d * (33333333333333331 / 100000000000000000) - d * d - d * (1654320987654321 / 1000000000000000) * d * d)).
  { unfold a, q, SGP_init. cbv zeta. cbn [s_ao]. rewrite k2_is, tt_is. change (o_xno ideal o) with n0. change (o_eo ideal o) with e0. change (o_xincl ideal o) with i. ic.
    rewrite xke_is, (Rcpow_pos (KE / n0)) by (apply Rdiv_lt_0_compat; [unfold KE; lra|exact Hn]). replace (1 / 1 - e0 * e0) with (1 - e0 * e0) by lra. rewrite (Rcpow_pos (1 - e0 * e0)) by lra. rewrite P3. fold (a_1 n0).
    assert (X : K2 * (15 / 10) / a_1 n0 / a_1 n0 * (cos i * (3 / 1) * cos i - 1 / 1) / beta0 e0 ^ 3 = d) by (unfold d, delta_of; field; lra). rewrite X. lra. }
  rewrite E. unfold a_0. cbv zeta. fold d.
  match goal with |- Rabs ?v <= _ => replace v with (a_1 n0 * (d * (1 / 3 - 33333333333333331 / 100000000000000000) + d ^ 3 * (134 / 81 - 1654320987654321 / 1000000000000000))) by (field) end.
  rewrite Rabs_mult, (Rabs_right (a_1 n0)) by lra. replace (a_1 n0 * (Rabs d + Rabs d ^ 3) / 10 ^ 16) with (a_1 n0 * ((Rabs d + Rabs d ^ 3) * / 10 ^ 16)) by (unfold Rdiv; ring). apply Rmult_le_compat_l; [lra|].
  eapply Rle_trans; [apply Rabs_triang|]. rewrite !Rabs_mult, <- RPow_abs. assert (0 <= Rabs d) by apply Rabs_pos. assert (0 <= Rabs d ^ 3) by (apply pow_le; lra).
  replace (Rabs (1 / 3 - 33333333333333331 / 100000000000000000)) with (1 / 3 - 33333333333333331 / 100000000000000000) by (rewrite Rabs_right; lra).
  assert (W : Rabs (134 / 81 - 1654320987654321 / 1000000000000000) <= / 10 ^ 16) by (apply Rabs_le; split; lra). set (z := Rabs d ^ 3) in *. clearbody z. nra.
Qed.
End Init.

Section Place.
Context (o : orb ideal) (a e node w L : R).
Let i : R := o_xincl ideal o.
Let q := SGP_init ideal o.
Context (Hq : s_ao ideal q <> 0) (He0 : 0 <= o_eo ideal o < 1) (Hi : 1 + cos i <> 0) (Ha : 0 < a) (He : e ^ 2 <> 1) (Hl : axN e w ^ 2 + ayS a e i w ^ 2 < 1).
Let x := axN e w.
Let y := ayS a e i w.
Lemma sgp_place_ok : exists U E k, 0 <= U < 2 * PI /\ U = LS a e i w L - node + 2 * PI * IZR k /\ solved a e i w U E /\
  let '(pos, vel) := place_sgp ideal i q a e node w L in placed_s node a e i w E (vec_of pos) (vec_of vel).
Proof.
  assert (J := j2_pos). destruct (init_values o Hq He0 Hi) as (_ & _ & V1 & V2 & V3 & V4 & _ & _ & V5 & V6). fold i q in V1, V2, V3, V4, V5, V6.
  destruct (FMod2p_ok (LS a e i w L)) as [_ [k1 K1]]. set (X := FMod2p ideal (LS a e i w L)) in *. destruct (FMod2p_ok (X - node)) as [UR [k2 K2']]. set (U := FMod2p ideal (X - node)) in *.
  destruct (kepler_sgp_ok a e i w U 10 0 1 eq_refl eq_refl) as (E & KE' & SE). change (Nat.iter 0 (improve a e i w U) U) with U in KE'. fold x y in KE'.
  exists U, E, (k1 + k2)%Z. split; [exact UR|]. split; [rewrite K2', K1, plus_IZR; ring|]. split; [exact SE|].
  assert (EL : x * x + y * y < 1) by (unfold x, y; nra). assert (P0 : a * (1 - e ^ 2) <> 0) by (apply Rmult_integral_contrapositive; split; lra).
  assert (CR := conic_r a x y E Ha EL). assert (CA := conic_angle a x y E Ha EL). assert (CP := conic_point a x y E Ha EL). cbv zeta in CR, CA, CP.
  set (b := sqrt (1 - (x * x + y * y))) in *. assert (B : 0 < b) by (apply sqrt_lt_R0; lra). set (ec := x * cos E + y * sin E) in *. set (es := x * sin E - y * cos E) in *. set (r := a * (1 - ec)) in *.
  set (su := a / r * (sin E - y - x * (es / (1 + b)))) in *. set (cu := a / r * (cos E - x + y * (es / (1 + b)))) in *. set (u := Ratan2 su cu) in *. destruct CA as [CU SU].
  set (p := pS a e i w). assert (Pp : p = a * (1 - (x * x + y * y))) by (unfold p, pS; fold x y; ring). assert (PP : 0 < p) by (rewrite Pp; nra).
  set (node' := node + 3 / 4 * J2 / p ^ 2 * cos i * sin (2 * u)). set (i' := i + 3 / 4 * J2 / p ^ 2 * sin i * cos i * cos (2 * u)).
  set (u' := u - 1 / 8 * J2 / p ^ 2 * (7 * cos i ^ 2 - 1) * sin (2 * u)). set (r' := r + 1 / 4 * J2 / p * sin i ^ 2 * cos (2 * u)).
  set (rd := KE * sqrt a / r * es). set (rf := KE * sqrt p / r).
  assert (Q : place_sgp ideal i q a e node w L =
    let ux := - sin node' * cos i' * sin u' + cos node' * cos u' in let uy := cos node' * cos i' * sin u' + sin node' * cos u' in let uz := sin i' * sin u' in
    let vx := - sin node' * cos i' * cos u' - cos node' * sin u' in let vy := cos node' * cos i' * cos u' - sin node' * sin u' in let vz := sin i' * cos u' in
    ((r' * ux * XKMPER, r' * uy * XKMPER, r' * uz * XKMPER), ((rd * ux + rf * vx) * XKMPER, (rd * uy + rf * vy) * XKMPER, (rd * uz + rf * vz) * XKMPER))).
  { cbv delta [place_sgp int]; cbv beta. change (num ideal) with R in *.
    step (a * (1 - e ^ 2)) ltac:(ic; field).
    step x reflexivity.
    step y ltac:(unfold y, ayS; ic; rewrite V6; field; split; lra).
    step (LS a e i w L) ltac:(unfold LS; ic; rewrite V5; fold x; unfold x, axN; field; repeat split; lra).
    step X reflexivity. step (X - node) reflexivity. step U reflexivity. replace (cst ideal 1 1) with 1 by (ic; lra).
    rewrite KE'. cbv beta iota.
    step ec reflexivity. step es reflexivity. step (x * x + y * y) reflexivity. step p ltac:(rewrite Pp; ic; field). step (p ^ 2) ltac:(ic; ring).
    step r ltac:(unfold r; ic; field). step rd ltac:(unfold rd; rewrite xke_is; reflexivity). step rf ltac:(unfold rf; rewrite xke_is; reflexivity).
    step (es / (1 + b)) ltac:(ic; unfold b; f_equal; replace (1 / 1) with 1 by lra; ring).
    step su reflexivity. step cu reflexivity. step u reflexivity.
    step (sin (2 * u)) ltac:(rewrite sin_2a, CU, SU; ic; ring).
    step (cos (2 * u)) ltac:(rewrite cos_2a_sin, SU; ic; field).
    step r' ltac:(unfold r'; ic; rewrite V1; field; lra).
    step u' ltac:(unfold u'; ic; rewrite V2; field; lra).
    step node' ltac:(unfold node'; ic; rewrite V3; field; lra).
    step i' ltac:(unfold i'; ic; rewrite V4; field; lra).
    replace (earth_radius_in_km ideal) with XKMPER by (unfold earth_radius_in_km, XKMPER; ic; lra). reflexivity. }
  rewrite Q. cbv zeta. exists r, u. split; [reflexivity|]. fold x y. split.
  { intros el wl L0 LX LY. destruct (CP el wl L0 LX LY) as [C1 C2]. rewrite cos_minus, sin_minus, CU, SU. split; assumption. }
  cbv zeta. fold p node' i' u' r' es. fold rd rf. unfold radial, transverse, turn, tilt, scale, plus, vec_of. cbn [c_x c_y c_z fst snd]. split; f_equal; ring.
Qed.
End Place.
