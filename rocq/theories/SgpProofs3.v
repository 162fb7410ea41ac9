(** SGP: elements at the date, the codes, and examples. *)
From Coq Require Import ZArith Reals Lra Psatz Lia Bool List.
From Verif Require Import CLib FloatModel ArithModel GeoLemmas OrbModel OrbSpec OrbProofs2 OrbProofs3 OrbProofs5 DeepProofs1 DeepProofs7 ThirdProofs1 Sgp8Model Sgp8Spec Sgp8Proofs1 Sgp8Proofs2 Sgp8Proofs5 SgpModel SgpSpec SgpProofs1 SgpProofs2.
Import ListNotations.
Open Scope R_scope.

Section Sgp.
Context (o : orb ideal) (nd ndd t : R).
Let i : R := o_xincl ideal o.
Let e0 : R := o_eo ideal o.
Let n0 : R := o_xno ideal o.
Let q := SGP_init ideal o.
Let a0 : R := s_ao ideal q.
Let n := n_s n0 nd ndd t.
Let a := a_s n0 a0 nd ndd t.
Let e := e_s e0 n0 a0 nd ndd t.
Let w := w_s i e0 (o_omegao ideal o) n0 a0 t.
Let node := node_s i (o_xnodeo ideal o) e0 n0 a0 t.
Let L := L_s i (o_xnodeo ideal o) e0 (o_omegao ideal o) (o_xmo ideal o) n0 a0 nd ndd t.
Let out := SGP ideal t o nd ndd q.

Lemma sgp_negative : n < 0 -> out = mk_place ideal (-2) (zero ideal) (zero ideal).
Proof.
  intros H. unfold out, SGP. cbv zeta. unfold e6a. ic.
  replace (o_xno ideal o + (nd * (2 / 1) + ndd * (3 / 1) * t) * t) with n by (unfold n, n_s, n0; field). unfold Rltb. destruct (Rlt_dec n (0 / 1)); [|lra]. destruct (Rlt_dec _ _); [lra|]. reflexivity.
Qed.
Lemma sgp_shape : 0 < n0 -> 0 <= e0 < 1 -> 0 < a0 -> 0 < n -> 1 + cos i <> 0 ->
  out = let '(pos, vel) := place_sgp ideal i q a e node w (FMod2p ideal L) in mk_place ideal (if Rlt_dec (a * (1 - / 10 ^ 6)) 1 then -4 else 0)%Z pos vel.
Proof.
  intros Hn He Ha Hnt Hi. destruct (init_values o ltac:(fold q a0; lra) He Hi) as (V1 & V2 & _ & _ & _ & _ & V3 & V4 & _ & _). fold q a0 e0 i n0 in V1, V2, V3, V4.
  unfold out, SGP. cbv zeta. unfold e6a. ic.
  replace (o_xno ideal o + (nd * (2 / 1) + ndd * (3 / 1) * t) * t) with n by (unfold n, n_s, n0; field).
  assert (T1 : Rltb n (0 / 1) = false) by (unfold Rltb; destruct (Rlt_dec _ _); [lra|reflexivity]). assert (T2 : Rltb (1 / 1 - 1 / 1000000) (1 / 1000000) = false) by (unfold Rltb; destruct (Rlt_dec _ _); [lra|reflexivity]). rewrite T1, T2. cbn [negb Z.eqb].
  change (o_xno ideal o) with n0. fold a0. rewrite tt_is.
  assert (PA : Rcpow (n0 / n) (2 / 3) = Rpower (n0 / n) (2 / 3)) by (apply Rcpow_pos; apply Rdiv_lt_0_compat; assumption).
  change (c_pow ideal (n0 / n) (2 / 3)) with (Rcpow (n0 / n) (2 / 3)). rewrite PA. change (a0 * Rpower (n0 / n) (2 / 3)) with a. assert (A : 0 < a) by (unfold a, a_s; apply Rmult_lt_0_compat; [exact Ha|apply exp_pos]).
  rewrite V1, V2, V3, V4. fold i. change (o_xnodeo ideal o + node_rate i e0 n0 a0 * t) with node. change (o_omegao ideal o + w_rate i e0 n0 a0 * t) with w.
  replace (if Rltb (q_0 e0 a0) a then 1 / 1 - q_0 e0 a0 / a else 1 / 1000000) with e by (unfold e, e_s, Rltb; fold a; destruct (Rlt_dec (q_0 e0 a0) a); lra).
  match goal with |- context [FMod2p ideal ?v] => replace v with L by (unfold L, L_s; ring) end.
  destruct (place_sgp ideal i q a e node w (FMod2p ideal L)) as [pos vel]. f_equal. unfold Rltb. repeat match goal with |- context [Rlt_dec ?u ?v] => destruct (Rlt_dec u v) end; cbn [Datatypes.orb andb]; try reflexivity; exfalso; nra.
Qed.
Theorem sgp_ok : 0 < n0 -> 0 <= e0 < 1 -> 0 < a0 -> 0 < n -> 1 + cos i <> 0 -> axN e w ^ 2 + ayS a e i w ^ 2 < 1 ->
  exists U E k, 0 <= U < 2 * PI /\ U = LS a e i w L - node + 2 * PI * IZR k /\ solved a e i w U E /\ placed_s node a e i w E (vec_of (pl_pos ideal out)) (vec_of (pl_vel ideal out)).
Proof.
  intros Hn He Ha Hnt Hi Hl. assert (A : 0 < a) by (unfold a, a_s; apply Rmult_lt_0_compat; [exact Ha|apply exp_pos]).
  assert (E2 : e ^ 2 <> 1). { unfold e, e_s. fold a. destruct (Rlt_dec (q_0 e0 a0) a) as [Q|Q]; [|lra]. assert (Q0 : 0 < q_0 e0 a0) by (unfold q_0; apply Rmult_lt_0_compat; lra). assert (0 < q_0 e0 a0 / a) by (apply Rdiv_lt_0_compat; lra). assert (q_0 e0 a0 / a < 1) by (apply (Rmult_lt_reg_r a); [lra|]; unfold Rdiv; rewrite Rmult_assoc, Rinv_l, Rmult_1_r, Rmult_1_l by lra; exact Q). nra. }
  destruct (FMod2p_ok L) as [_ [k1 K1]]. rewrite (sgp_shape Hn He Ha Hnt Hi).
  destruct (sgp_place_ok o a e node w (FMod2p ideal L) ltac:(fold q a0; lra) He Hi A E2 Hl) as (U & E & k & UR & UE & SE & PE). fold i q in UE, SE, PE.
  destruct (place_sgp ideal i q a e node w (FMod2p ideal L)) as [pos vel]. exists U, E, (k + k1)%Z. split; [exact UR|]. split; [rewrite UE, K1, plus_IZR; unfold LS; ring|]. split; [exact SE|exact PE].
Qed.
End Sgp.

(** The codes, in any arithmetic and in binary64. *)
Lemma sgp_codes A t o nd ndd q : In (pl_code A (SGP A t o nd ndd q)) [0; -1; -2; -4]%Z.
Proof.
  unfold SGP. cbv zeta.
  repeat match goal with
  | |- context [if ?b then -1 else _] => destruct b
  | |- context [if ?b then -2 else _] => destruct b
  end; cbn [negb Z.eqb pl_code]; try (cbn; tauto);
  destruct (place_sgp _ _ _ _ _ _ _ _); cbn [pl_code]; repeat match goal with |- context [ltn ?B ?x ?y] => destruct (ltn B x y) end; cbn; tauto.
Qed.
Lemma parabola_const m : ltn (machine m) (sub (machine m) (int (machine m) 1) (cst (machine m) 1 1000000)) (e6a (machine m)) = false.
Proof. vm_compute. reflexivity. Qed.
Lemma sgp_never_1 m t o nd ndd q : pl_code (machine m) (SGP (machine m) t o nd ndd q) <> (-1)%Z.
Proof.
  unfold SGP. cbv zeta. rewrite parabola_const.
  destruct (ltn _ _ (int _ 0)); cbn [negb Z.eqb pl_code]; [discriminate|].
  destruct (place_sgp _ _ _ _ _ _ _ _); cbn [pl_code]; repeat match goal with |- context [ltn ?B ?x ?y] => destruct (ltn B x y) end; discriminate.
Qed.

(** ** An orbit with perigee in the Earth *)
Definition o_deep : orb ideal := mk_orb ideal 0 (PI / 2) 0 (4 / 5) 0 0 (KE / 8) 48.
Lemma deep_axis : 3 < s_ao ideal (SGP_init ideal o_deep) < 9 / 2.
Proof.
  assert (N := axis_near o_deep). cbn [o_xno o_eo o_xincl o_deep] in N. assert (K : 0 < KE) by (unfold KE; lra). specialize (N ltac:(lra) ltac:(lra)). cbv zeta in N.
  assert (A1 : a_1 (KE / 8) = 4). { unfold a_1. replace (KE / (KE / 8)) with (2 ^ 3) by (field; lra). rewrite <- Rpower_pow by lra. rewrite Rpower_mult. replace (INR 3 * (2 / 3)) with (INR 2) by (cbn; lra). rewrite Rpower_pow by lra. lra. }
  assert (B : beta0 (4 / 5) = 3 / 5). { unfold beta0. replace (1 - (4 / 5) ^ 2) with (3 / 5 * (3 / 5)) by lra. apply sqrt_square. lra. }
  assert (D : delta_of (PI / 2) (4 / 5) 4 = - (3 / 2 * (K2 / 16) / (27 / 125))) by (unfold delta_of; rewrite B, cos_PI2; field). rewrite A1 in N.
  unfold a_0 in N. rewrite A1 in N. cbv zeta in N. rewrite D in N. set (d := 3 / 2 * (K2 / 16) / (27 / 125)) in *. assert (D1 : 0 < d < 1 / 1000) by (unfold d, K2, J2; lra). clearbody d. rewrite Rabs_Ropp, (Rabs_right d) in N by lra.
  apply Rabs_inv in N. change (s_ao ideal (SGP_init ideal _)) with (s_ao ideal (SGP_init ideal o_deep)) in N. set (s := s_ao ideal (SGP_init ideal o_deep)) in *. clearbody s. assert (0 < d ^ 2 < 1 / 1000) by nra. assert (0 < d ^ 3 < 1 / 1000) by (replace (d ^ 3) with (d * d ^ 2) by ring; nra).
  replace ((- d) ^ 2) with (d ^ 2) in N by ring. replace ((- d) ^ 3) with (- d ^ 3) in N by ring. split; nra.
Qed.
Lemma perigee_in_earth : exists o nd ndd t, let q := SGP_init ideal o in let a := a_s (o_xno ideal o) (s_ao ideal q) nd ndd t in let e := e_s (o_eo ideal o) (o_xno ideal o) (s_ao ideal q) nd ndd t in
  0 < a /\ 0 < e < 1 /\ a * (1 - e) < 1 /\ pl_code ideal (SGP ideal t o nd ndd q) = 0%Z.
Proof.
  exists o_deep, 0, 0, 0. cbv zeta. assert (A := deep_axis). assert (SH := sgp_shape o_deep 0 0 0). set (s := s_ao ideal (SGP_init ideal o_deep)) in *. cbn [o_xno o_eo o_xincl o_xnodeo o_omegao o_xmo o_deep] in *.
  assert (K : 0 < KE) by (unfold KE; lra). assert (N : n_s (KE / 8) 0 0 0 = KE / 8) by (unfold n_s; ring). rewrite cos_PI2 in SH. rewrite N in SH. specialize (SH ltac:(lra) ltac:(lra) ltac:(lra) ltac:(lra) ltac:(lra)).
  assert (AS : a_s (KE / 8) s 0 0 0 = s). { unfold a_s. rewrite N. replace (KE / 8 / (KE / 8)) with 1 by (field; lra). unfold Rpower. rewrite ln_1, Rmult_0_r, exp_0. ring. }
  assert (ES : e_s (4 / 5) (KE / 8) s 0 0 0 = 4 / 5). { unfold e_s. rewrite AS. unfold q_0. clear - A. clearbody s. change (num ideal) with R in *. destruct (Rlt_dec _ _); [field; lra|lra]. }
  rewrite AS, ES in *. split; [lra|]. split; [lra|]. split; [lra|]. rewrite SH. destruct (place_sgp _ _ _ _ _ _ _ _). cbn [pl_code]. destruct (Rlt_dec _ _); [lra|reflexivity].
Qed.
(** The same orbit one minute later, under a deceleration that leaves 10^-12 of the mean motion. *)
Lemma parabola_reached : exists o nd ndd t, let q := SGP_init ideal o in let e := e_s (o_eo ideal o) (o_xno ideal o) (s_ao ideal q) nd ndd t in
  0 < n_s (o_xno ideal o) nd ndd t /\ 1 - / 10 ^ 6 < e < 1 /\ pl_code ideal (SGP ideal t o nd ndd q) = 0%Z.
Proof.
  set (nd := - (KE / 16 * (1 - / 10 ^ 12))). exists o_deep, nd, 0, 1. cbv zeta. assert (A := deep_axis). assert (SH := sgp_shape o_deep nd 0 1). set (s := s_ao ideal (SGP_init ideal o_deep)) in *. cbn [o_xno o_eo o_xincl o_xnodeo o_omegao o_xmo o_deep] in *.
  assert (K : 0 < KE) by (unfold KE; lra). assert (N : n_s (KE / 8) nd 0 1 = KE / 8 / 10 ^ 12) by (unfold n_s, nd; field). rewrite cos_PI2 in SH. rewrite N in *. assert (N0 : 0 < KE / 8 / 10 ^ 12) by lra. specialize (SH ltac:(lra) ltac:(lra) ltac:(lra) N0 ltac:(lra)).
  assert (AS : a_s (KE / 8) s nd 0 1 = s * 10 ^ 8).
  { unfold a_s. rewrite N. replace (KE / 8 / (KE / 8 / 10 ^ 12)) with (10 ^ 12) by (field; lra). rewrite <- Rpower_pow by lra. rewrite Rpower_mult. replace (INR 12 * (2 / 3)) with (INR 8) by (cbn; lra). rewrite Rpower_pow by lra. reflexivity. }
  assert (ES : e_s (4 / 5) (KE / 8) s nd 0 1 = 1 - (1 / 5) / 10 ^ 8). { unfold e_s. rewrite AS. unfold q_0. clear - A. clearbody s. change (num ideal) with R in *. destruct (Rlt_dec _ _); [field; lra|lra]. }
  rewrite AS, ES in *. split; [lra|]. split; [lra|]. rewrite SH. destruct (place_sgp _ _ _ _ _ _ _ _). cbn [pl_code]. destruct (Rlt_dec _ _); [lra|reflexivity].
Qed.
(** The hypotheses of [sgp_ok] for that orbit at the epoch. *)
Lemma deep_hyps : let o := o_deep in let a0 := s_ao ideal (SGP_init ideal o) in let i := o_xincl ideal o in let e0 := o_eo ideal o in let n0 := o_xno ideal o in
  let a := a_s n0 a0 0 0 0 in let e := e_s e0 n0 a0 0 0 0 in let w := w_s i e0 (o_omegao ideal o) n0 a0 0 in
  0 < n0 /\ 0 <= e0 < 1 /\ 0 < a0 /\ 0 < n_s n0 0 0 0 /\ 1 + cos i <> 0 /\ axN e w ^ 2 + ayS a e i w ^ 2 < 1.
Proof.
  cbv zeta. assert (A := deep_axis). set (s := s_ao ideal (SGP_init ideal o_deep)) in *. cbn [o_xno o_eo o_xincl o_xnodeo o_omegao o_xmo o_deep].
  assert (K : 0 < KE) by (unfold KE; lra). assert (N : n_s (KE / 8) 0 0 0 = KE / 8) by (unfold n_s; ring).
  assert (AS : a_s (KE / 8) s 0 0 0 = s). { unfold a_s. rewrite N. replace (KE / 8 / (KE / 8)) with 1 by (field; lra). unfold Rpower. rewrite ln_1, Rmult_0_r, exp_0. ring. }
  assert (ES : e_s (4 / 5) (KE / 8) s 0 0 0 = 4 / 5). { unfold e_s. rewrite AS. unfold q_0. clear - A. clearbody s. change (num ideal) with R in *. destruct (Rlt_dec _ _); [field; lra|lra]. }
  assert (WS : w_s (PI / 2) (4 / 5) 0 (KE / 8) s 0 = 0) by (unfold w_s; ring). rewrite AS, ES, N, WS. rewrite cos_PI2. clearbody s. change (num ideal) with R in *.
  repeat split; try lra. unfold axN, ayS. rewrite cos_0, sin_0, sin_PI2.
  assert (Q : 0 < / (s * (1 - (4 / 5) ^ 2)) < 1). { split; [apply Rinv_0_lt_compat; lra|]. rewrite <- Rinv_1. apply Rinv_lt_contravar; lra. }
  set (p := s * (1 - (4 / 5) ^ 2)) in *. assert (JJ : -1 < J3 / J2 < 0) by (unfold J3, J2; lra). set (j := J3 / J2) in *. clearbody j p.
  replace (4 / 5 * 0 - 1 / 2 * j / p * 1) with (- (1 / 2 * (j * / p))) by (unfold Rdiv; ring). set (z := / p) in *. clearbody z.
  assert (Z1 : 0 <= - (j * z)) by nra. assert (Z2 : - (j * z) <= 1) by nra. set (y := j * z) in *. clearbody y. assert (y * y <= 1) by nra. replace ((4 / 5 * 1) ^ 2 + (- (1 / 2 * y)) ^ 2) with (16 / 25 + 1 / 4 * (y * y)) by field. lra.
Qed.
Lemma deep_negative : SGP ideal 1 o_deep (- KE) 0 (SGP_init ideal o_deep) = mk_place ideal (-2) (zero ideal) (zero ideal).
Proof. apply sgp_negative. unfold n_s. cbn [o_xno o_deep]. assert (0 < KE) by (unfold KE; lra). lra. Qed.
