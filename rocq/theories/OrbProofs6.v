(** The whole near-Earth propagation: rotation of the node, whole turns, composition of the stages. *)
From Coq Require Import ZArith Reals Lra Lia Bool List.
From Verif Require Import CLib ArithModel GeoLemmas OrbModel OrbSpec OrbTerms OrbProofs1 OrbProofs2 OrbProofs3 OrbProofs4 OrbProofs5.
Import ListNotations.
Open Scope R_scope.

Ltac ic := cbn [add sub mul div opp ltn len cst c_sin c_cos c_sqrt c_fabs c_pow ideal num]; change (num ideal) with R in *.

Lemma okay (p q : place ideal) : p = q -> Ok p = Ok q.
Proof. intros ->; reflexivity. Qed.
Ltac turn_l k :=
  match goal with |- sxpx_posn_vel ideal _ _ _ _ _ _ _ ?x = sxpx_posn_vel ideal _ _ _ _ _ _ _ ?y =>
    replace x with (y + 2 * PI * IZR k) by ring; apply posn_turn_L end.

Lemma node_turned t o th : related (turned th) (propagate t o)
  (propagate t (with_angles o (o_xincl ideal o) (o_xnodeo ideal o + th) (o_omegao ideal o) (o_xmo ideal o))).
Proof.
  unfold propagate.
  replace (SGP4_init ideal (with_angles o (o_xincl ideal o) (o_xnodeo ideal o + th) (o_omegao ideal o) (o_xmo ideal o))) with (SGP4_init ideal o) by reflexivity.
  set (p := SGP4_init ideal o). unfold SGP4, with_angles, int. cbn [o_bstar o_xincl o_xnodeo o_eo o_omegao o_xmo o_xno o_type]. ic.
  set (step := if negb (p_simple ideal p) then _ else _). destruct step as [[[[[xmp om] ta] te] tl]|r]; cbn [bind related]; [|reflexivity].
  set (nd := o_xnodeo ideal o + p_xnodot ideal p * t + p_xnodcf ideal p * (t * t)).
  replace (o_xnodeo ideal o + th + p_xnodot ideal p * t + p_xnodcf ideal p * (t * t)) with (nd + th) by (unfold nd; ring).
  replace (xmp + om + (nd + th) + p_xnodp ideal p * tl) with (xmp + om + nd + p_xnodp ideal p * tl + th) by ring.
  apply posn_turned.
Qed.

Lemma turn_2pi k v : turn (2 * PI * IZR k) v = v.
Proof. unfold turn. rewrite <- (Rplus_0_l (2 * PI * IZR k)), cos_turns, sin_turns, cos_0, sin_0. destruct v; cbn. f_equal; ring. Qed.
Lemma vec_inj p q : vec_of p = vec_of q -> p = q.
Proof. destruct p as [[a b] c], q as [[d e] f]. unfold vec_of. cbn. intros H. injection H; intros; subst; reflexivity. Qed.

Lemma node_2pi t o k : propagate t (with_angles o (o_xincl ideal o) (o_xnodeo ideal o + 2 * PI * IZR k) (o_omegao ideal o) (o_xmo ideal o)) = propagate t o.
Proof.
  assert (H := node_turned t o (2 * PI * IZR k)). destruct (propagate t o) as [p|r]; destruct (propagate t _) as [q|s]; cbn in H; try contradiction; [|congruence].
  destruct H as (H1 & H2 & H3). rewrite turn_2pi in H2, H3. apply vec_inj in H2, H3. destruct p, q; cbn in *. congruence.
Qed.

Lemma incl_2pi t o k : propagate t (with_angles o (o_xincl ideal o + 2 * PI * IZR k) (o_xnodeo ideal o) (o_omegao ideal o) (o_xmo ideal o)) = propagate t o.
Proof.
  unfold propagate. set (o' := with_angles _ _ _ _ _).
  assert (D : sxpall_common_init ideal o' = sxpall_common_init ideal o).
  { unfold sxpall_common_init, o', with_angles. cbn [o_xincl o_eo o_xno]. ic. rewrite cos_turns. reflexivity. }
  assert (K : sxpx_common_init ideal o' = sxpx_common_init ideal o).
  { unfold sxpx_common_init. rewrite D. unfold o', with_angles. cbn [o_bstar o_xincl o_eo o_omegao o_xno]. ic. rewrite sin_turns. reflexivity. }
  assert (P : SGP4_init ideal o' = SGP4_init ideal o).
  { unfold SGP4_init. rewrite K. reflexivity. }
  rewrite P. set (p := SGP4_init ideal o). unfold SGP4, o', with_angles. cbn [o_bstar o_xincl o_xnodeo o_eo o_omegao o_xmo o_xno o_type].
  set (step := if negb (p_simple ideal p) then _ else _). destruct step as [[[[[xmp om] ta] te] tl]|r]; cbn [bind]; [|reflexivity].
  apply okay. apply posn_turn_i.
Qed.

Lemma peri_2pi t o k : propagate t (with_angles o (o_xincl ideal o) (o_xnodeo ideal o) (o_omegao ideal o + 2 * PI * IZR k) (o_xmo ideal o)) = propagate t o.
Proof.
  unfold propagate. set (o' := with_angles _ _ _ _ _).
  assert (K : sxpx_common_init ideal o' = sxpx_common_init ideal o).
  { unfold sxpx_common_init. replace (sxpall_common_init ideal o') with (sxpall_common_init ideal o) by reflexivity.
    unfold o', with_angles, int. cbn [o_bstar o_xincl o_eo o_omegao o_xno]. ic.
    replace (2 / 1 * (o_omegao ideal o + 2 * PI * IZR k)) with (2 / 1 * o_omegao ideal o + 2 * PI * IZR (2 * k)) by (rewrite mult_IZR; field).
    rewrite cos_turns. reflexivity. }
  assert (P : SGP4_init ideal o' = SGP4_init ideal o).
  { unfold SGP4_init. rewrite K. unfold o', with_angles. cbn [o_bstar o_xincl o_xnodeo o_eo o_omegao o_xmo o_xno o_type]. ic. rewrite cos_turns. reflexivity. }
  rewrite P. set (p := SGP4_init ideal o). unfold SGP4, o', with_angles, int. cbn [o_bstar o_xincl o_xnodeo o_eo o_omegao o_xmo o_xno o_type]. ic.
  destruct (p_simple ideal p); cbn [negb bind].
  - apply okay.
    replace (o_omegao ideal o + 2 * PI * IZR k + p_omgdot ideal p * t) with (o_omegao ideal o + p_omgdot ideal p * t + 2 * PI * IZR k) by ring.
    rewrite posn_turn_w. turn_l k.
  - destruct (p_more ideal p) as [m|]; [|reflexivity]. cbn [bind]. apply okay.
    set (dd := r_omgcof ideal m * t + _).
    replace (o_omegao ideal o + 2 * PI * IZR k + p_omgdot ideal p * t - dd) with (o_omegao ideal o + p_omgdot ideal p * t - dd + 2 * PI * IZR k) by ring.
    rewrite posn_turn_w. turn_l k.
Qed.

Lemma anom_2pi t o k : propagate t (with_angles o (o_xincl ideal o) (o_xnodeo ideal o) (o_omegao ideal o) (o_xmo ideal o + 2 * PI * IZR k)) = propagate t o.
Proof.
  unfold propagate. set (o' := with_angles _ _ _ _ _).
  assert (K : sxpx_common_init ideal o' = sxpx_common_init ideal o) by reflexivity.
  assert (P : SGP4_init ideal o' = SGP4_init ideal o).
  { unfold SGP4_init. rewrite K. unfold o', with_angles. cbn [o_bstar o_xincl o_xnodeo o_eo o_omegao o_xmo o_xno o_type]. ic. rewrite cos_turns, sin_turns. reflexivity. }
  rewrite P. set (p := SGP4_init ideal o). unfold SGP4, o', with_angles, int. cbn [o_bstar o_xincl o_xnodeo o_eo o_omegao o_xmo o_xno o_type]. ic.
  replace (o_xmo ideal o + 2 * PI * IZR k + p_xmdot ideal p * t) with (o_xmo ideal o + p_xmdot ideal p * t + 2 * PI * IZR k) by ring.
  rewrite cos_turns. set (mdf := o_xmo ideal o + p_xmdot ideal p * t).
  destruct (p_simple ideal p); cbn [negb bind].
  - apply okay. turn_l k.
  - destruct (p_more ideal p) as [m|]; [|reflexivity]. cbn [bind]. apply okay.
    set (dd := r_omgcof ideal m * t + _).
    replace (mdf + 2 * PI * IZR k + dd) with (mdf + dd + 2 * PI * IZR k) by ring. rewrite sin_turns.
    turn_l k.
Qed.

(** ** The last stage against the report *)
Lemma posn_cases node a e i w L : 0 < a -> e ^ 2 <> 1 ->
  let p := sxpx_posn_vel ideal node a e (cos i) (sin i) i w L in
  (pl_code ideal p = (-1)%Z /\ 1 - 1 / 1000000 < eL2 a e i w)
  \/ (pl_code ideal p = (-6)%Z /\ eL2 a e i w <= 1 - 1 / 1000000)
  \/ (exists U E k, pl_code ideal p = (if Rlt_dec (Rmin (a * (1 - e)) (a * (1 + e))) 1 then -4 else 0)%Z
       /\ eL2 a e i w <= 1 - 1 / 1000000
       /\ U = LT a e i w L - node - 2 * PI * IZR k /\ - PI <= U <= PI
       /\ Rabs (kepler_defect a e i w U E) < 1 / 10 ^ 12
       /\ placed node a e i w E (vec_of (pl_pos ideal p)) (vec_of (pl_vel ideal p))).
Proof.
  intros Ha He. cbv zeta. rewrite posn_mirror. unfold q_first. rewrite elsq_eq by assumption.
  destruct (Rltb (1 / 1 - 1 / 1000000) (eL2 a e i w)) eqn:Q.
  { left. apply Rltb_t in Q. split; [reflexivity|lra]. }
  apply Rltb_f in Q. destruct (Rltb a (0 / 1)) eqn:Q2; [apply Rltb_t in Q2; lra|]. cbn [negb Z.eqb].
  destruct (kepler _ _ _ _ _ _ _ _) as [E|] eqn:KE; [|right; left; split; [reflexivity|lra]].
  right. right. apply kepler_sound in KE. destruct (centralize_ok (q_xlt a e (cos i) (sin i) w L - node)) as [[k K] R].
  exists (q_capu node a e (cos i) (sin i) w L), E, k. cbn [pl_code pl_pos pl_vel]. split; [|split; [|split; [|split; [|split]]]].
  - unfold q_code, Rltb, Rmin. destruct (Rlt_dec (a * (1 / 1 - e)) (1 / 1)); destruct (Rlt_dec (a * (1 / 1 + e)) (1 / 1)); destruct (Rle_dec _ _); cbn [andb Datatypes.orb];
      destruct (Rlt_dec _ 1); try reflexivity; exfalso; lra.
  - lra.
  - unfold q_capu. rewrite K. rewrite xlt_eq by assumption. change (num ideal) with R. ring.
  - exact R.
  - unfold kepler_defect. rewrite axn_eq, ayn_eq in KE by assumption.
    replace (_ - (E - axN e w * sin E + ayN a e i w * cos E)) with (q_capu node a e (cos i) (sin i) w L - E + (axN e w * sin E - ayN a e i w * cos E)) by ring.
    replace (1 / 10 ^ 12) with (1 / 1000000000000) by lra. exact KE.
  - apply place_ok; try assumption. lra.
Qed.

(** Lengths and the angle between position and velocity. *)
Lemma placed_lengths node a e i w E pos vel : placed node a e i w E pos vel ->
  exists r u, r = a * (1 - (axN e w * cos E + ayN a e i w * sin E)) /\
    dot pos pos = (XKMPER * r_k a e i w r u) ^ 2 /\
    dot vel vel = (XKMPER * rdot_k a e i w E r u) ^ 2 + (XKMPER * rfdot_k a e i w r u) ^ 2 /\
    dot pos vel = XKMPER ^ 2 * r_k a e i w r u * rdot_k a e i w E r u.
Proof.
  intros (r & u & Hr & _ & P & V). exists r, u. split; [exact Hr|].
  destruct (frame (node_k node a e i w u) (i_k a e i w u) (u_k a e i w u)) as (F1 & F2 & F3).
  set (A := radial _ _ _) in *. set (B := transverse _ _ _) in *. subst pos vel.
  set (k1 := r_k _ _ _ _ _ _). set (k2 := rdot_k _ _ _ _ _ _ _). set (k3 := rfdot_k _ _ _ _ _ _).
  assert (S1 : dot (scale (XKMPER * k1) A) (scale (XKMPER * k1) A) = (XKMPER * k1) ^ 2 * dot A A) by (unfold dot, scale; cbn [c_x c_y c_z]; ring).
  assert (S2 : dot (scale XKMPER (plus (scale k2 A) (scale k3 B))) (scale XKMPER (plus (scale k2 A) (scale k3 B)))
     = (XKMPER * k2) ^ 2 * dot A A + (XKMPER * k3) ^ 2 * dot B B + 2 * XKMPER ^ 2 * k2 * k3 * dot A B) by (unfold dot, scale, plus; cbn [c_x c_y c_z]; ring).
  assert (S3 : dot (scale (XKMPER * k1) A) (scale XKMPER (plus (scale k2 A) (scale k3 B))) = XKMPER ^ 2 * k1 * k2 * dot A A + XKMPER ^ 2 * k1 * k3 * dot A B)
    by (unfold dot, scale, plus; cbn [c_x c_y c_z]; ring).
  rewrite S1, S2, S3, F1, F2, F3. repeat split; ring.
Qed.

(** The solution of Kepler's equation exists, is unique, and the value used is near it. *)
Lemma kepler_solution a e i w U E : eL2 a e i w < 1 ->
  exists E', kepler_defect a e i w U E' = 0 /\ (forall x, kepler_defect a e i w U x = 0 -> x = E')
    /\ Rabs (E - E') <= Rabs (kepler_defect a e i w U E) / (1 - sqrt (eL2 a e i w)).
Proof.
  intros H. set (x := axN e w). set (y := ayN a e i w).
  assert (Q : eL2 a e i w = x * x + y * y) by (unfold eL2; fold x y; ring).
  assert (G : forall z, kepler_defect a e i w U z = U - g_left x y z) by (intros; unfold kepler_defect, g_left; fold x y; ring).
  assert (X1 : x * x + y * y < 1) by lra.
  destruct (g_onto x y X1 U) as [E' HE]. exists E'. rewrite G. split; [lra|]. split.
  - intros z Z. rewrite G in Z. assert (N := g_near x y X1 E' z). replace (g_left x y z - g_left x y E') with 0 in N by lra.
    rewrite Rabs_R0 in N. unfold Rdiv in N. rewrite Rmult_0_l in N. assert (P := Rabs_pos (z - E')). destruct (Req_dec (z - E') 0); [lra|]. apply Rabs_pos_lt in H0. lra.
  - rewrite G, Q. assert (N := g_near x y X1 E' E). replace (U - g_left x y E) with (- (g_left x y E - g_left x y E')) by lra. rewrite Rabs_Ropp. exact N.
Qed.
