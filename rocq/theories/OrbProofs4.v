(** Return codes; rotation of the node; whole turns. *)
From Coq Require Import ZArith Reals Lra Lia Bool List.
From Verif Require Import CLib FloatModel ArithModel GeoLemmas OrbModel OrbSpec OrbTerms OrbProofs1 OrbProofs2 OrbProofs3.
Import ListNotations.
Open Scope R_scope.

(** ** In every arithmetic *)
Lemma posn_codes A node a e ci si i w L :
  let p := sxpx_posn_vel A node a e ci si i w L in
  (In (pl_code A p) [-1; -2; -6]%Z /\ pl_pos A p = zero A /\ pl_vel A p = zero A) \/ In (pl_code A p) [0; -4]%Z.
Proof.
  cbv zeta. unfold sxpx_posn_vel.
  set (t1 := ltn A _ (add A (mul A (mul A e (c_cos A w)) _) _)). set (t2 := ltn A a _).
  destruct t1; [left; cbn; auto|]. destruct t2; [left; cbn; auto|]. cbn [negb Z.eqb].
  destruct (kepler _ _ _ _ _ _ _ _) as [E|].
  - right. cbn [pl_code]. destruct (ltn A (mul A a (sub A _ e)) _); destruct (ltn A (mul A a (add A _ e)) _); cbn; auto.
  - left. cbn. auto.
Qed.
Lemma posn_not_3 A node a e ci si i w L : pl_code A (sxpx_posn_vel A node a e ci si i w L) <> (-3)%Z.
Proof. destruct (posn_codes A node a e ci si i w L) as [(H & _)|H]; cbn in H; intuition congruence. Qed.

(** ** Whole turns of the longitude *)
Lemma sin_turns x k : sin (x + 2 * PI * IZR k) = sin x.
Proof.
  destruct (Z_le_gt_dec 0 k).
  - rewrite <- (Z2Nat.id k) by lia. rewrite <- INR_IZR_INZ. replace (2 * PI * INR (Z.to_nat k)) with (2 * INR (Z.to_nat k) * PI) by ring. apply sin_period.
  - set (y := x + 2 * PI * IZR k). replace x with (y + 2 * INR (Z.to_nat (- k)) * PI). { symmetry; apply sin_period. }
    unfold y. rewrite INR_IZR_INZ, Z2Nat.id by lia. rewrite opp_IZR. ring.
Qed.
Lemma cos_turns x k : cos (x + 2 * PI * IZR k) = cos x.
Proof.
  destruct (Z_le_gt_dec 0 k).
  - rewrite <- (Z2Nat.id k) by lia. rewrite <- INR_IZR_INZ. replace (2 * PI * INR (Z.to_nat k)) with (2 * INR (Z.to_nat k) * PI) by ring. apply cos_period.
  - set (y := x + 2 * PI * IZR k). replace x with (y + 2 * INR (Z.to_nat (- k)) * PI). { symmetry; apply cos_period. }
    unfold y. rewrite INR_IZR_INZ, Z2Nat.id by lia. rewrite opp_IZR. ring.
Qed.

Lemma kepler_turns ax ay U ecc k : forall n first E,
  kepler ideal n first ax ay (U + 2 * PI * IZR k) ecc (E + 2 * PI * IZR k)
  = match kepler ideal n first ax ay U ecc E with Some E => Some (E + 2 * PI * IZR k) | None => None end.
Proof.
  induction n as [|n IH]; intros first E; [reflexivity|].
  cbn [kepler]. cbn [c_sin c_cos add sub mul div opp c_fabs ltn cst ideal]. rewrite sin_turns, cos_turns.
  replace (U + 2 * PI * IZR k - (E + 2 * PI * IZR k) + (ax * sin E - ay * cos E)) with (U - E + (ax * sin E - ay * cos E)) by ring.
  destruct (Rltb (Rabs _) _); [reflexivity|].
  destruct (if first then _ else _) as [d s]. rewrite <- IH. f_equal. destruct s; ring.
Qed.

(** The last stage sees its angles only up to whole turns. *)
Lemma centralize_turns x k : exists j, centralize_angle ideal (x + 2 * PI * IZR k) = centralize_angle ideal x + 2 * PI * IZR j.
Proof.
  destruct (centralize_ok x) as [[k1 K1] _]. destruct (centralize_ok (x + 2 * PI * IZR k)) as [[k2 K2] _].
  exists (k + k1 - k2)%Z. rewrite K1, K2, minus_IZR, plus_IZR. change (num ideal) with R. ring.
Qed.

Lemma posn_turn_L node a e ci si i w L k :
  sxpx_posn_vel ideal node a e ci si i w (L + 2 * PI * IZR k) = sxpx_posn_vel ideal node a e ci si i w L.
Proof.
  rewrite !posn_mirror. destruct (negb _); [reflexivity|].
  assert (X : q_xlt a e ci si w (L + 2 * PI * IZR k) = q_xlt a e ci si w L + 2 * PI * IZR k) by (unfold q_xlt; lra).
  unfold q_capu. rewrite X. replace (q_xlt a e ci si w L + 2 * PI * IZR k - node) with (q_xlt a e ci si w L - node + 2 * PI * IZR k) by ring.
  destruct (centralize_turns (q_xlt a e ci si w L - node) k) as [j J]. rewrite J. rewrite kepler_turns.
  destruct (kepler _ _ _ _ _ _ _ _) as [E|]; [|reflexivity].
  assert (C : q_cosu a e si w (E + 2 * PI * IZR j) = q_cosu a e si w E).
  { unfold q_cosu, q_t, q_esin, q_r, q_ecos. rewrite sin_turns, cos_turns. reflexivity. }
  assert (S : q_sinu a e si w (E + 2 * PI * IZR j) = q_sinu a e si w E).
  { unfold q_sinu, q_t, q_esin, q_r, q_ecos. rewrite sin_turns, cos_turns. reflexivity. }
  assert (Hr : q_r a e si w (E + 2 * PI * IZR j) = q_r a e si w E).
  { unfold q_r, q_ecos. rewrite sin_turns, cos_turns. reflexivity. }
  assert (He : q_esin a e si w (E + 2 * PI * IZR j) = q_esin a e si w E).
  { unfold q_esin. rewrite sin_turns, cos_turns. reflexivity. }
  f_equal.
  - unfold q_pos, q_ux, q_uy, q_uz, q_rk, q_nodek, q_inck, q_uk, q_u, q_sin2u, q_cos2u. rewrite C, S, Hr. reflexivity.
  - unfold q_vel, q_ux, q_uy, q_uz, q_vx, q_vy, q_vz, q_rdotk, q_rfdotk, q_nodek, q_inck, q_uk, q_u, q_sin2u, q_cos2u. rewrite C, S, Hr, He. reflexivity.
Qed.
Lemma posn_turn_w node a e ci si i w L k :
  sxpx_posn_vel ideal node a e ci si i (w + 2 * PI * IZR k) L = sxpx_posn_vel ideal node a e ci si i w L.
Proof. unfold sxpx_posn_vel. cbn [c_sin c_cos ideal]. rewrite sin_turns, cos_turns. reflexivity. Qed.
Lemma posn_turn_i node a e ci si i w L k :
  sxpx_posn_vel ideal node a e ci si (i + 2 * PI * IZR k) w L = sxpx_posn_vel ideal node a e ci si i w L.
Proof.
  rewrite !posn_mirror. destruct (negb _); [reflexivity|]. destruct (kepler _ _ _ _ _ _ _ _) as [E|]; [|reflexivity].
  assert (I : q_inck a e ci si (i + 2 * PI * IZR k) w E = q_inck a e ci si i w E + 2 * PI * IZR k) by (unfold q_inck; ring).
  f_equal.
  - unfold q_pos, q_ux, q_uy, q_uz. rewrite I, sin_turns, cos_turns. reflexivity.
  - unfold q_vel, q_ux, q_uy, q_uz, q_vx, q_vy, q_vz. rewrite I, sin_turns, cos_turns. reflexivity.
Qed.

(** The node and the longitude moved together. *)
Lemma posn_turned node a e ci si i w L t :
  turned t (sxpx_posn_vel ideal node a e ci si i w L) (sxpx_posn_vel ideal (node + t) a e ci si i w (L + t)).
Proof.
  rewrite !posn_mirror. 
  assert (Z0 : turned t (mk_place ideal (-6) (zero ideal) (zero ideal)) (mk_place ideal (-6) (zero ideal) (zero ideal))).
  { unfold turned, turn, vec_of, zero, int. cbn. repeat split; f_equal; lra. }
  destruct (negb _).
  { unfold turned in *. cbn [pl_code pl_pos pl_vel] in *. tauto. }
  assert (X : q_xlt a e ci si w (L + t) = q_xlt a e ci si w L + t) by (unfold q_xlt; lra).
  unfold q_capu. rewrite X. replace (q_xlt a e ci si w L + t - (node + t)) with (q_xlt a e ci si w L - node) by ring.
  destruct (kepler _ _ _ _ _ _ _ _) as [E|]; [|exact Z0].
  assert (N : q_nodek (node + t) a e ci si w E = q_nodek node a e ci si w E + t) by (unfold q_nodek; ring).
  unfold turned. cbn [pl_code pl_pos pl_vel]. split; [reflexivity|].
  unfold q_pos, q_vel, q_ux, q_uy, q_uz, q_vx, q_vy, q_vz, turn, vec_of. cbn [fst snd c_x c_y c_z]. rewrite N, sin_plus, cos_plus.
  change (num ideal) with R. split; f_equal; ring.
Qed.
